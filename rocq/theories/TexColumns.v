(** Column separators in the lines of LaTeX tables. *)
From Verif Require Import Base BaseLemmas Latex TexTable TexSpec TexProofs TexNest.

Lemma amps_app a b : amps (a ++ b) = (amps a + amps b)%nat.
Proof. unfold amps. now rewrite chars_append, filter_app, app_length. Qed.
Lemma amps_join l : (forall x, In x l -> amps x = 0%nat) -> amps (String.concat " & " l) = pred (List.length l).
Proof.
  induction l as [|x l IH]; intros H; [reflexivity|]. destruct l as [|y l]; [apply H; now left|].
  change (String.concat " & " (x :: y :: l)) with (x ++ " & " ++ String.concat " & " (y :: l))%string.
  rewrite !amps_app, IH by (intros z Hz; apply H; now right). rewrite (H x) by now left. cbn. lia.
Qed.
Lemma heading_amps type c : amps (heading type c) = amps c.
Proof. unfold heading. destruct (string_dec type "table"); rewrite !amps_app; cbn; lia. Qed.

Lemma columns b cols r ys type : shown_row b cols r ys -> List.length (snd r) = List.length cols ->
  (forall c, In c cols -> amps c = 0%nat) -> (forall x, In x (snd r) -> amps x = 0%nat) ->
  (forall i c d, In (TDecorate i c d) b -> forall x, amps x = 0%nat -> amps (d x) = 0%nat) ->
  amps (String.concat " & " ys ++ " \\") = pred (List.length cols) /\
  amps (String.concat " & " (map (heading type) cols) ++ " \\") = pred (List.length cols).
Proof.
  intros [L S] Lr Hc Hx Hd. rewrite !amps_app. split.
  - rewrite amps_join; [rewrite L; cbn; lia|]. intros y Hy. apply In_nth_error in Hy as (k & Hk).
    assert (K : (k < List.length cols)%nat) by (rewrite <- L; apply nth_error_Some; congruence).
    destruct (nth_error cols k) as [c|] eqn:Ck; [|apply nth_error_None in Ck; lia].
    destruct (nth_error (snd r) k) as [x|] eqn:Xk; [|apply nth_error_None in Xk; lia].
    destruct (S k c x y Ck Xk Hk) as (d & D & ->). apply nth_error_In in Xk.
    destruct D as [[_ ->]|(u & o & v & -> & So & _)]; [now apply Hx|]. destruct o as [| | | |i c' d']; try discriminate So.
    cbn in So. destruct (Z.eq_dec i (fst r)); [|discriminate]. destruct (string_dec c' c); [|discriminate]. injection So as <-.
    apply (Hd i c'); [apply in_or_app; right; now left|now apply Hx].
  - rewrite amps_join; [rewrite map_length; cbn; lia|]. intros y Hy. apply in_map_iff in Hy as (c & <- & I). rewrite heading_amps. now apply Hc.
Qed.
