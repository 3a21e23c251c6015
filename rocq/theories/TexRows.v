(** The rows of tables of reactions. *)
From Verif Require Import Base BaseLemmas Species Reactions Latex TexTable TexSpec TexProofs TexText TexNest.

Lemma Forall2_len {A B} (R : A -> B -> Prop) l m : Forall2 R l m -> List.length l = List.length m.
Proof. induction 1; cbn; congruence. Qed.
Lemma Forall2_nth {A B} (R : A -> B -> Prop) l m : Forall2 R l m -> forall i x d, nth_error l i = Some x -> R x (nth i m d).
Proof.
  induction 1 as [|a b l m H F IH]; intros [|i] x d Hx; cbn in Hx; try discriminate; cbn [nth]; [injection Hx as <-; exact H|now apply IH].
Qed.

Lemma rows_of E cols rs rows : reactions_table E cols rs = Ok rows ->
  Forall2 (fun r row => Forall2 (fun c x => cell E c r = Ok x) cols row) rs rows.
Proof.
  unfold reactions_table. intros H. destruct (mapM (fun c => mapM (cell E c) rs) cols) as [bc|] eqn:M; [|discriminate]. cbn [bind] in H. apply Ok_same in H. rewrite <- H. clear H.
  apply mapM_Ok_inv in M. assert (G : forall us i, (forall k r, nth_error us k = Some r -> nth_error rs (i + k) = Some r) ->
    Forall2 (fun r row => Forall2 (fun c x => cell E c r = Ok x) cols row) us (map (fun i => map (fun col => nth i col ""%string) bc) (seq i (List.length us)))).
  { induction us as [|r us IH]; intros i Hi; cbn [List.length seq map]; constructor.
    - specialize (Hi 0%nat r eq_refl). rewrite Nat.add_0_r in Hi. clear -M Hi. induction M as [|c col cs bc Hc F IH]; cbn [map]; constructor; [|exact IH].
      apply mapM_Ok_inv in Hc. exact (Forall2_nth _ _ _ Hc i r ""%string Hi).
    - apply IH. intros k q Hk. replace (S i + k)%nat with (i + S k)%nat by lia. now apply Hi. }
  apply (G rs 0%nat). intros k r Hk. exact Hk.
Qed.

Lemma reactions_frame E cols rs t : new_reactions_table E cols rs = Ok t ->
  exists fr, t = texrun [TLoad fr] (new_table "longtable" "1.5" "tiny") /\
    Forall2 (fun c n => n = match c with ColId => "ID" | ColReaction => "Reaction" | ColRate => "$k$" | ColLoss => "$\Delta E_\mathrm{e}$" | ColSource => "Source" end%string)
      cols (f_cols fr) /\
    Forall2 (fun r row => fst row = r_id r /\ Forall2 (fun c x => cell E c r = Ok x) cols (snd row)) rs (f_rows fr) /\
    (NoDup cols -> NoDup (map r_id rs) -> regular fr).
Proof.
  unfold new_reactions_table. intros H. destruct (reactions_table E cols rs) as [rows|] eqn:R; [|discriminate]. cbn [bind] in H. apply Ok_same in H. rewrite <- H.
  exists (MkFrame (map column_name cols) (combine (map r_id rs) rows)). split; [reflexivity|]. apply rows_of in R. cbn [f_cols f_rows].
  assert (A : Forall2 (fun r row => fst row = r_id r /\ Forall2 (fun c x => cell E c r = Ok x) cols (snd row)) rs (combine (map r_id rs) rows)).
  { clear -R. induction R as [|r row rs rows H F IH]; cbn [map combine]; constructor; [now split|exact IH]. }
  split; [|split; [exact A|]].
  - clear. induction cols as [|c cols IH]; cbn [map]; constructor; [destruct c; reflexivity|exact IH].
  - intros NC NI. split; [|split]; cbn [f_cols f_rows].
    + assert (Q : map fst (combine (map r_id rs) rows) = map r_id rs) by (clear -A; induction A as [|r row rs rws [H _] F IH]; cbn [map]; [reflexivity|]; now rewrite H, IH).
      now rewrite Q.
    + clear -NC. induction NC as [|c cols N ND IH]; cbn [map]; constructor; [|exact IH]. intros H. apply N. apply in_map_iff in H as (d & Hd & I).
      assert (c = d) as ->; [|exact I]. destruct c, d; try reflexivity; discriminate.
    + intros row Hr. rewrite map_length. clear -A Hr. induction A as [|r row' rs rws [_ H] F IH]; [contradiction|]. destruct Hr as [->|Hr]; [|now apply IH].
      symmetry. now apply Forall2_len in H.
Qed.
