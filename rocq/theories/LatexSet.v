(** Formulas as a whole: blocks put together, letters set upright. *)
From Verif Require Import Base BaseLemmas Species Reactions ReactionProofs Latex LatexSpec LatexName LatexFormula.

Definition none : string * string := ("", "")%string.

(** The blocks of a run of elements with the count and mark of its end. *)
Fixpoint run_blocks (l : list string) (n m : string * string) : list (string * (string * string) * (string * string)) :=
  match l with
  | [] => []
  | [x] => [(x, n, m)]
  | x :: l' => (x, none, none) :: run_blocks l' n m
  end.
Definition block_text (b : string * (string * string) * (string * string)) : list ascii :=
  let '(x, n, m) := b in chars (x ++ fst n ++ fst m).
Definition block_tex (b : string * (string * string) * (string * string)) : list ascii :=
  let '(x, n, m) := b in chars (x ++ snd n ++ snd m).

Fixpoint letters (l : list string) : list ascii := match l with [] => [] | x :: l' => chars x ++ letters l' end.
Lemma letters_concat l : letters l = chars (concat_text l).
Proof.
  unfold concat_text. induction l as [|x l IH]; [reflexivity|]. cbn [letters String.concat].
  destruct l as [|y l]; [now rewrite app_nil_r|]. rewrite IH. rewrite chars_app. reflexivity.
Qed.

Lemma run_text l n m : l <> [] -> List.concat (map block_text (run_blocks l n m)) = letters l ++ chars (fst n) ++ chars (fst m).
Proof.
  induction l as [|x l IH]; intros H; [congruence|]. destruct l as [|y l].
  - cbn [run_blocks map List.concat block_text letters]. rewrite !chars_app, !app_nil_r. reflexivity.
  - change (run_blocks (x :: y :: l) n m) with ((x, none, none) :: run_blocks (y :: l) n m).
    cbn [map List.concat]. rewrite IH by discriminate. cbn [block_text none fst letters]. rewrite !chars_app. cbn [chars].
    rewrite !app_nil_r. now rewrite <- !app_assoc.
Qed.
Lemma run_tex l n m : l <> [] -> List.concat (map block_tex (run_blocks l n m)) = letters l ++ chars (snd n) ++ chars (snd m).
Proof.
  induction l as [|x l IH]; intros H; [congruence|]. destruct l as [|y l].
  - cbn [run_blocks map List.concat block_tex letters]. rewrite !chars_app, !app_nil_r. reflexivity.
  - change (run_blocks (x :: y :: l) n m) with ((x, none, none) :: run_blocks (y :: l) n m).
    cbn [map List.concat]. rewrite IH by discriminate. cbn [block_tex none snd letters]. rewrite !chars_app. cbn [chars].
    rewrite !app_nil_r. now rewrite <- !app_assoc.
Qed.

Definition block_ok (b : string * (string * string) * (string * string)) : Prop :=
  let '(x, n, m) := b in In x elements /\ (n = none \/ In n counts) /\ In m marks.
Lemma none_mark : In none marks.
Proof. now left. Qed.
Lemma run_ok_blocks l n m : (forall x, In x l -> In x elements) -> n = none \/ In n counts -> In m marks ->
  Forall block_ok (run_blocks l n m).
Proof.
  intros H Hn Hm. induction l as [|x l IH]; [constructor|]. destruct l as [|y l].
  - constructor; [|constructor]. split; [apply H; now left|easy].
  - change (run_blocks (x :: y :: l) n m) with ((x, none, none) :: run_blocks (y :: l) n m). constructor.
    + split; [apply H; now left|]. split; [now left|apply none_mark].
    + apply IH. intros z Hz. apply H. now right.
Qed.

(** Blocks of allowed parts are blocks. *)
Definition no_upper_s (s : string) : bool := no_upper (chars s).
Lemma parts_no_upper : forallb (fun n => no_upper_s (fst n)) (all_counts ++ marks) = true.
Proof. vm_compute. reflexivity. Qed.
Lemma elements_blocks : forallb (fun x => match chars x with c :: t => is_upper c && no_upper t | [] => false end) elements = true.
Proof. vm_compute. reflexivity. Qed.
Lemma block_ok_block b : block_ok b -> block (block_text b).
Proof.
  destruct b as [[x n] m]. intros (Hx & Hn & Hm).
  assert (N : no_upper (chars (fst n)) = true).
  { pose proof parts_no_upper as K. rewrite forallb_forall in K. apply (K n). apply in_or_app. left.
    destruct Hn as [->|Hn]; [now left|now right]. }
  assert (M : no_upper (chars (fst m)) = true).
  { pose proof parts_no_upper as K. rewrite forallb_forall in K. apply (K m). apply in_or_app. now right. }
  pose proof elements_blocks as K. rewrite forallb_forall in K. specialize (K x Hx).
  unfold block_text. rewrite !chars_app. destruct (chars x) as [|c t]; [discriminate|].
  apply Bool.andb_true_iff in K as [K1 K2]. exists c, (t ++ chars (fst n) ++ chars (fst m)). split; [reflexivity|]. split; [easy|].
  unfold no_upper in *. rewrite !forallb_app, K2, N, M. reflexivity.
Qed.

Lemma steps_all bs : Forall block_ok bs -> steps (List.concat (map block_text bs)) = List.concat (map block_tex bs).
Proof.
  intros H. rewrite steps_blocks.
  - f_equal. rewrite map_map. induction H as [|b bs Hb Hbs IH]; [reflexivity|]. cbn [map]. f_equal; [|exact IH].
    destruct b as [[x n] m]. destruct Hb as (Hx & Hn & Hm). now apply steps_block.
  - apply Forall_forall. intros l Hl. apply in_map_iff in Hl as (b & <- & Hb). rewrite Forall_forall in H. apply block_ok_block. auto.
Qed.

(** ** Formulas *)

Fixpoint formula_blocks (gs : list (list string * (string * string))) (tl : list string) (m : string * string) :=
  match gs with
  | [] => run_blocks tl none m
  | g :: gs' =>
      match gs', tl with
      | [], [] => run_blocks (fst g) (snd g) m
      | _, _ => run_blocks (fst g) (snd g) none ++ formula_blocks gs' tl m
      end
  end.

Fixpoint plain (gs : list (list string * (string * string))) (tl : list string) (m : string * string) : list ascii :=
  match gs with
  | [] => letters tl ++ chars (fst m)
  | g :: gs' => letters (fst g) ++ chars (fst (snd g)) ++ plain gs' tl m
  end.
Fixpoint set_text (gs : list (list string * (string * string))) (tl : list string) (m : string * string) : list ascii :=
  match gs with
  | [] => letters tl ++ chars (snd m)
  | g :: gs' => letters (fst g) ++ chars (snd (snd g)) ++ set_text gs' tl m
  end.

Section Formula.
Variables (tl : list string) (m : string * string).
Hypothesis Htl : tl = [] \/ run_ok tl.
Hypothesis Hm : In m marks.

Definition groups_ok (gs : list (list string * (string * string))) : Prop :=
  forall g, In g gs -> run_ok (fst g) /\ In (snd g) counts.

Lemma blocks_ok gs : groups_ok gs -> Forall block_ok (formula_blocks gs tl m).
Proof.
  induction gs as [|g gs IH]; intros H.
  - apply run_ok_blocks; [|now left|easy]. destruct Htl as [->|[_ K]]; [easy|exact K].
  - assert (G : run_ok (fst g) /\ In (snd g) counts) by (apply H; now left). destruct G as [[_ G1] G2].
    assert (IH' : Forall block_ok (formula_blocks gs tl m)) by (apply IH; intros x Hx; apply H; now right).
    assert (One : Forall block_ok (run_blocks (fst g) (snd g) none ++ formula_blocks gs tl m)).
    { apply Forall_app. split; [|exact IH']. apply run_ok_blocks; [exact G1|now right|apply none_mark]. }
    cbn [formula_blocks]. destruct gs; [destruct tl|]; try exact One.
    apply run_ok_blocks; [exact G1|now right|easy].
Qed.

Lemma blocks_plain gs : groups_ok gs -> gs <> [] \/ tl <> [] ->
  List.concat (map block_text (formula_blocks gs tl m)) = plain gs tl m.
Proof.
  induction gs as [|g gs IH]; intros H N.
  - destruct N as [N|N]; [congruence|]. cbn [formula_blocks plain]. now rewrite run_text.
  - assert (G : run_ok (fst g) /\ In (snd g) counts) by (apply H; now left). destruct G as [[G0 _] _].
    assert (H' : groups_ok gs) by (intros x Hx; apply H; now right).
    cbn [formula_blocks plain].
    assert (One : gs <> [] \/ tl <> [] -> List.concat (map block_text (run_blocks (fst g) (snd g) none ++ formula_blocks gs tl m)) =
              letters (fst g) ++ chars (fst (snd g)) ++ plain gs tl m).
    { intros N'. rewrite map_app, concat_app, run_text, IH by easy. cbn [none fst chars]. now rewrite app_nil_r, <- app_assoc. }
    destruct gs; [destruct tl|]; try (apply One; ((now left) || (now right))).
    rewrite run_text by easy. reflexivity.
Qed.
Lemma blocks_set gs : groups_ok gs -> gs <> [] \/ tl <> [] ->
  List.concat (map block_tex (formula_blocks gs tl m)) = set_text gs tl m.
Proof.
  induction gs as [|g gs IH]; intros H N.
  - destruct N as [N|N]; [congruence|]. cbn [formula_blocks set_text]. now rewrite run_tex.
  - assert (G : run_ok (fst g) /\ In (snd g) counts) by (apply H; now left). destruct G as [[G0 _] _].
    assert (H' : groups_ok gs) by (intros x Hx; apply H; now right).
    cbn [formula_blocks set_text].
    assert (One : gs <> [] \/ tl <> [] -> List.concat (map block_tex (run_blocks (fst g) (snd g) none ++ formula_blocks gs tl m)) =
              letters (fst g) ++ chars (snd (snd g)) ++ set_text gs tl m).
    { intros N'. rewrite map_app, concat_app, run_tex, IH by easy. cbn [none snd chars]. now rewrite app_nil_r, <- app_assoc. }
    destruct gs; [destruct tl|]; try (apply One; ((now left) || (now right))).
    rewrite run_tex by easy. reflexivity.
Qed.

Lemma steps_formula gs : groups_ok gs -> gs <> [] \/ tl <> [] -> steps (plain gs tl m) = set_text gs tl m.
Proof.
  intros H N. rewrite <- blocks_plain, <- blocks_set by easy. apply steps_all. now apply blocks_ok.
Qed.

(** ** Upright letters *)

Lemma F_letters a l : forallb is_alpha a = true -> a <> [] ->
  F (a ++ l) = (a ++ (if snd (F l) then fst (F l) else "}"%char :: fst (F l)), true).
Proof.
  induction a as [|c a IH]; intros H N; [congruence|]. cbn [forallb] in H. apply Bool.andb_true_iff in H as [H1 H2].
  cbn [app]. rewrite F_cons. destruct a as [|d a].
  - cbn [app]. unfold wrap_step. destruct (F l) as [o e]. rewrite H1. cbn [fst snd]. now destruct e.
  - rewrite IH by (easy || discriminate). unfold wrap_step. now rewrite H1.
Qed.
Lemma F_others a l : forallb (fun c => negb (is_alpha c)) a = true -> a <> [] ->
  F (a ++ l) = (a ++ (if snd (F l) then chars " \mathrm{" ++ fst (F l) else fst (F l)), false).
Proof.
  induction a as [|c a IH]; intros H N; [congruence|]. cbn [forallb] in H. apply Bool.andb_true_iff in H as [H1 H2].
  apply Bool.negb_true_iff in H1. cbn [app]. rewrite F_cons. destruct a as [|d a].
  - cbn [app]. unfold wrap_step. destruct (F l) as [o e]. rewrite H1. cbn [fst snd]. now destruct e.
  - rewrite IH by (easy || discriminate). unfold wrap_step. now rewrite H1.
Qed.

Lemma elements_alpha : forallb (fun x => match chars x with [] => false | l => forallb is_alpha l end) elements = true.
Proof. vm_compute. reflexivity. Qed.
Lemma run_alpha l : run_ok l -> forallb is_alpha (letters l) = true /\ letters l <> [].
Proof.
  intros [N H]. pose proof elements_alpha as K. rewrite forallb_forall in K.
  assert (A : forall x, In x l -> forallb is_alpha (chars x) = true /\ chars x <> []).
  { intros x Hx. specialize (K x (H x Hx)). destruct (chars x); [discriminate|]. easy. }
  split.
  - clear N. induction l as [|x l IH]; [reflexivity|]. cbn [letters]. rewrite forallb_app.
    destruct (A x) as [-> _]; [now left|]. apply IH; intros y Hy; [apply H|apply A]; now right.
  - destruct l as [|x l]; [congruence|]. cbn [letters]. destruct (A x) as [_ A0]; [now left|].
    destruct (chars x); [congruence|discriminate].
Qed.
Lemma counts_others : forallb (fun n => match chars (snd n) with [] => false | l => forallb (fun c => negb (is_alpha c)) l end) counts = true.
Proof. vm_compute. reflexivity. Qed.
Lemma marks_others : forallb (fun n => forallb (fun c => negb (is_alpha c)) (chars (snd n))) marks = true.
Proof. vm_compute. reflexivity. Qed.

Lemma F_mark : F (chars (snd m)) = (chars (snd m), false).
Proof.
  pose proof marks_others as K. rewrite forallb_forall in K. specialize (K m Hm).
  destruct (chars (snd m)) as [|c l]; [reflexivity|]. rewrite <- (app_nil_r (c :: l)) at 1. rewrite F_others by (easy || discriminate).
  cbn [F fold_right fst snd]. now rewrite app_nil_r.
Qed.

(** The LaTeX piece by piece. *)
Fixpoint pieces (gs : list (list string * (string * string))) : list (list ascii) :=
  match gs with
  | [] => match tl with [] => [] | _ => [chars "\mathrm{" ++ letters tl ++ ["}"%char]] end
  | g :: gs' => (chars "\mathrm{" ++ letters (fst g) ++ "}"%char :: chars (snd (snd g))) :: pieces gs'
  end.
Fixpoint spaced (l : list (list ascii)) : list ascii :=
  match l with [] => [] | [x] => x | x :: l' => x ++ " "%char :: spaced l' end.

Lemma F_formula gs : groups_ok gs ->
  (gs <> [] \/ tl <> [] -> snd (F (set_text gs tl m)) = true /\
     chars "\mathrm{" ++ fst (F (set_text gs tl m)) = spaced (pieces gs) ++ chars (snd m)).
Proof.
  induction gs as [|g gs IH]; intros H N.
  - destruct N as [N|N]; [congruence|]. destruct Htl as [->|K]; [congruence|].
    destruct (run_alpha tl K) as [A1 A2]. cbn [set_text]. rewrite F_letters, F_mark by easy. cbn [fst snd]. split; [reflexivity|].
    cbn [pieces]. destruct tl; [congruence|]. cbn [spaced]. rewrite <- !app_assoc. reflexivity.
  - assert (G : run_ok (fst g) /\ In (snd g) counts) by (apply H; now left). destruct G as [G1 G2].
    assert (H' : groups_ok gs) by (intros x Hx; apply H; now right).
    destruct (run_alpha (fst g) G1) as [A1 A2].
    pose proof counts_others as K. rewrite forallb_forall in K. specialize (K _ G2).
    assert (K' : forallb (fun c => negb (is_alpha c)) (chars (snd (snd g))) = true /\ chars (snd (snd g)) <> []).
    { destruct (chars (snd (snd g))); [discriminate|]. easy. }
    destruct K' as [B1 B2]. cbn [set_text]. rewrite F_letters, F_others by easy. cbn [fst snd]. split; [reflexivity|].
    assert (Ne : (gs = [] /\ tl = []) \/ (gs <> [] \/ tl <> [])).
    { destruct gs; [destruct tl|]; auto; right; (now left) || (now right). }
    destruct Ne as [[-> E]|Ne].
    + cbn [set_text pieces]. rewrite E. cbn [letters app]. rewrite F_mark. cbn [fst snd spaced]. rewrite <- !app_assoc. reflexivity.
    + destruct (IH H' Ne) as [E1 E2]. rewrite E1.
      assert (Sp : spaced (pieces (g :: gs)) = (chars "\mathrm{" ++ letters (fst g) ++ "}"%char :: chars (snd (snd g))) ++ " "%char :: spaced (pieces gs)).
      { cbn [pieces]. destruct gs as [|g' gs]; [|reflexivity]. cbn [pieces]. destruct tl; [destruct Ne; congruence|]. reflexivity. }
      rewrite Sp. change (chars " \mathrm{") with (" "%char :: chars "\mathrm{").
      rewrite <- !app_assoc. cbn [app]. rewrite <- E2. rewrite <- ?app_assoc. reflexivity.
Qed.

Lemma starts_letter gs : groups_ok gs -> gs <> [] \/ tl <> [] ->
  exists c l, set_text gs tl m = c :: l /\ is_alpha c = true.
Proof.
  intros H N.
  assert (G : exists r, run_ok r /\ exists l, set_text gs tl m = letters r ++ l).
  { destruct gs as [|g gs].
    - destruct N as [N|N]; [congruence|]. destruct Htl as [E|K]; [congruence|]. exists tl. split; [easy|]. cbn. eauto.
    - exists (fst g). split; [apply H; now left|]. cbn [set_text]. eauto. }
  destruct G as (r & R & l & ->). destruct (run_alpha r R) as [A1 A2].
  destruct (letters r) as [|c t]; [congruence|]. cbn in A1. apply Bool.andb_true_iff in A1. exists c, (t ++ l). easy.
Qed.

Lemma ground_formula gs : groups_ok gs -> gs <> [] \/ tl <> [] ->
  texify_ground_state (plain gs tl m) = spaced (pieces gs) ++ chars (snd m).
Proof.
  intros H N. change (texify_ground_state (plain gs tl m)) with (wrap_letters (steps (plain gs tl m))).
  rewrite steps_formula by easy. unfold wrap_letters. fold (F (set_text gs tl m)).
  destruct (F_formula gs H N) as [_ E]. rewrite <- E.
  destruct (starts_letter gs H N) as (c & l & -> & A). now rewrite A.
Qed.
End Formula.
