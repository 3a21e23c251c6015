(** Stable insertion sort: Python's [sorted] / [list.sort] as a function
    (a stable sort by a total preorder is unique, so the algorithm does not
    matter). *)
From Coq Require Import Permutation Sorted.
From Verif Require Import Base BaseLemmas.

Section Sort.
  Context {A : Type} (leb : A -> A -> bool).

  Fixpoint insert (x : A) (l : list A) : list A :=
    match l with
    | [] => [x]
    | y :: l' => if leb x y then x :: l else y :: insert x l'
    end.
  Fixpoint isort (l : list A) : list A :=
    match l with [] => [] | x :: l' => insert x (isort l') end.

  Lemma insert_perm x l : Permutation (x :: l) (insert x l).
  Proof.
    induction l as [|y l IH]; cbn; [reflexivity|].
    destruct (leb x y); [reflexivity|].
    rewrite perm_swap. now constructor.
  Qed.

  Lemma isort_perm l : Permutation l (isort l).
  Proof.
    induction l as [|x l IH]; cbn; [constructor|].
    rewrite <- insert_perm. now constructor.
  Qed.

  Lemma isort_In x l : In x (isort l) <-> In x l.
  Proof.
    split; apply Permutation_in; [symmetry|]; apply isort_perm.
  Qed.

  Lemma isort_length l : List.length (isort l) = List.length l.
  Proof. symmetry. apply Permutation_length, isort_perm. Qed.

  Hypothesis leb_total : forall a b, leb a b = true \/ leb b a = true.
  Hypothesis leb_trans : forall a b c, leb a b = true -> leb b c = true -> leb a c = true.

  Definition sorted (l : list A) : Prop := StronglySorted (fun a b => leb a b = true) l.

  Lemma insert_sorted x l : sorted l -> sorted (insert x l).
  Proof using leb_total leb_trans.
    induction l as [|y l IH]; cbn; intros H.
    - constructor; constructor.
    - inversion H as [|? ? Hs Hall]; subst. destruct (leb x y) eqn:E.
      + constructor; [assumption|]. constructor; [assumption|].
        rewrite Forall_forall in *. intros z Hz. eapply leb_trans; [exact E|auto].
      + constructor; [now apply IH|]. rewrite Forall_forall in *. intros z Hz.
        apply (Permutation_in _ (Permutation_sym (insert_perm x l))) in Hz.
        destruct Hz as [<-|Hz]; [|auto]. destruct (leb_total x y); [congruence|assumption].
  Qed.

  Lemma isort_sorted l : sorted (isort l).
  Proof using leb_total leb_trans.
    induction l as [|x l IH]; cbn; [constructor|]. now apply insert_sorted.
  Qed.

  Lemma insert_fixed x l : (forall y, In y l -> leb x y = true) -> insert x l = x :: l.
  Proof. destruct l as [|y l]; cbn; [reflexivity|]. intros H. now rewrite H by now left. Qed.

  Lemma isort_fixed l : sorted l -> isort l = l.
  Proof.
    induction 1 as [|x l Hs IH Hall]; cbn; [reflexivity|]. rewrite IH.
    apply insert_fixed. now apply Forall_forall.
  Qed.

  (** Stability: equivalent elements keep their relative order. *)
  Lemma insert_filter (p : A -> bool) x l :
    (forall y, p x = true -> p y = true -> leb x y = true) ->
    filter p (insert x l) = filter p (x :: l).
  Proof.
    intros Hp. induction l as [|y l IH]; cbn [insert]; [reflexivity|].
    destruct (leb x y) eqn:E; [reflexivity|].
    cbn [filter] in *. rewrite IH. destruct (p x) eqn:Ex, (p y) eqn:Ey; try reflexivity.
    rewrite (Hp y eq_refl Ey) in E. discriminate.
  Qed.

  Lemma isort_stable (p : A -> bool) l :
    (forall x y, p x = true -> p y = true -> leb x y = true) ->
    filter p (isort l) = filter p l.
  Proof.
    intros Hp. induction l as [|x l IH]; cbn [isort]; [reflexivity|].
    rewrite insert_filter by auto. cbn [filter]. now rewrite IH.
  Qed.

  Hypothesis leb_antisym : forall a b, leb a b = true -> leb b a = true -> a = b.

  Lemma sorted_unique l m : sorted l -> sorted m -> Permutation l m -> l = m.
  Proof using leb_antisym.
    revert m. induction l as [|x l IH]; intros m Hl Hm Hp.
    - now apply Permutation_nil in Hp.
    - destruct m as [|y m]; [symmetry in Hp; apply Permutation_nil in Hp; discriminate|].
      inversion Hl as [|? ? Hsl Hal]; subst. inversion Hm as [|? ? Hsm Ham]; subst.
      rewrite Forall_forall in *.
      assert (x = y) as ->.
      { assert (In x (y :: m)) as Hx by (apply (Permutation_in _ Hp); now left).
        assert (In y (x :: l)) as Hy by (apply (Permutation_in _ (Permutation_sym Hp)); now left).
        destruct Hx as [Hx|Hx]; [now symmetry|]. destruct Hy as [Hy|Hy]; [assumption|].
        apply leb_antisym; auto. }
      f_equal. apply IH; auto. now apply Permutation_cons_inv in Hp.
  Qed.

  Lemma isort_eq_perm l m : isort l = isort m <-> Permutation l m.
  Proof using leb_total leb_trans leb_antisym.
    split; intros H.
    - rewrite (isort_perm l), (isort_perm m), H. reflexivity.
    - apply sorted_unique; try apply isort_sorted.
      now rewrite <- (isort_perm l), <- (isort_perm m).
  Qed.
End Sort.

(** Strings. *)
Lemma ascii_compare_lt_trans a b c :
  Ascii.compare a b = Lt -> Ascii.compare b c = Lt -> Ascii.compare a c = Lt.
Proof. unfold Ascii.compare. rewrite !N.compare_lt_iff. intros. lia. Qed.

Lemma string_compare_lt_trans a b c :
  String.compare a b = Lt -> String.compare b c = Lt -> String.compare a c = Lt.
Proof.
  revert b c. induction a as [|x a IH]; intros b c H1 H2.
  - destruct c; [|reflexivity]. destruct b; cbn in *; discriminate.
  - destruct b as [|y b]; cbn in H1; [discriminate|]. destruct c as [|z c]; cbn in H2; [discriminate|].
    cbn. destruct (Ascii.compare x y) eqn:E1; [|clear H1|discriminate].
    + apply Ascii.compare_eq_iff in E1. subst y.
      destruct (Ascii.compare x z); try discriminate; [|reflexivity]. eauto.
    + destruct (Ascii.compare y z) eqn:E2; [| |discriminate].
      * apply Ascii.compare_eq_iff in E2. subst z. now rewrite E1.
      * now rewrite (ascii_compare_lt_trans _ _ _ E1 E2).
Qed.

Lemma string_leb_trans a b c : String.leb a b = true -> String.leb b c = true -> String.leb a c = true.
Proof.
  unfold String.leb. intros H1 H2.
  destruct (String.compare a b) eqn:E1; [| |discriminate].
  - apply String.compare_eq_iff in E1. now subst.
  - destruct (String.compare b c) eqn:E2; [| |discriminate].
    + apply String.compare_eq_iff in E2. subst. now rewrite E1.
    + now rewrite (string_compare_lt_trans _ _ _ E1 E2).
Qed.
