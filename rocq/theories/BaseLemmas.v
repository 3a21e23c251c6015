(** Lemmas about the primitives of Base.v. *)
From Verif Require Import Base.
From Coq Require Import ZifyBool Permutation.

Lemma memZ_In x l : memZ x l = true <-> In x l.
Proof.
  unfold memZ. rewrite existsb_exists. split.
  - intros (y & Hy & E). apply Z.eqb_eq in E. subst. exact Hy.
  - intros H. exists x. split; [exact H|apply Z.eqb_refl].
Qed.

Lemma memZ_false x l : memZ x l = false <-> ~ In x l.
Proof. rewrite <- memZ_In. destruct (memZ x l); intuition congruence. Qed.

Lemma memS_In x l : memS x l = true <-> In x l.
Proof.
  unfold memS. rewrite existsb_exists. split.
  - intros (y & Hy & E). apply String.eqb_eq in E. subst. exact Hy.
  - intros H. exists x. split; [exact H|apply String.eqb_refl].
Qed.

Lemma memS_false x l : memS x l = false <-> ~ In x l.
Proof. rewrite <- memS_In. destruct (memS x l); intuition congruence. Qed.

Lemma memN_In x l : memN x l = true <-> In x l.
Proof.
  unfold memN. rewrite existsb_exists. split.
  - intros (y & Hy & E). apply Nat.eqb_eq in E. subst. exact Hy.
  - intros H. exists x. split; [exact H|apply Nat.eqb_refl].
Qed.

Lemma subsetS_incl l m : subsetS l m = true <-> incl l m.
Proof.
  unfold subsetS, incl. rewrite forallb_forall. split; intros H x Hx.
  - apply memS_In, H, Hx.
  - apply memS_In, H, Hx.
Qed.

Lemma nodupZb_NoDup l : nodupZb l = true <-> NoDup l.
Proof.
  induction l as [|x l IH]; cbn.
  - split; auto using NoDup_nil.
  - rewrite andb_true_iff, negb_true_iff, memZ_false, IH. split.
    + intros []. constructor; auto.
    + intros H. inversion H; auto.
Qed.

Lemma nodupSb_NoDup l : nodupSb l = true <-> NoDup l.
Proof.
  induction l as [|x l IH]; cbn.
  - split; auto using NoDup_nil.
  - rewrite andb_true_iff, negb_true_iff, memS_false, IH. split.
    + intros []. constructor; auto.
    + intros H. inversion H; auto.
Qed.

(** ** mapM *)

Lemma mapM_Ok_inv {A B} (f : A -> res B) l bs :
  mapM f l = Ok bs -> Forall2 (fun a b => f a = Ok b) l bs.
Proof.
  revert bs. induction l as [|a l IH]; cbn; intros bs H.
  - inversion H. constructor.
  - destruct (f a) as [b|e] eqn:Ea; cbn in H; [|discriminate].
    destruct (mapM f l) as [bs'|e] eqn:El; cbn in H; [|discriminate].
    inversion H; subst. constructor; auto.
Qed.

Lemma mapM_Ok_intro {A B} (f : A -> res B) l bs :
  Forall2 (fun a b => f a = Ok b) l bs -> mapM f l = Ok bs.
Proof.
  induction 1 as [|a b l bs Hab H IH]; cbn; [reflexivity|].
  rewrite Hab. cbn. rewrite IH. reflexivity.
Qed.

Lemma mapM_Ok_iff {A B} (f : A -> res B) l bs :
  mapM f l = Ok bs <-> Forall2 (fun a b => f a = Ok b) l bs.
Proof. split; [apply mapM_Ok_inv|apply mapM_Ok_intro]. Qed.

Lemma mapM_total {A B} (f : A -> res B) (g : A -> B) l :
  (forall a, In a l -> f a = Ok (g a)) -> mapM f l = Ok (map g l).
Proof.
  induction l as [|a l IH]; cbn; intros H; [reflexivity|].
  rewrite (H a) by (now left). cbn. rewrite IH; [reflexivity|].
  intros b Hb. apply H. now right.
Qed.

Lemma mapM_ext {A B} (f g : A -> res B) l :
  (forall a, In a l -> f a = g a) -> mapM f l = mapM g l.
Proof.
  induction l as [|a l IH]; cbn; intros H; [reflexivity|].
  rewrite (H a) by (now left). rewrite IH; [reflexivity|].
  intros b Hb. apply H. now right.
Qed.

Lemma mapM_Err_In {A B} (f : A -> res B) l e :
  mapM f l = Err e -> exists a, In a l /\ f a = Err e.
Proof.
  induction l as [|a l IH]; cbn; intros H; [discriminate|].
  destruct (f a) as [b|e'] eqn:Ea; cbn in H.
  - destruct (mapM f l) as [bs|e'] eqn:El; cbn in H; [discriminate|].
    inversion H; subst. destruct (IH eq_refl) as (x & Hx & Ex). exists x. auto.
  - inversion H; subst. exists a. auto.
Qed.

(** ** Association lists *)

Section AssocLemmas.
  Context {K V : Type} (eqb : K -> K -> bool).
  Hypothesis eqb_spec : forall a b, eqb a b = true <-> a = b.

  Lemma eqb_refl' a : eqb a a = true.
  Proof using eqb_spec. now apply eqb_spec. Qed.

  Lemma eqb_neq' a b : a <> b -> eqb a b = false.
  Proof using eqb_spec. intros H. destruct (eqb a b) eqn:E; [|reflexivity]. apply eqb_spec in E. contradiction. Qed.

  Lemma aget_aset_same k (v : V) d : aget eqb k (aset eqb k v d) = Some v.
  Proof using eqb_spec.
    induction d as [|[k' v'] d IH]; cbn.
    - now rewrite eqb_refl'.
    - destruct (eqb k k') eqn:E; cbn.
      + now rewrite eqb_refl'.
      + now rewrite E.
  Qed.

  Lemma aget_aset_other k k' (v : V) d : k <> k' -> aget eqb k (aset eqb k' v d) = aget eqb k d.
  Proof using eqb_spec.
    intros Hne. induction d as [|[k2 v2] d IH]; cbn.
    - now rewrite eqb_neq'.
    - destruct (eqb k' k2) eqn:E; cbn.
      + apply eqb_spec in E. subst k2. now rewrite eqb_neq'.
      + destruct (eqb k k2); [reflexivity|exact IH].
  Qed.

  Lemma aget_In k d (v : V) : aget eqb k d = Some v -> In (k, v) d.
  Proof using eqb_spec.
    induction d as [|[k2 v2] d IH]; cbn; [discriminate|].
    destruct (eqb k k2) eqn:E; intros H.
    - apply eqb_spec in E. subst. inversion H. now left.
    - right. now apply IH.
  Qed.

  Lemma aget_None k (d : list (K * V)) : aget eqb k d = None <-> ~ In k (akeys d).
  Proof using eqb_spec.
    induction d as [|[k2 v2] d IH]; cbn.
    - tauto.
    - destruct (eqb k k2) eqn:E.
      + apply eqb_spec in E. subst. split; [discriminate|]. intros H. exfalso. apply H. now left.
      + rewrite IH. split; intros H; [intros [->|H']|].
        * now rewrite eqb_refl' in E.
        * contradiction.
        * intros H'. apply H. now right.
  Qed.

  Lemma aget_Some_key k d (v : V) : aget eqb k d = Some v -> In k (akeys d).
  Proof using eqb_spec. intros H. apply aget_In in H. apply in_map_iff. now exists (k, v). Qed.

  Lemma aget_key k (d : list (K * V)) : In k (akeys d) -> exists v, aget eqb k d = Some v.
  Proof using eqb_spec.
    intros H. destruct (aget eqb k d) as [v|] eqn:E; [eauto|].
    apply aget_None in E. contradiction.
  Qed.

  Lemma In_aget k d (v : V) : NoDup (akeys d) -> In (k, v) d -> aget eqb k d = Some v.
  Proof using eqb_spec.
    induction d as [|[k2 v2] d IH]; cbn; [tauto|].
    intros Hnd. inversion Hnd as [|? ? Hni Hnd']; subst. intros [H|H].
    - inversion H; subst. now rewrite eqb_refl'.
    - destruct (eqb k k2) eqn:E.
      + apply eqb_spec in E. subst. exfalso. apply Hni. apply in_map_iff. now exists (k2, v).
      + now apply IH.
  Qed.

  Lemma akeys_aset_in k (v : V) d : In k (akeys d) -> akeys (aset eqb k v d) = akeys d.
  Proof using eqb_spec.
    induction d as [|[k2 v2] d IH]; cbn; [tauto|].
    destruct (eqb k k2) eqn:E; cbn.
    - apply eqb_spec in E. now subst.
    - intros [H|H]; [subst; now rewrite eqb_refl' in E|]. f_equal. now apply IH.
  Qed.

  Lemma akeys_aset_notin k (v : V) d : ~ In k (akeys d) -> akeys (aset eqb k v d) = akeys d ++ [k].
  Proof using eqb_spec.
    induction d as [|[k2 v2] d IH]; cbn; [reflexivity|].
    destruct (eqb k k2) eqn:E; cbn; intros H.
    - apply eqb_spec in E. subst. exfalso. apply H. now left.
    - f_equal. apply IH. tauto.
  Qed.

  Lemma akeys_aset_iff k k' (v : V) d : In k (akeys (aset eqb k' v d)) <-> k = k' \/ In k (akeys d).
  Proof using eqb_spec.
    induction d as [|[k2 v2] d IH]; cbn.
    - intuition.
    - destruct (eqb k' k2) eqn:E; cbn.
      + apply eqb_spec in E. subst k2. intuition.
      + rewrite IH. intuition.
  Qed.

  Lemma NoDup_aset k (v : V) d : NoDup (akeys d) -> NoDup (akeys (aset eqb k v d)).
  Proof using eqb_spec.
    induction d as [|[k2 v2] d IH]; cbn; intros H.
    - constructor; [tauto|constructor].
    - inversion H as [|? ? Hni Hnd]; subst. destruct (eqb k k2) eqn:E; cbn.
      + apply eqb_spec in E. subst. constructor; auto.
      + constructor; [|now apply IH]. fold (akeys (aset eqb k v d)). rewrite akeys_aset_iff. intros [->|H']; [|contradiction].
        now rewrite eqb_refl' in E.
  Qed.

  Lemma ahas_In k (d : list (K * V)) : ahas eqb k d = true <-> In k (akeys d).
  Proof using eqb_spec.
    unfold ahas. rewrite existsb_exists. split.
    - intros (x & Hx & E). apply eqb_spec in E. now subst.
    - intros H. exists k. split; [exact H|now apply eqb_spec].
  Qed.

  Lemma aset_length_in k (v : V) d : In k (akeys d) -> List.length (aset eqb k v d) = List.length d.
  Proof using eqb_spec.
    intros H. rewrite <- (map_length fst), <- (map_length fst d).
    change (map fst ?x) with (akeys x). now rewrite akeys_aset_in.
  Qed.

  Lemma aset_In k (v : V) d x : In x (aset eqb k v d) -> x = (k, v) \/ In x d.
  Proof using eqb_spec.
    induction d as [|[k2 v2] d IH]; cbn.
    - intuition.
    - destruct (eqb k k2) eqn:E; cbn; intuition.
  Qed.
End AssocLemmas.

Lemma Zeqb_spec a b : Z.eqb a b = true <-> a = b.
Proof. apply Z.eqb_eq. Qed.
Lemma Seqb_spec a b : String.eqb a b = true <-> a = b.
Proof. apply String.eqb_eq. Qed.

(** ** Ordered duplicates removal *)

Section Odedup.
  Context {A : Type} (eqb : A -> A -> bool).
  Hypothesis eqb_spec : forall a b, eqb a b = true <-> a = b.

  Lemma existsb_eqb_In x l : existsb (eqb x) l = true <-> In x l.
  Proof using eqb_spec.
    rewrite existsb_exists. split.
    - intros (y & Hy & E). apply eqb_spec in E. now subst.
    - intros H. exists x. split; [exact H|now apply eqb_spec].
  Qed.

  Lemma odedup_from_In seen l x :
    In x (odedup_from eqb seen l) <-> In x l /\ ~ In x seen.
  Proof using eqb_spec.
    revert seen. induction l as [|y l IH]; cbn; intros seen.
    - tauto.
    - destruct (existsb (eqb y) seen) eqn:E.
      + apply existsb_eqb_In in E. rewrite IH. split.
        * tauto.
        * intros [[->|H] Hn]; [contradiction|]. tauto.
      + assert (Hn : ~ In y seen).
        { intros H. apply existsb_eqb_In in H. congruence. }
        cbn. rewrite IH. cbn. split.
        * intros [->|[H1 H2]]; [tauto|]. split; [tauto|]. intros H. apply H2. tauto.
        * intros [[->|H] Hs]; [tauto|]. destruct (eqb x y) eqn:Exy.
          -- apply eqb_spec in Exy. left. now symmetry.
          -- right. split; [exact H|]. intros [->|H']; [|contradiction].
             rewrite (proj2 (eqb_spec x x) eq_refl) in Exy. discriminate.
  Qed.

  Lemma odedup_from_NoDup seen l : NoDup (odedup_from eqb seen l).
  Proof using eqb_spec.
    revert seen. induction l as [|y l IH]; cbn; intros seen; [constructor|].
    destruct (existsb (eqb y) seen) eqn:E; [apply IH|].
    constructor; [|apply IH]. rewrite odedup_from_In. cbn. tauto.
  Qed.
End Odedup.

Lemma odedupZ_In x l : In x (odedupZ l) <-> In x l.
Proof. unfold odedupZ. rewrite (odedup_from_In _ Zeqb_spec). cbn. tauto. Qed.
Lemma odedupZ_NoDup l : NoDup (odedupZ l).
Proof. apply (odedup_from_NoDup _ Zeqb_spec). Qed.
Lemma odedupS_In x l : In x (odedupS l) <-> In x l.
Proof. unfold odedupS. rewrite (odedup_from_In _ Seqb_spec). cbn. tauto. Qed.
Lemma odedupS_NoDup l : NoDup (odedupS l).
Proof. apply (odedup_from_NoDup _ Seqb_spec). Qed.

(** ** find *)

Lemma find_unique {A} (p : A -> bool) l x :
  In x l -> p x = true -> (forall y, In y l -> p y = true -> y = x) -> find p l = Some x.
Proof.
  induction l as [|y l IH]; cbn; [tauto|].
  intros Hin Hp Hu. destruct (p y) eqn:E.
  - f_equal. apply Hu; auto.
  - destruct Hin as [->|Hin]; [congruence|]. apply IH; auto.
Qed.

Lemma NoDup_map_inj {A B} (f : A -> B) l x y :
  NoDup (map f l) -> In x l -> In y l -> f x = f y -> x = y.
Proof.
  induction l as [|a l IH]; cbn; [tauto|].
  intros Hnd. inversion Hnd as [|? ? Hni Hnd']; subst.
  intros [->|Hx] [->|Hy] E; auto.
  - exfalso. apply Hni. rewrite E. now apply in_map.
  - exfalso. apply Hni. rewrite <- E. now apply in_map.
Qed.

Lemma NoDup_map_filter {A B} (f : A -> B) (p : A -> bool) l :
  NoDup (map f l) -> NoDup (map f (filter p l)).
Proof.
  induction l as [|a l IH]; cbn; [auto|].
  intros Hnd. inversion Hnd as [|? ? Hni Hnd']; subst.
  destruct (p a); cbn; [|auto]. constructor; [|auto].
  intros H. apply Hni. apply in_map_iff in H. destruct H as (b & Eb & Hb).
  apply filter_In in Hb. apply in_map_iff. exists b. tauto.
Qed.

Lemma filter_filter {A} (p q : A -> bool) l :
  filter p (filter q l) = filter (fun x => q x && p x) l.
Proof.
  induction l as [|a l IH]; cbn; [reflexivity|].
  destruct (q a); cbn; [destruct (p a); cbn; now rewrite IH|exact IH].
Qed.

Lemma existsb_false {A} (p : A -> bool) l :
  existsb p l = false <-> forall x, In x l -> p x = false.
Proof.
  split.
  - intros H x Hx. destruct (p x) eqn:E; [|reflexivity].
    assert (existsb p l = true) by (apply existsb_exists; eauto). congruence.
  - intros H. destruct (existsb p l) eqn:E; [|reflexivity].
    apply existsb_exists in E. destruct E as (x & Hx & Ex). rewrite (H x Hx) in Ex. discriminate.
Qed.

Lemma filter_nil {A} (p : A -> bool) l :
  filter p l = [] <-> forall x, In x l -> p x = false.
Proof.
  induction l as [|a l IH]; cbn; [intuition|].
  destruct (p a) eqn:E; split; intros H.
  - discriminate.
  - specialize (H a (or_introl eq_refl)). congruence.
  - intros x [->|Hx]; [exact E|]. now apply IH.
  - apply IH. auto.
Qed.

Lemma chars_str_of l : chars (str_of l) = l.
Proof. induction l as [|c l IH]; cbn; congruence. Qed.
Lemma str_of_chars s : str_of (chars s) = s.
Proof. induction s as [|c s IH]; cbn; congruence. Qed.
Lemma chars_app s t : chars (s ++ t)%string = chars s ++ chars t.
Proof. induction s as [|c s IH]; cbn; congruence. Qed.
Lemma str_of_app l m : str_of (l ++ m) = (str_of l ++ str_of m)%string.
Proof. induction l as [|c l IH]; cbn; congruence. Qed.
Lemma chars_inj s t : chars s = chars t -> s = t.
Proof. intros H. rewrite <- (str_of_chars s), <- (str_of_chars t). now f_equal. Qed.
