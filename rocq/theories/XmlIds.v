(** Ids assigned by the builder. *)
From Coq Require Import Sorting.Sorted Sorting.Permutation.
From Verif Require Import Base BaseLemmas Species Reactions MolSpec Classification Xml XmlSpec.

Definition ordinary (n : string) : bool := negb (String.eqb n "e") && negb (String.eqb n "M").
Definition count_ordinary (l : list string) : Z := Z.of_nat (List.length (filter ordinary l)).

Section Ids.
  Variable E : env.

  (** The id given to the species called [n] after [before]. *)
  Definition given_id (before : list string) (n : string) : Z :=
    if String.eqb n "e" then 0 else if String.eqb n "M" then 999 else 1 + count_ordinary before.

  Fixpoint given_ids (before l : list string) : list Z :=
    match l with [] => [] | n :: l' => given_id before n :: given_ids (before ++ [n]) l' end.

  Lemma count_snoc before n : count_ordinary (before ++ [n]) = count_ordinary before + (if ordinary n then 1 else 0).
  Proof. unfold count_ordinary. rewrite filter_app, app_length. cbn [filter]. destruct (ordinary n); cbn [List.length]; lia. Qed.

  Lemma count_app a b : count_ordinary (a ++ b) = count_ordinary a + count_ordinary b.
  Proof. unfold count_ordinary. rewrite filter_app, app_length. lia. Qed.
  Lemma count_nonneg a : 0 <= count_ordinary a.
  Proof. unfold count_ordinary. lia. Qed.
  Lemma count_cons n l : n <> "e" -> n <> "M" -> count_ordinary (n :: l) = 1 + count_ordinary l.
  Proof.
    intros H1 H2. unfold count_ordinary. cbn [filter]. unfold ordinary at 1. apply String.eqb_neq in H1, H2. rewrite H1, H2. cbn [negb andb List.length]. lia.
  Qed.

  Lemma assign_spec l ns : Forall2 named l ns -> forall before,
    assign_from E (1 + count_ordinary before) l =
      (map (fun p => MkEl (ishow E (fst p)) (el_items (snd p))) (combine (given_ids before ns) l), Ok tt).
  Proof.
    induction 1 as [|e n l ns N F IH]; intros before; cbn [assign_from given_ids combine map]; [reflexivity|].
    rewrite N. unfold given_id. specialize (IH (before ++ [n])). rewrite count_snoc in IH. unfold ordinary in IH.
    destruct (String.eqb_spec n "e") as [->|]; [|destruct (String.eqb_spec n "M") as [->|]]; cbn [negb andb] in IH; cbn [fst snd];
      rewrite ?Z.add_assoc, ?Z.add_0_r in IH; rewrite ?Z.add_0_r in IH; rewrite IH; reflexivity.
  Qed.

  Lemma given_ids_length l : forall before, List.length (given_ids before l) = List.length l.
  Proof. induction l as [|n l IH]; intros before; cbn; [reflexivity|]. now rewrite IH. Qed.

  Lemma given_ids_range l : forall before z, In z (given_ids before l) -> z = 0 /\ In "e" l \/ z = 999 /\ In "M" l \/
    count_ordinary before < z <= count_ordinary (before ++ l).
  Proof.
    induction l as [|n l IH]; intros before z H; [destruct H|]. cbn in H. destruct H as [<-|H].
    - unfold given_id. destruct (String.eqb_spec n "e") as [->|He]; [left; split; [reflexivity|now left]|].
      destruct (String.eqb_spec n "M") as [->|HM]; [right; left; split; [reflexivity|now left]|]. right. right.
      rewrite count_app, count_cons by assumption. pose proof (count_nonneg l). lia.
    - apply IH in H as [[-> H]|[[-> H]|H]]; [left|right; left|right; right]; try (split; [reflexivity|now right]).
      rewrite count_snoc in H. rewrite <- app_assoc in H. destruct (ordinary n); cbn [app] in H; lia.
  Qed.


  Lemma given_ids_nodup l : forall before, NoDup l -> count_ordinary (before ++ l) < 999 -> NoDup (given_ids before l).
  Proof.
    induction l as [|n l IH]; intros before ND C; cbn; constructor; inversion ND as [|? ? N1 N2]; subst.
    - intros H. apply given_ids_range in H. rewrite <- app_assoc, count_snoc in H. cbn [app] in H. rewrite count_app in *.
      pose proof (count_nonneg before). pose proof (count_nonneg (n :: l)).
      unfold given_id, ordinary in H. destruct (String.eqb_spec n "e") as [->|He].
      + cbn [negb andb] in H. destruct H as [[_ H]|[[H _]|H]]; [contradiction|lia|lia].
      + destruct (String.eqb_spec n "M") as [->|HM]; cbn [negb andb] in H.
        * destruct H as [[H _]|[[_ H]|H]]; [lia|contradiction|lia].
        * pose proof (count_cons n l He HM). pose proof (count_nonneg l). destruct H as [[H _]|[[H _]|H]]; lia.
    - apply IH; [assumption|]. now rewrite <- app_assoc.
  Qed.

  (** The elements after the call. *)
  Theorem ids_assigned b ns : Forall2 named (b_species b) ns ->
    assign_species_ids E b = (MkB (b_keys b) (map (fun p => MkEl (ishow E (fst p)) (el_items (snd p))) (combine (given_ids [] ns) (b_species b))) (b_reactions b), Ok tt).
  Proof. intros F. unfold assign_species_ids. change 1 with (1 + count_ordinary []). rewrite (assign_spec _ _ F []). reflexivity. Qed.

  Lemma combine_items (zs : list Z) l : List.length zs = List.length l ->
    map el_items (map (fun p => MkEl (ishow E (fst p)) (el_items (snd p))) (combine zs l)) = map el_items l /\
    map el_id (map (fun p => MkEl (ishow E (fst p)) (el_items (snd p))) (combine zs l)) = map (ishow E) zs.
  Proof.
    revert l. induction zs as [|z zs IH]; intros [|e l] H; try discriminate; [split; reflexivity|]. cbn in *. destruct (IH l) as [-> ->]; [congruence|]. split; reflexivity.
  Qed.

  Lemma named_length l ns : Forall2 named l ns -> List.length ns = List.length l.
  Proof. induction 1; cbn; congruence. Qed.

  Lemma given_nth ns : forall before i n, nth_error ns i = Some n -> nth_error (given_ids before ns) i = Some (given_id (before ++ firstn i ns) n).
  Proof.
    induction ns as [|m ns IH]; intros before [|i] n H; cbn in *; try discriminate.
    - injection H as ->. now rewrite app_nil_r.
    - rewrite (IH (before ++ [m]) i n H). now rewrite <- app_assoc.
  Qed.

  (** What the call does: everything but the ids is kept, and the i-th species
      gets its id from its name and the number of ordinary species before. *)
  Lemma ids_effect b ns : Forall2 named (b_species b) ns -> exists b', assign_species_ids E b = (b', Ok tt) /\
    map el_items (b_species b') = map el_items (b_species b) /\ b_reactions b' = b_reactions b /\
    forall i n, nth_error ns i = Some n -> nth_error (map el_id (b_species b')) i = Some (ishow E (given_id (firstn i ns) n)).
  Proof.
    intros F. eexists. split; [apply ids_assigned, F|]. cbn [b_species b_reactions].
    assert (List.length (given_ids [] ns) = List.length (b_species b)) as L by (rewrite given_ids_length; now apply named_length).
    destruct (combine_items _ _ L) as [-> ->]. split; [reflexivity|]. split; [reflexivity|].
    intros i n Hn. now rewrite (map_nth_error (ishow E) _ _ (given_nth ns [] i n Hn)).
  Qed.

  Hypothesis IS : forall z w, ishow E z = ishow E w -> z = w.

  Lemma ids_distinct b ns : Forall2 named (b_species b) ns -> NoDup ns -> count_ordinary ns < 999 ->
    NoDup (map el_id (b_species (fst (assign_species_ids E b)))).
  Proof using IS.
    intros F ND C. rewrite (ids_assigned b ns F). cbn [fst b_species].
    assert (List.length (given_ids [] ns) = List.length (b_species b)) as L by (rewrite given_ids_length; now apply named_length).
    destruct (combine_items _ _ L) as [_ ->]. apply FinFun.Injective_map_NoDup; [exact IS|]. now apply given_ids_nodup.
  Qed.
End Ids.

Lemma given_ordinary l : forall before, count_ordinary (before ++ l) >= 999 -> count_ordinary before < 999 ->
  exists pre n post, l = pre ++ n :: post /\ ordinary n = true /\ given_id (before ++ pre) n = 999.
Proof.
  induction l as [|m l IH]; intros before H1 H2; [rewrite app_nil_r in H1; lia|].
  destruct (ordinary m) eqn:Om.
  - destruct (Z.eq_dec (count_ordinary before) 998) as [C|C].
    + exists [], m, l. split; [reflexivity|]. split; [exact Om|]. rewrite app_nil_r. unfold given_id, ordinary in *.
      destruct (String.eqb m "e"); [discriminate|]. destruct (String.eqb m "M"); [discriminate|]. lia.
    + destruct (IH (before ++ [m])) as (pre & n & post & -> & O & G); [now rewrite <- app_assoc|rewrite count_snoc, Om; lia|].
      exists (m :: pre), n, post. rewrite <- app_assoc in G. auto.
  - destruct (IH (before ++ [m])) as (pre & n & post & -> & O & G); [now rewrite <- app_assoc|rewrite count_snoc, Om; lia|].
    exists (m :: pre), n, post. rewrite <- app_assoc in G. auto.
Qed.

(** From 999 ordinary species on, M shares its id. *)
Lemma ids_clash E b ns : Forall2 named (b_species b) ns -> count_ordinary ns >= 999 -> In "M" ns ->
  ~ NoDup (map el_id (b_species (fst (assign_species_ids E b)))).
Proof.
  intros F C HM. destruct (ids_effect E b ns F) as (b' & -> & _ & _ & G). cbn [fst]. intros ND.
  destruct (given_ordinary ns [] C ltac:(cbn; lia)) as (pre & n & post & -> & O & Gn). cbn [app] in Gn.
  assert (H1 : nth_error (pre ++ n :: post) (List.length pre) = Some n) by (rewrite nth_error_app2 by lia; now rewrite Nat.sub_diag).
  apply In_nth_error in HM as [j H2]. pose proof (G _ _ H1) as G1. pose proof (G _ _ H2) as G2.
  rewrite firstn_app, Nat.sub_diag, firstn_all in G1. cbn [firstn] in G1. rewrite app_nil_r, Gn in G1.
  change (given_id (firstn j (pre ++ n :: post)) "M") with 999 in G2.
  assert (List.length pre = j) as <-.
  { rewrite NoDup_nth_error in ND. apply ND; [|now rewrite G1, G2]. apply nth_error_Some. now rewrite G1. }
  rewrite H1 in H2. injection H2 as ->. discriminate O.
Qed.

(** Reactions are numbered from 1. *)
Lemma number_spec E l : forall z,
  map el_items (number_from E z l) = map el_items l /\
  forall i e, nth_error l i = Some e -> nth_error (map el_id (number_from E z l)) i = Some (ishow E (z + Z.of_nat i)).
Proof.
  induction l as [|e l IH]; intros z; cbn [number_from map el_items el_id]; [split; [reflexivity|]; intros [|i] ?; discriminate|].
  destruct (IH (z + 1)) as [-> G]. split; [reflexivity|]. intros [|i] x Hx; cbn [nth_error] in *.
  - now rewrite Z.add_0_r.
  - rewrite (G i x Hx). do 2 f_equal. lia.
Qed.
