(** Proofs about the order of the elements of an XML chemistry. *)
From Coq Require Import Permutation Sorted.
From Verif Require Import Base BaseLemmas Species Reactions MolSpec SpeciesProofs ReactionProofs SortLemmas Classification ClassSpec ClassProofs
  ClassSort ClassOrder AttrTable AttrSpecies AttrReact Xml XmlSpec XmlProofs XmlIds XmlBuilder XmlSortSpec.
Open Scope Z_scope.

(** ** Sorting by the position in a list *)

Lemma index_In x l i : index_of String.eqb x l = Ok i -> In x l /\ 0 <= i.
Proof.
  revert i. induction l as [|y l IH]; cbn [index_of]; intros i H; [discriminate|]. destruct (String.eqb_spec x y) as [->|D].
  - injection H as <-. split; [now left|lia].
  - destruct (index_of String.eqb x l) as [j|]; cbn [bind] in H; [|discriminate]. injection H as <-. destruct (IH j eq_refl). split; [now right|lia].
Qed.

Definition not_after (ids : list string) (x y : string) : Prop :=
  exists i j, index_of String.eqb x ids = Ok i /\ index_of String.eqb y ids = Ok j /\ i <= j.

Lemma ordered_unique ids : forall q, NoDup ids -> Permutation q ids -> StronglySorted (not_after ids) q -> q = ids.
Proof.
  induction ids as [|a ids IH]; intros q ND P S; [apply Permutation_sym in P; now apply Permutation_nil in P|].
  destruct q as [|x q]; [apply Permutation_nil in P; discriminate|]. inversion ND as [|? ? N1 N2]; subst. inversion S as [|? ? S1 S2]; subst.
  assert (x = a) as ->.
  { assert (I : In a (x :: q)) by (apply (Permutation_in _ (Permutation_sym P)); now left). destruct I as [I|I]; [exact I|].
    rewrite Forall_forall in S2. destruct (S2 a I) as (i & j & A & B & L). cbn [index_of] in A, B. rewrite String.eqb_refl in B. injection B as <-.
    destruct (String.eqb_spec x a) as [E|D]; [exact E|]. destruct (index_of String.eqb x ids) as [k|] eqn:K; cbn [bind] in A; [|discriminate].
    injection A as <-. apply index_In in K. lia. }
  f_equal. apply Permutation_cons_inv in P. apply IH; [exact N2|exact P|].
  assert (D : forall y, In y q -> y <> a) by (intros y Hy ->; apply N1; now apply (Permutation_in _ P)).
  eapply StronglySorted_impl; [|exact S1]. intros y z Hy Hz (i & j & A & B & L). cbn [index_of] in A, B.
  destruct (String.eqb_spec y a) as [E|_]; [now apply D in E|]. destruct (String.eqb_spec z a) as [E|_]; [now apply D in E|].
  destruct (index_of String.eqb y ids) as [i'|] eqn:Ky; cbn [bind] in A; [|discriminate]. injection A as <-.
  destruct (index_of String.eqb z ids) as [j'|] eqn:Kz; cbn [bind] in B; [|discriminate]. injection B as <-. exists i', j'. repeat split; auto. lia.
Qed.

Lemma by_index ids (l m : list element) : NoDup (map el_id l) -> List.length l = List.length ids ->
  sort_by Z.leb (fun e => index_of String.eqb (el_id e) ids) l = Ok m -> Permutation (map el_id l) ids /\ Permutation l m /\ map el_id m = ids.
Proof.
  intros ND LN H. pose proof (sort_by_perm _ _ _ _ H) as P. unfold sort_by in H. destruct (mapM _ l) as [ks|] eqn:Ek; cbn [bind] in H; [|discriminate].
  apply mapM_key_snd in Ek as [M K]. injection H as <-.
  assert (PI : Permutation (map el_id l) ids).
  { apply NoDup_Permutation_bis; [exact ND|rewrite map_length; lia|]. intros x Hx. apply in_map_iff in Hx as (e & <- & He). rewrite <- M in He.
    apply in_map_iff in He as ([i e'] & <- & Hi). now apply K, index_In in Hi. }
  split; [exact PI|]. split; [exact P|].
  apply ordered_unique; [now apply (Permutation_NoDup PI)|etransitivity; [|exact PI]; apply Permutation_map; now symmetry|].
  apply StronglySorted_map, StronglySorted_map. eapply StronglySorted_impl; [|apply isort_sorted].
  - intros [i x] [j y] Hx Hy L. apply isort_In in Hx, Hy. cbn [fst snd] in *. exists i, j. split; [now apply K|]. split; [now apply K|]. now apply Z.leb_le.
  - intros [i x] [j y]. cbn [fst]. rewrite !Z.leb_le. lia.
  - intros [i x] [j y] [k z]. cbn [fst]. rewrite !Z.leb_le. lia.
Qed.

Lemma same_keys {A B} (f : A -> B) a : forall b, NoDup (map f a) -> Permutation a b -> map f a = map f b -> a = b.
Proof.
  intros b ND P E. assert (I : incl b a) by (intros x Hx; now apply (Permutation_in _ (Permutation_sym P))).
  assert (J : forall x y, In x a -> In y a -> f x = f y -> x = y).
  { clear - ND. induction a as [|z a IH]; [easy|]. cbn in ND. inversion ND as [|? ? N1 N2]; subst. intros x y [<-|Hx] [<-|Hy] E; auto.
    - exfalso. apply N1. rewrite E. now apply in_map.
    - exfalso. apply N1. rewrite <- E. now apply in_map. }
  assert (G : forall u v, incl u a -> incl v a -> map f u = map f v -> u = v).
  { induction u as [|x u IH]; intros [|y v] Hu Hv Q; try discriminate; [reflexivity|]. cbn in Q. injection Q as Q1 Q2. f_equal.
    - apply J; [apply Hu; now left|apply Hv; now left|exact Q1].
    - apply IH; [intros z Hz; apply Hu; now right|intros z Hz; apply Hv; now right|exact Q2]. }
  apply G; [apply incl_refl|exact I|exact E].
Qed.

Lemma map_fst_combine {A B} (a : list A) (b : list B) : List.length a = List.length b -> map fst (combine a b) = a /\ map snd (combine a b) = b.
Proof.
  revert b. induction a as [|x a IH]; intros [|y b] L; try discriminate; [now split|]. cbn in L. injection L as L. cbn. destruct (IH b L) as [-> ->]. now split.
Qed.

Section Order.
  Variable E : env.
  Hypothesis R : forall z, iparse E (ishow E z) = Some z.

  (** Values with the ids of the elements they were read from. *)
  Lemma ids_shown {A} (key : A -> Z) (es es' : list element) (vs vs' : list A) :
    Forall2 (fun e v => py_int_str E (el_id e) = Ok (key v)) es vs -> NoDup (map el_id es) ->
    sort_by Z.leb (fun e => index_of String.eqb (el_id e) (map (fun v => ishow E (key v)) vs')) es = Ok es' ->
    map el_id es = map (fun v => ishow E (key v)) vs /\ NoDup (map key vs).
  Proof using R.
    intros F ND H. unfold sort_by in H. destruct (mapM _ es) as [ks|] eqn:Ek; cbn [bind] in H; [|discriminate].
    apply mapM_key_snd in Ek as [M K]. clear H.
    assert (ID : map el_id es = map (fun v => ishow E (key v)) vs).
    { assert (I : forall e, In e es -> In (el_id e) (map (fun v => ishow E (key v)) vs')).
      { intros e He. rewrite <- M in He. apply in_map_iff in He as ([i e'] & <- & Hi). now apply K, index_In in Hi. }
      clear - F I R. induction F as [|e v es vs Hv F IH]; [reflexivity|]. cbn [map]. rewrite IH by (intros; apply I; now right). f_equal.
      pose proof (I e (or_introl eq_refl)) as Hi. apply in_map_iff in Hi as (w & Hw & _). unfold py_int_str in Hv. rewrite <- Hw, R in Hv.
      injection Hv as Hv. now rewrite <- Hw, Hv. }
    split; [exact ID|]. rewrite ID, <- (map_map key (ishow E)) in ND. now apply NoDup_map_inv in ND.
  Qed.
  Lemma aligned {A} (key : A -> Z) (es es' : list element) (vs vs' : list A) :
    Forall2 (fun e v => py_int_str E (el_id e) = Ok (key v)) es vs -> NoDup (map el_id es) -> Permutation vs' vs ->
    sort_by Z.leb (fun e => index_of String.eqb (el_id e) (map (fun v => ishow E (key v)) vs')) es = Ok es' ->
    reordered es vs es' vs'.
  Proof using R.
    intros F ND P H. assert (LN : List.length es = List.length vs) by (clear - F; induction F; cbn; auto).
    destruct (ids_shown _ _ _ _ _ F ND H) as [ID _].
    apply by_index in H; [|exact ND|rewrite map_length, LN; now rewrite (Permutation_length P)].
    destruct H as (PI & Pe & Q).
    split; [exact LN|]. destruct (map_fst_combine es vs LN) as [C1 C2]. rewrite <- C2 in P. apply Permutation_map_inv in P as (l & -> & P).
    exists l. split; [now symmetry|]. split; [|reflexivity].
    assert (Pl : Permutation es (map fst l)) by (rewrite <- C1 at 1; now apply Permutation_map).
    apply (same_keys el_id); [|transitivity es; [now symmetry|exact Pe]|].
    - apply (Permutation_NoDup (Permutation_map el_id Pl)), ND.
    - rewrite Q, !map_map. apply map_ext_in. intros [e v] Hl. cbn [fst snd]. apply (Permutation_in _ (Permutation_sym P)) in Hl.
      clear - ID Hl. revert vs ID Hl. induction es as [|x es IH]; intros [|y vs] ID Hl; try easy. cbn in ID. injection ID as I1 I2.
      cbn [combine] in Hl. destruct Hl as [Hl|Hl]; [injection Hl as <- <-; exact I1|now apply (IH vs)].
  Qed.

  (** What reading keeps. *)
  Lemma rp_of_ids uid e r : rp_of E uid e = Ok r -> py_int_str E (el_id e) = Ok (rp_id r) /\ rp_uid r = uid.
  Proof using.
    unfold rp_of. intros H. destruct (py_int_str E (el_id e)) as [z|] eqn:Z; cbn [bind] in H; [|discriminate]. cbv zeta in H.
    apply rp_init_spec in H as (H1 & H2 & _); [|constructor]. injection H2 as H2. split; [now rewrite H2|exact H1].
  Qed.
  Lemma read_ids es : forall uid rs, read_species E uid es = Ok rs ->
    Forall2 (fun e r => py_int_str E (el_id e) = Ok (rp_id r)) es rs /\ map rp_uid rs = seq uid (List.length es).
  Proof using.
    induction es as [|e es IH]; intros uid rs H; cbn [read_species] in H; [injection H as <-; split; [constructor|reflexivity]|].
    apply bindOk in H as (r & Hr & H). apply bindOk in H as (n & _ & H). apply bindOk in H as (rs' & Hs & H). injection H as <-.
    apply rp_of_ids in Hr as [A B]. destruct (IH _ _ Hs) as [C D]. split; [now constructor|]. cbn. now rewrite B, D.
  Qed.
  Lemma lookup_In sps n s : lookup sps n = Ok s -> In s sps.
  Proof using. unfold lookup. destruct (find _ (rev sps)) as [r|] eqn:F; [|discriminate]. intros [= <-]. apply find_some in F as [F _]. now apply in_rev. Qed.
  Lemma side_In sps tag e l : side_of sps tag e = Ok l -> incl l sps.
  Proof using.
    unfold side_of. destruct (find_tag tag e) as [i|]; [|discriminate]. destruct (it_text i) as [t|]; [|discriminate].
    intros H x Hx. destruct (mapM_back _ _ _ _ H Hx) as (n & Hn & _). now apply lookup_In in Hn.
  Qed.
  Lemma reaction_of_parts sps e q : reaction_of E sps e = Ok q -> py_int_str E (el_id e) = Ok (r_id q) /\ incl (r_lhs q ++ r_rhs q) sps.
  Proof using.
    unfold reaction_of. intros H. apply bindOk in H as (z & Hz & H). cbv zeta in H. apply bindOk in H as (? & _ & H). apply bindOk in H as (? & _ & H).
    apply bindOk in H as (ls & Hl & H). apply bindOk in H as (rs & Hr & H). apply reaction_init_parts in H as (H1 & _ & H2 & H3 & _).
    injection H1 as ->. split; [exact Hz|]. rewrite H2, H3. apply side_In in Hl, Hr. now apply incl_app.
  Qed.

  Lemma view_ids {B C} (f : B -> res C) (p : B -> Z) (q : C -> Z) (g : element -> res Z) es : forall bs cs,
    (forall b c, f b = Ok c -> q c = p b) -> Forall2 (fun e b => g e = Ok (p b)) es bs -> mapM f bs = Ok cs ->
    Forall2 (fun e c => g e = Ok (q c)) es cs.
  Proof using.
    intros bs cs HP F. revert cs. induction F as [|e b es bs He F IH]; cbn [mapM]; intros cs H; [injection H as <-; constructor|].
    apply bindOk in H as (c & Hc & H). apply bindOk in H as (cs' & Hs & H). injection H as <-. constructor; [|now apply IH]. now rewrite (HP _ _ Hc).
  Qed.

  Theorem sorted_order uid b b' : NoDup (map el_id (b_species b)) -> NoDup (map el_id (b_reactions b)) ->
    sort_elements E uid b = (b', Ok tt) ->
    exists ss rs ss' rs', read_as E uid b ss rs /\
      reordered (b_species b) ss (b_species b') ss' /\ species_ordered ss ss' /\
      reordered (b_reactions b) rs (b_reactions b') rs' /\ reactions_ordered ss' rs rs'.
  Proof using R.
    intros N1 N2. pose proof N1 as M1. pose proof N2 as M2. apply nodupSb_NoDup in M1, M2. unfold sort_elements. cbv zeta. rewrite M1, M2. cbn [negb].
    unfold sorted_ids. destruct (parse E uid (b_species b) (b_reactions b)) as [[sps rxs]|e] eqn:PA; cbn [bind fst snd]; [|discriminate].
    destruct (mapM (cs_view E) sps) as [ss|e] eqn:VS; cbn [bind]; [|discriminate].
    destruct (mapM (cr_view E) rxs) as [rs|e] eqn:VR; cbn [bind]; [|discriminate].
    destruct (sort_species (clf_new ss rs)) as [k [[]|e]] eqn:SS; [|discriminate].
    destruct (sort_reactions k) as [k' [[]|e]] eqn:SR; [|discriminate].
    destruct (get_classified k') as [k'' [d|e]] eqn:GC; [|discriminate].
    rewrite <- (map_map cs_id (ishow E)), <- (map_map cr_id (ishow E)). rewrite !map_map.
    destruct (sort_by Z.leb _ (b_species b)) as [ls|e] eqn:BS; [|discriminate].
    cbn [b_reactions b_keys b_species].
    destruct (sort_by Z.leb _ (b_reactions b)) as [lr|e] eqn:BR; [|discriminate].
    intros [= <-]. cbn [b_species b_reactions].
    pose proof PA as PB. unfold parse in PB. apply bindOk in PB as (sps0 & RS & PB). apply bindOk in PB as (rxs0 & RX & PB). injection PB as -> ->.
    destruct (read_ids _ _ _ RS) as [FS US].
    pose proof (view_ids _ _ cs_id _ _ _ _ (fun x y H => proj1 (cs_view_ids E x y H)) FS VS) as FS'.
    assert (FR : Forall2 (fun e q => py_int_str E (el_id e) = Ok (r_id q)) (b_reactions b) rxs).
    { apply mapM_Ok_inv in RX. clear - RX. induction RX as [|x y l m H F IH]; constructor; [now apply reaction_of_parts in H|exact IH]. }
    pose proof (view_ids _ _ cr_id _ _ _ _ (fun x y H => proj1 (cr_view_parts E x y H)) FR VR) as FR'.
    destruct (sort_species_frame _ _ _ SS) as (P1 & K1 & _). cbn [clf_new k_species k_reactions] in P1, K1.
    pose proof (aligned cs_id _ _ _ _ FS' N1 P1 BS) as RO1.
    pose proof (proj2 (ids_shown cs_id _ _ _ _ FS' N1 BS)) as ND1.
    pose proof (proj2 (ids_shown cr_id _ _ _ _ FR' N2 BR)) as ND2.
    assert (KN : species_known ss rs).
    { split; [exact ND1|]. split.
      - rewrite (mapM_proj _ rp_uid cs_uid _ _ (fun a b H => proj2 (cs_view_ids E a b H)) VS), US. apply seq_NoDup.
      - intros r s Hr Hs. destruct (mapM_back _ _ _ _ VR Hr) as (x & Hx & Ix). destruct (cr_view_parts _ _ _ Hx) as (_ & L1 & L2).
        destruct (mapM_back _ _ _ _ RX Ix) as (e & He & _). apply reaction_of_parts in He as [_ IN].
        assert (T : exists o, cs_view E o = Ok s /\ In o (r_lhs x ++ r_rhs x)).
        { apply in_app_or in Hs as [Hs|Hs]; [destruct (mapM_back _ _ _ _ L1 Hs) as (o & A & B)|destruct (mapM_back _ _ _ _ L2 Hs) as (o & A & B)];
            exists o; (split; [exact A|]); apply in_or_app; auto. }
        destruct T as (o & A & B). apply IN in B. apply mapM_Ok_inv in VS. clear - VS A B.
        induction VS as [|o' s' l m H F IH]; [easy|]. destruct B as [->|B]; [left; congruence|right; auto]. }
    assert (HK : run (clf_new ss rs) [OSortSpecies] = k) by (cbn; now rewrite SS).
    assert (HK' : run (clf_new ss rs) [OSortSpecies; OSortReactions] = k') by (unfold run; cbn [fold_left step]; rewrite SS; cbn [fst]; now rewrite SR).
    assert (O1 : ops_of rs [OSortSpecies]) by (intros r [H|[]]; discriminate).
    assert (O2 : ops_of rs [OSortSpecies; OSortReactions]) by (intros r [H|[H|[]]]; discriminate).
    destruct (reactions_sorted ss rs KN _ O1) as (k2 & S2 & S3 & S4 & S5 & S6). rewrite HK, SR in S2. injection S2 as <-. rewrite HK in S3, S6.
    rewrite <- HK' in GC. destruct (classification_partitions ss rs _ d k'' ND2 O2 GC) as (_ & _ & _ & CL & _ & BU). rewrite HK' in BU.
    assert (D : List.concat (map (fun tc => List.concat (map snd (snd tc))) d) = List.concat (map (fun tc => filter (in_class tc) (k_reactions k')) scheme_pairs)).
    { transitivity (List.concat (map snd (buckets d))).
      - unfold buckets. clear. induction d as [|[t cats] d IH]; [reflexivity|]. cbn [map List.concat flat_map fst snd].
        rewrite IH, map_app, concat_app. f_equal. f_equal. rewrite map_map. reflexivity.
      - rewrite BU, concat_filter_nonempty, map_map. reflexivity. }
    rewrite D in BR.
    assert (P2 : Permutation (List.concat (map (fun tc => filter (in_class tc) (k_reactions k')) scheme_pairs)) rs).
    { transitivity (k_reactions k'); [|exact S4].
      assert (CR : forall r, In r (k_reactions k') -> exists tc, classify r = Ok tc).
      { intros r Hr. destruct (CL r) as (tc & Ht & _); [now apply (Permutation_in _ S4)|eauto]. }
      pose proof (expected_complete (k_reactions k') CR) as X. rewrite concat_filter_nonempty, map_map in X. exact X. }
    exists ss, rs, (k_species k), (List.concat (map (fun tc => filter (in_class tc) (k_reactions k')) scheme_pairs)).
    split; [exists sps, rxs; auto|]. split; [exact RO1|]. split.
    { intros HS. destruct (sort_species_spec (clf_new ss rs) HS) as (k3 & E3 & _ & A & B & _). rewrite SS in E3. injection E3 as <-. now split. }
    split; [exact (aligned cr_id _ _ _ _ FR' N2 P2 BR)|].
    exists (k_reactions k'). split; [exact S4|]. rewrite <- S3. split; [exact S5|]. split; [|reflexivity].
    intros p Hp. rewrite (S6 p Hp), K1. reflexivity.
  Qed.
End Order.

(** ** Clashing ids are renewed first and last *)

Lemma numbered_nodup E : (forall z w, ishow E z = ishow E w -> z = w) -> forall l z, NoDup (map el_id (number_from E z l)).
Proof.
  intros IS. assert (G : forall l z x, In x (map el_id (number_from E z l)) -> exists w, z <= w /\ x = ishow E w).
  { induction l as [|e l IH]; cbn; intros z x; [easy|]. intros [<-|H]; [exists z; split; [lia|reflexivity]|]. destruct (IH _ _ H) as (w & L & ->).
    exists w. split; [lia|reflexivity]. }
  induction l as [|e l IH]; intros z; cbn; constructor; [|apply IH]. intros H. apply G in H as (w & L & Q). apply IS in Q. lia.
Qed.

Section Clash.
  Variable E : env.
  Hypothesis R : forall z, iparse E (ishow E z) = Some z.

  Lemma shown_injective z w : ishow E z = ishow E w -> z = w.
  Proof using R. intros H. assert (X : iparse E (ishow E z) = iparse E (ishow E w)) by now rewrite H. rewrite !R in X. now injection X. Qed.

  Lemma nodupSb_false l : nodupSb l = false -> ~ NoDup l.
  Proof using. intros H N. apply nodupSb_NoDup in N. congruence. Qed.

  Theorem sorted_any uid b b' ns : Forall2 named (b_species b) ns -> NoDup ns -> count_ordinary ns < 999 ->
    sort_elements E uid b = (b', Ok tt) ->
    exists b1 b2 ss rs ss' rs', renewed E b b b1 /\ renewed E b b2 b' /\ read_as E uid b1 ss rs /\
      reordered (b_species b1) ss (b_species b2) ss' /\ species_ordered ss ss' /\
      reordered (b_reactions b1) rs (b_reactions b2) rs' /\ reactions_ordered ss' rs rs'.
  Proof using R.
    intros FN NN CN.
    assert (G : sort_elements E uid b = (b', Ok tt) -> exists b1 b2, NoDup (map el_id (b_species b1)) /\ NoDup (map el_id (b_reactions b1)) /\
                  renewed E b b b1 /\ renewed E b b2 b' /\ sort_elements E uid b1 = (b2, Ok tt)).
    { intros H. unfold sort_elements in H. cbv zeta in H.
      pose proof (ids_distinct E shown_injective b ns FN NN CN) as D1.
      set (again1 := negb (nodupSb (map el_id (b_species b)))) in H. set (again2 := negb (nodupSb (map el_id (b_reactions b)))) in H.
      assert (A1 : (again1 = false /\ NoDup (map el_id (b_species b))) \/ (again1 = true /\ ~ NoDup (map el_id (b_species b)))).
      { subst again1. destruct (nodupSb (map el_id (b_species b))) eqn:Q; [left|right]; (split; [reflexivity|]); [now apply nodupSb_NoDup|now apply nodupSb_false]. }
      assert (A2 : (again2 = false /\ NoDup (map el_id (b_reactions b))) \/ (again2 = true /\ ~ NoDup (map el_id (b_reactions b)))).
      { subst again2. destruct (nodupSb (map el_id (b_reactions b))) eqn:Q; [left|right]; (split; [reflexivity|]); [now apply nodupSb_NoDup|now apply nodupSb_false]. }
      clearbody again1 again2.
      destruct (if again1 then assign_species_ids E b else (b, Ok tt)) as [b1 [[]|e]] eqn:S1; [|discriminate].
      set (b2 := if again2 then fst (assign_reactions_ids E b1) else b1) in H.
      assert (RX : b_reactions b1 = b_reactions b /\ b_keys b1 = b_keys b).
      { destruct again1; [|now injection S1 as <-]. unfold assign_species_ids in S1. destruct (assign_from E 1 (b_species b)) as [l r]. injection S1 as <- _. now split. }
      assert (SP2 : b_species b2 = b_species b1 /\ b_keys b2 = b_keys b1) by (subst b2; destruct again2; split; reflexivity).
      assert (N1 : NoDup (map el_id (b_species b2))).
      { rewrite (proj1 SP2). destruct A1 as [[-> A]|[-> A]]; [now injection S1 as <-|]. rewrite S1 in D1. exact D1. }
      assert (N2 : NoDup (map el_id (b_reactions b2))).
      { subst b2. destruct A2 as [[-> A]|[-> A]]; [now rewrite (proj1 RX)|]. apply numbered_nodup. exact shown_injective. }
      assert (RN : renewed E b b b2).
      { constructor.
        - now rewrite (proj2 SP2), (proj2 RX).
        - intros A. rewrite (proj1 SP2). destruct A1 as [[-> _]|[-> B]]; [now injection S1 as <-|contradiction].
        - intros A. rewrite (proj1 SP2). destruct A1 as [[-> B]|[-> _]]; [contradiction|]. now rewrite S1.
        - intros A. subst b2. destruct A2 as [[-> _]|[-> B]]; [exact (proj1 RX)|contradiction].
        - intros A. subst b2. destruct A2 as [[-> B]|[-> _]]; [contradiction|]. cbn. now rewrite (proj1 RX). }
      assert (M1 : nodupSb (map el_id (b_species b2)) = true) by now apply nodupSb_NoDup.
      assert (M2 : nodupSb (map el_id (b_reactions b2)) = true) by now apply nodupSb_NoDup.
      clearbody b2.
      destruct (sorted_ids E uid b2) as [[sp_ids r_ids]|e] eqn:SI; [|discriminate].
      destruct (sort_by Z.leb _ (b_species b2)) as [ls|e] eqn:BS; [|discriminate].
      cbn [b_reactions b_keys b_species] in H.
      destruct (sort_by Z.leb _ (b_reactions b2)) as [lr|e] eqn:BR; [|discriminate].
      set (b4 := MkB (b_keys b2) ls lr) in H.
      exists b2, b4. split; [exact N1|]. split; [exact N2|]. split; [exact RN|]. split.
      - destruct (if again1 then assign_species_ids E b4 else (b4, Ok tt)) as [b5 [[]|e]] eqn:S5; [|discriminate].
        assert (R5 : b_reactions b5 = b_reactions b4 /\ b_keys b5 = b_keys b4).
        { destruct again1; [|now injection S5 as <-]. unfold assign_species_ids in S5. destruct (assign_from E 1 (b_species b4)) as [l r]. injection S5 as <- _. now split. }
        assert (Q : b_species b' = b_species b5 /\ b_keys b' = b_keys b5 /\ b_reactions b' = if again2 then number_from E 1 (b_reactions b5) else b_reactions b5)
          by (destruct again2; injection H as <-; repeat split; reflexivity).
        destruct Q as (Q1 & Q2 & Q3). constructor.
        + now rewrite Q2, (proj2 R5).
        + intros A. rewrite Q1. destruct A1 as [[-> _]|[-> B]]; [now injection S5 as <-|contradiction].
        + intros A. rewrite Q1. destruct A1 as [[-> B]|[-> _]]; [contradiction|]. now rewrite S5.
        + intros A. rewrite Q3. destruct A2 as [[-> _]|[-> B]]; [exact (proj1 R5)|contradiction].
        + intros A. rewrite Q3. destruct A2 as [[-> B]|[-> _]]; [contradiction|]. now rewrite (proj1 R5).
      - unfold sort_elements. cbv zeta. rewrite M1, M2. cbn [negb]. rewrite SI, BS. cbn [b_reactions b_keys b_species]. rewrite BR. reflexivity. }
    intros H. destruct (G H) as (b1 & b2 & N1 & N2 & R1 & R2 & S). destruct (sorted_order E R uid b1 b2 N1 N2 S) as (ss & rs & ss' & rs' & O).
    exists b1, b2, ss, rs, ss', rs'. split; [exact R1|]. split; [exact R2|exact O].
  Qed.
End Clash.
