(** When the elements of an XML chemistry can be sorted. *)
From Coq Require Import Permutation Sorted.
From Verif Require Import Base BaseLemmas Species Reactions MolSpec SpeciesProofs ReactionProofs SortLemmas Classification ClassSpec ClassProofs
  ClassSort ClassOrder AttrTable AttrSpecies AttrReact Xml XmlSpec XmlProofs XmlIds XmlBuilder XmlSortSpec XmlSort XmlExamples XmlSortExamples.
Open Scope Z_scope.

Lemma In_index x l : In x l -> exists i, index_of String.eqb x l = Ok i.
Proof.
  induction l as [|y l IH]; [easy|]. cbn [index_of]. destruct (String.eqb_spec x y) as [->|D]; [eauto|]. intros [->|H]; [contradiction|].
  destruct (IH H) as [i ->]. cbn. eauto.
Qed.
Lemma sort_by_ok ids (l : list element) : (forall e, In e l -> In (el_id e) ids) ->
  exists m, sort_by Z.leb (fun e => index_of String.eqb (el_id e) ids) l = Ok m.
Proof.
  intros H. unfold sort_by. destruct (mapM_keys_ok (fun e => index_of String.eqb (el_id e) ids) l) as [ks ->]; [intros e He; now apply In_index, H|].
  cbn. eauto.
Qed.

Lemma flat_buckets (d : table) : List.concat (map (fun tc => List.concat (map snd (snd tc))) d) = List.concat (map snd (buckets d)).
Proof.
  unfold buckets. induction d as [|[t cats] d IH]; [reflexivity|]. cbn [map List.concat flat_map fst snd].
  rewrite IH, map_app, concat_app. f_equal. f_equal. rewrite map_map. reflexivity.
Qed.

Lemma known E uid b sps rxs ss rs : read_species E uid (b_species b) = Ok sps -> mapM (reaction_of E sps) (b_reactions b) = Ok rxs ->
  mapM (cs_view E) sps = Ok ss -> mapM (cr_view E) rxs = Ok rs -> NoDup (map cs_id ss) -> species_known ss rs.
Proof.
  intros RS RX VS VR ND1. split; [exact ND1|]. split.
  - rewrite (mapM_proj _ rp_uid cs_uid _ _ (fun a b H => proj2 (cs_view_ids E a b H)) VS), (proj2 (read_ids E _ _ _ RS)). apply seq_NoDup.
  - intros r s Hr Hs. destruct (mapM_back _ _ _ _ VR Hr) as (x & Hx & Ix). destruct (cr_view_parts _ _ _ Hx) as (_ & L1 & L2).
    destruct (mapM_back _ _ _ _ RX Ix) as (e & He & _). apply reaction_of_parts in He as [_ IN].
    assert (T : exists o, cs_view E o = Ok s /\ In o (r_lhs x ++ r_rhs x)).
    { apply in_app_or in Hs as [Hs|Hs]; [destruct (mapM_back _ _ _ _ L1 Hs) as (o & A & B)|destruct (mapM_back _ _ _ _ L2 Hs) as (o & A & B)];
        exists o; (split; [exact A|]); apply in_or_app; auto. }
    destruct T as (o & A & B). apply IN in B. apply mapM_Ok_inv in VS. clear - VS A B.
    induction VS as [|o' s' l m H F IH]; [easy|]. destruct B as [->|B]; [left; congruence|right; auto].
Qed.

Section Sortable.
  Variable E : env.
  Hypothesis R : forall z, iparse E (ishow E z) = Some z.

  Lemma canonical_ids {A} (key : A -> Z) es vs : Forall2 (fun e v => py_int_str E (el_id e) = Ok (key v)) es vs ->
    (forall e, In e es -> exists z, el_id e = ishow E z) -> map el_id es = map (fun v => ishow E (key v)) vs.
  Proof using R.
    induction 1 as [|e v es vs H F IH]; intros C; [reflexivity|]. cbn [map]. rewrite IH by (intros; apply C; now right). f_equal.
    destruct (C e (or_introl eq_refl)) as [z Hz]. unfold py_int_str in H. rewrite Hz, R in H. injection H as H. now rewrite Hz, H.
  Qed.

  Lemma ids_found {A} (key : A -> Z) es (vs vs' : list A) : map el_id es = map (fun v => ishow E (key v)) vs -> Permutation vs' vs ->
    forall e, In e es -> In (el_id e) (map (fun v => ishow E (key v)) vs').
  Proof using.
    intros Q P e He. apply (Permutation_in _ (Permutation_map _ (Permutation_sym P))). rewrite <- Q. now apply in_map.
  Qed.

  Theorem sorts uid b ss rs : NoDup (map el_id (b_species b)) -> NoDup (map el_id (b_reactions b)) -> read_as E uid b ss rs ->
    (forall s, In s ss -> sortable s) -> (forall r, In r rs -> exists tc, classify r = Ok tc) ->
    (forall e, In e (b_species b ++ b_reactions b) -> exists z, el_id e = ishow E z) ->
    exists b', sort_elements E uid b = (b', Ok tt).
  Proof using R.
    intros N1 N2 (sps & rxs & PA & VS & VR) HS HC HI. pose proof N1 as M1. pose proof N2 as M2. apply nodupSb_NoDup in M1, M2.
    pose proof PA as PB. unfold parse in PB. apply bindOk in PB as (sps0 & RS & PB). apply bindOk in PB as (rxs0 & RX & PB). injection PB as -> ->.
    destruct (read_ids E _ _ _ RS) as [FS US].
    pose proof (view_ids _ _ cs_id _ _ _ _ (fun x y H => proj1 (cs_view_ids E x y H)) FS VS) as FS'.
    assert (FR : Forall2 (fun e q => py_int_str E (el_id e) = Ok (r_id q)) (b_reactions b) rxs).
    { apply mapM_Ok_inv in RX. clear - RX. induction RX as [|x y l m H F IH]; constructor; [now apply reaction_of_parts in H|exact IH]. }
    pose proof (view_ids _ _ cr_id _ _ _ _ (fun x y H => proj1 (cr_view_parts E x y H)) FR VR) as FR'.
    pose proof (canonical_ids cs_id _ _ FS' (fun e He => HI e (in_or_app _ _ _ (or_introl He)))) as I1.
    pose proof (canonical_ids cr_id _ _ FR' (fun e He => HI e (in_or_app _ _ _ (or_intror He)))) as I2.
    assert (ND1 : NoDup (map cs_id ss)) by (rewrite I1, <- (map_map cs_id (ishow E)) in N1; now apply NoDup_map_inv in N1).
    assert (ND2 : NoDup (map cr_id rs)) by (rewrite I2, <- (map_map cr_id (ishow E)) in N2; now apply NoDup_map_inv in N2).
    assert (KN : species_known ss rs) by exact (known E uid b sps rxs ss rs RS RX VS VR ND1).
    destruct (sort_species_spec (clf_new ss rs) HS) as (k & SS & P1 & _). cbn [clf_new k_species] in P1.
    assert (HK : run (clf_new ss rs) [OSortSpecies] = k) by (cbn; now rewrite SS).
    assert (O1 : ops_of rs [OSortSpecies]) by (intros r [H|[]]; discriminate).
    assert (O2 : ops_of rs [OSortSpecies; OSortReactions]) by (intros r [H|[H|[]]]; discriminate).
    destruct (reactions_sorted ss rs KN _ O1) as (k' & SR & S3 & S4 & _). rewrite HK in SR.
    assert (HK' : run (clf_new ss rs) [OSortSpecies; OSortReactions] = k') by (unfold run; cbn [fold_left step]; rewrite SS; cbn [fst]; now rewrite SR).
    destruct (proj2 (classification_total ss rs [OSortSpecies; OSortReactions] ND2 O2) HC) as (k'' & d & GC). pose proof GC as GD. rewrite HK' in GC.
    destruct (classification_complete ss rs _ d k'' ND2 O2 GD) as (_ & P2).
    assert (D : List.concat (map (fun tc => List.concat (map snd (snd tc))) d) = List.concat (map snd (buckets d))) by apply flat_buckets.
    rewrite <- D in P2.
    destruct (sort_by_ok _ _ (ids_found cs_id _ _ _ I1 P1)) as [ls BS].
    destruct (sort_by_ok _ _ (ids_found cr_id _ _ _ I2 P2)) as [lr BR].
    unfold sort_elements. cbv zeta. rewrite M1, M2. cbn [negb]. unfold sorted_ids. rewrite PA. cbn [bind fst snd]. rewrite VS. cbn [bind]. rewrite VR. cbn [bind].
    rewrite SS, SR, GC, BS. cbn [b_reactions b_keys b_species]. rewrite BR. eauto.
  Qed.

  (** An id that is not written like Python writes it cannot be found. *)
  Theorem odd_id uid b e : NoDup (map el_id (b_species b)) -> NoDup (map el_id (b_reactions b)) ->
    In e (b_species b ++ b_reactions b) -> (forall z, el_id e <> ishow E z) -> forall b', sort_elements E uid b <> (b', Ok tt).
  Proof using.
    intros N1 N2 He Hz b'. apply nodupSb_NoDup in N1, N2. unfold sort_elements. cbv zeta. rewrite N1, N2. cbn [negb].
    unfold sorted_ids. destruct (parse E uid (b_species b) (b_reactions b)) as [[sps rxs]|x]; cbn [bind fst snd]; [|discriminate].
    destruct (mapM (cs_view E) sps) as [ss|x]; cbn [bind]; [|discriminate].
    destruct (mapM (cr_view E) rxs) as [rs|x]; cbn [bind]; [|discriminate].
    destruct (sort_species (clf_new ss rs)) as [k [[]|x]]; [|discriminate].
    destruct (sort_reactions k) as [k' [[]|x]]; [|discriminate].
    destruct (get_classified k') as [k'' [d|x]]; [|discriminate].
    destruct (sort_by Z.leb _ (b_species b)) as [ls|x] eqn:BS; [|discriminate].
    cbn [b_reactions b_keys b_species].
    destruct (sort_by Z.leb _ (b_reactions b)) as [lr|x] eqn:BR; [|discriminate].
    intros _. apply in_app_or in He as [He|He].
    - unfold sort_by in BS. destruct (mapM _ (b_species b)) as [ks|] eqn:Ek; cbn [bind] in BS; [|discriminate]. clear BS.
      apply mapM_key_snd in Ek as [M K]. rewrite <- M in He. apply in_map_iff in He as ([i e'] & <- & Hi). apply K, index_In in Hi as [Hi _].
      apply in_map_iff in Hi as (s & Q & _). now apply (Hz (cs_id s)).
    - unfold sort_by in BR. destruct (mapM _ (b_reactions b)) as [ks|] eqn:Ek; cbn [bind] in BR; [|discriminate]. clear BR.
      apply mapM_key_snd in Ek as [M K]. rewrite <- M in He. apply in_map_iff in He as ([i e'] & <- & Hi). apply K, index_In in Hi as [Hi _].
      apply in_map_iff in Hi as (s & Q & _). now apply (Hz (cr_id s)).
  Qed.
End Sortable.

(** A chemistry with the id 01 can be read, but not sorted. *)
Definition padded : builder := MkB (b_keys mixed) (b_species mixed)
  (map (fun e => if String.eqb (el_id e) "1" then MkEl "01" (el_items e) else e) (b_reactions mixed)).

Lemma padded_fails : exists ss rs b', NoDup (map el_id (b_species padded)) /\ NoDup (map el_id (b_reactions padded)) /\
  map el_id (b_reactions padded) = ["2"; "01"] /\ read_as E2 0 padded ss rs /\ (forall s, In s ss -> sortable s) /\
  (forall r, In r rs -> exists tc, classify r = Ok tc) /\ sort_elements E2 0 padded = (b', Err EValue).
Proof.
  destruct sorting_example as (_ & ss & rs & _ & _ & _ & _ & (sps & rxs & PA & VS & _) & HS & _).
  assert (VM : exists s r, parse E2 0 (b_species mixed) (b_reactions mixed) = Ok (s, r) /\ exists r', parse E2 0 (b_species padded) (b_reactions padded) = Ok (s, r') /\
     exists rs', mapM (cr_view E2) r' = Ok rs' /\ forallb (fun r => match classify r with Ok _ => true | _ => false end) rs' = true).
  { eexists _, _. split; [vm_compute; reflexivity|]. eexists. split; [vm_compute; reflexivity|]. eexists. split; vm_compute; reflexivity. }
  destruct VM as (s & r & P1 & r' & P2 & rs' & V & C). rewrite PA in P1. apply (f_equal (fun x => match x with Ok p => fst p | Err _ => [] end)) in P1. cbn in P1. subst s.
  exists ss, rs'. eexists. split; [apply nodupSb_NoDup; vm_compute; reflexivity|]. split; [apply nodupSb_NoDup; vm_compute; reflexivity|].
  split; [vm_compute; reflexivity|]. split; [exists sps, r'; split; [exact P2|split; [exact VS|exact V]]|]. split; [exact HS|]. split; [|vm_compute; reflexivity].
  intros x Hx. rewrite forallb_forall in C. specialize (C x Hx). destruct (classify x) as [tc|]; [eauto|discriminate].
Qed.

Lemma sorts_example : exists ss rs, (forall z, iparse E2 (ishow E2 z) = Some z) /\
  NoDup (map el_id (b_species mixed)) /\ NoDup (map el_id (b_reactions mixed)) /\ read_as E2 0 mixed ss rs /\ (forall s, In s ss -> sortable s) /\
  (forall r, In r rs -> exists tc, classify r = Ok tc) /\ (forall e, In e (b_species mixed ++ b_reactions mixed) -> exists z, el_id e = ishow E2 z).
Proof.
  destruct sorting_example as (b' & ss & rs & RR & N1 & N2 & _ & (sps & rxs & PA & VS & VR) & HS & _).
  exists ss, rs. split; [exact RR|]. split; [exact N1|]. split; [exact N2|]. split; [exists sps, rxs; split; [exact PA|split; [exact VS|exact VR]]|]. split; [exact HS|]. split.
  - assert (VM : exists s r, parse E2 0 (b_species mixed) (b_reactions mixed) = Ok (s, r) /\
       exists rs', mapM (cr_view E2) r = Ok rs' /\ forallb (fun r => match classify r with Ok _ => true | _ => false end) rs' = true).
    { eexists _, _. split; [vm_compute; reflexivity|]. eexists. split; vm_compute; reflexivity. }
    destruct VM as (s & r & P1 & rs' & V & C). rewrite PA in P1. apply (f_equal (fun x => match x with Ok p => snd p | Err _ => [] end)) in P1. cbn in P1. subst r.
    rewrite VR in V. apply (f_equal (fun x => match x with Ok p => p | Err _ => [] end)) in V. subst rs'.
    intros x Hx. rewrite forallb_forall in C. specialize (C x Hx). destruct (classify x) as [tc|]; [eauto|discriminate].
  - assert (C : forallb (fun e => String.eqb (el_id e) (ishow E2 match iparse E2 (el_id e) with Some z => z | None => 0 end)) (b_species mixed ++ b_reactions mixed) = true)
      by (vm_compute; reflexivity).
    intros e He. rewrite forallb_forall in C. specialize (C e He). apply String.eqb_eq in C. eexists. exact C.
Qed.
