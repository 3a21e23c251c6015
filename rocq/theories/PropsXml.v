(** XML files: round trips, ids, and the builder. *)
From Coq Require Import Sorting.Permutation.
From Verif Require Import Base Species Reactions MolSpec Classification Xml XmlSpec XmlIds XmlBuilder XmlMain MolExamples XmlExamples.

(** C28: species with distinct writable names and reactions between them can
    all be added to a new builder; what is read back, directly or from a file,
    are species and reactions of which all getters return the same. The
    reactions read refer to the species read. *)
Theorem C28_roundtrip_partial E so uid sps rxs :
  numbers_readable E -> (forall s, In s sps -> writable_species s) -> NoDup (map get_name sps) ->
  (forall r, In r rxs -> writable_reaction E r /\ incl (r_lhs r ++ r_rhs r) sps) ->
  exists b sps' rxs', performed E so b_empty (map ORp sps ++ map ORx rxs) b /\ reads E uid b sps' rxs' /\
    Forall2 (same_species E) sps sps' /\ Forall2 (same_reaction E) rxs rxs' /\
    (forall r', In r' rxs' -> incl (r_lhs r' ++ r_rhs r') sps') /\ map rp_uid sps' = seq uid (List.length sps).
Proof. exact (fun NR => roundtrip E so NR uid sps rxs). Qed.

(** C28: the same for a whole chemistry; the species written are those that
    take part in a reaction, in the order of the chemistry. *)
Theorem C28_chemistry_partial E so uid sps rxs :
  numbers_readable E -> (forall s, In s sps -> writable_species s) -> NoDup (map get_name sps) -> NoDup (map rp_id sps) ->
  (forall r, In r rxs -> writable_reaction E r /\ incl (r_lhs r ++ r_rhs r) sps) ->
  exists b f sps' rxs', add_chemistry_from_instance E so (map rp_id sps) rxs b_empty = (b, Ok tt) /\
    (forall s, In s sps -> f s = true <-> exists r, In r rxs /\ In s (r_lhs r ++ r_rhs r)) /\ reads E uid b sps' rxs' /\
    Forall2 (same_species E) (filter f sps) sps' /\ Forall2 (same_reaction E) rxs rxs' /\
    (forall r', In r' rxs' -> incl (r_lhs r' ++ r_rhs r') sps').
Proof. exact (fun NR => chemistry_roundtrip E so NR uid sps rxs). Qed.

Example C28_nonvacuous : numbers_readable E2 /\ (forall s, In s chem_sps -> writable_species s) /\ NoDup (map get_name chem_sps) /\
  NoDup (map rp_id chem_sps) /\ (forall r, In r chem_rxs -> writable_reaction E2 r /\ incl (r_lhs r ++ r_rhs r) chem_sps).
Proof. exact (conj E2_readable (conj chem_writable (conj (proj1 chem_names) (conj (proj2 chem_names) chem_rx)))). Qed.

(** C106: species attributes that are empty strings are not read back; a
    sticking coefficient changes from 1 to 0. *)
Theorem C106_empty_text_refuted : exists E so s s' b rxs', sp_history s /\ performed E so b_empty [ORp s] b /\
  parse E 0 (b_species b) (b_reactions b) = Ok ([s'], rxs') /\
  get_state s = Ok (Some "") /\ get_state s' = Ok None /\
  get_stick_coef E s = Ok (Some (Fin 1)) /\ get_stick_coef E s' = Ok (Some (Fin 0)).
Proof. exact (ex_intro _ E2 (ex_intro _ so2 empty_text_lost)). Qed.

(** C107: species and reactions with a comma in a name are written, but then
    cannot be read, or are read as another reaction. *)
Theorem C107_comma_unreadable_refuted : exists E so sps r b, (forall s, In s sps -> sp_history s) /\ rx_history E r /\
  incl (r_lhs r ++ r_rhs r) sps /\ performed E so b_empty (map ORp sps ++ [ORx r]) b /\
  parse E 0 (b_species b) (b_reactions b) = Err EKey.
Proof. exact (ex_intro _ E2 (ex_intro _ so2 comma_unreadable)). Qed.

Theorem C107_comma_misread_refuted : exists E so sps r b sps' r', (forall s, In s sps -> sp_history s) /\ rx_history E r /\
  incl (r_lhs r ++ r_rhs r) sps /\ performed E so b_empty (map ORp sps ++ [ORx r]) b /\
  parse E 0 (b_species b) (b_reactions b) = Ok (sps', [r']) /\ List.length (r_rhs r) = 1%nat /\ List.length (r_rhs r') = 2%nat.
Proof. exact (ex_intro _ E2 (ex_intro _ so2 comma_misread)). Qed.

(** C29: [assign_species_ids] keeps everything but the ids; with distinct
    names, fewer than 999 of which are neither 'e' nor 'M', the ids are
    pairwise different. The i-th species is numbered by the ordinary species up
    to it. *)
Theorem C29_distinct_ids_partial E b ns :
  (forall z w, ishow E z = ishow E w -> z = w) -> Forall2 named (b_species b) ns -> NoDup ns ->
  Z.of_nat (List.length (filter (fun n => negb (String.eqb n "e") && negb (String.eqb n "M")) ns)) < 999 ->
  NoDup (map el_id (b_species (fst (assign_species_ids E b)))).
Proof. exact (fun IS => ids_distinct E IS b ns). Qed.

Theorem C29_effect E b ns : Forall2 named (b_species b) ns ->
  exists b', assign_species_ids E b = (b', Ok tt) /\
    map el_items (b_species b') = map el_items (b_species b) /\ b_reactions b' = b_reactions b /\
    forall i n, nth_error ns i = Some n -> nth_error (map el_id (b_species b')) i = Some (ishow E
      (if String.eqb n "e" then 0 else if String.eqb n "M" then 999
       else 1 + Z.of_nat (List.length (filter (fun n => negb (String.eqb n "e") && negb (String.eqb n "M")) (firstn i ns))))).
Proof. exact (ids_effect E b ns). Qed.

Theorem C29_clash_refuted E b ns : Forall2 named (b_species b) ns ->
  Z.of_nat (List.length (filter (fun n => negb (String.eqb n "e") && negb (String.eqb n "M")) ns)) >= 999 -> In "M" ns ->
  ~ NoDup (map el_id (b_species (fst (assign_species_ids E b)))).
Proof. exact (ids_clash E b ns). Qed.

Theorem C29_reactions E l z :
  map el_items (number_from E z l) = map el_items l /\
  forall i e, nth_error l i = Some e -> nth_error (map el_id (number_from E z l)) i = Some (ishow E (z + Z.of_nat i)).
Proof. exact (number_spec E l z). Qed.

Example C29_nonvacuous :
  (Forall2 named (b_species many) many_names /\ NoDup many_names /\ count_ordinary many_names >= 999 /\ In "M" many_names) /\
  (forall z w, ishow E2 z = ishow E2 w -> z = w).
Proof. exact (conj many_named (readable_injective E2 E2_readable)). Qed.

(** C30: whatever calls were made on a builder, provided that species are named
    by non-empty strings and files list the species of their reactions: the
    names of the species are pairwise different, a species is refused iff its
    name is there, reactions are accepted iff all their species are there, and
    the reactions present refer to species present. *)
Theorem C30_names_partial E so l : (forall o, In o l -> well_named o) -> exists ns, species_named E so (bhistory E so b_empty l) ns.
Proof. exact (builder_consistent E so l). Qed.

(** C30: refused calls that add one species or, from attributes, one reaction
    change nothing. *)
Theorem C30_rejected_unchanged_partial E so b o e :
  match o with ORpAttrs _ _ _ _ | ORp _ | ORxAttrs _ _ _ _ _ _ => True | _ => False end ->
  snd (bstep E so b o) = Err e -> fst (bstep E so b o) = b.
Proof. exact (rejected_unchanged E so b o e). Qed.

Example C30_nonvacuous : (forall o, In o (map ORp chem_sps ++ [OChem (map rp_id chem_sps) chem_rxs; OSort 0; OIds]) -> well_named o) /\
  snd (bstep E2 so2 (bhistory E2 so2 b_empty (map ORp chem_sps)) (ORp sp_O)) = Err EXml /\
  List.length (b_reactions (bhistory E2 so2 b_empty (map ORp chem_sps ++ [OChem (map rp_id chem_sps) chem_rxs; OSort 0; OIds]))) = 2%nat.
Proof. exact ops_example. Qed.

(** C108: different data for a name that is already there are dropped without
    an error; files bring reactions of missing species. *)
Theorem C108_conflict_refuted : exists E so s r b sps' r' p p', performed E so b_empty [ORp s; ORx r] b /\ rx_history E r /\
  parse E 0 (b_species b) (b_reactions b) = Ok (sps', [r']) /\
  nth_error (r_lhs r) 0 = Some p /\ nth_error (r_lhs r') 0 = Some p' /\ get_name p = get_name p' /\ get_mass E p <> get_mass E p'.
Proof. exact (ex_intro _ E2 (ex_intro _ so2 conflict_dropped)). Qed.

Theorem C108_dangling_refuted : exists E so sps rxs b, performed E so b_empty [OXml sps rxs] b /\
  parse E 0 (b_species b) (b_reactions b) = Err EKey.
Proof. exact (ex_intro _ E2 (ex_intro _ so2 dangling)). Qed.

(** C109: adding a chemistry to a builder that has a species with an id foreign
    to that chemistry fails after all reactions have been added. *)
Theorem C109_partial_add_refuted E so b ids rxs e z :
  In e (b_species b) -> iparse E (el_id e) = Some z -> ~ In z ids -> snd (add_reactions E so rxs b) = Ok tt ->
  exists b', (exists x, add_chemistry_from_instance E so ids rxs b = (b', Err x)) /\
    exists new, b_reactions b' = b_reactions b ++ new /\ List.length new = List.length rxs.
Proof. exact (foreign_species E so b ids rxs e z). Qed.

Example C109_nonvacuous : exists b b' x, snd (add_chemistry_from_instance E2 so2 (map rp_id chem_sps) chem_rxs b_empty) = Ok tt /\
  fst (add_chemistry_from_instance E2 so2 (map rp_id chem_sps) chem_rxs b_empty) = b /\
  add_chemistry_from_instance E2 so2 (map rp_id [sp_O; sp_O2])
    [mk2 6 [sp_O; sp_O] [sp_O2] [("arrh_a", VFlt (Fin 1))] [("arrh_a", Some "m3.s-1")]] b = (b', Err x) /\
  List.length (b_reactions b) = 2%nat /\ List.length (b_reactions b') = 3%nat.
Proof. exact second_chemistry_fails. Qed.

(** C110: names that are not strings or empty are accepted: two species of the
    same name, or ids that can no longer be assigned. *)
Theorem C110_odd_names_refuted : exists E so b,
  performed E so b_empty [ORpAttrs None [] [("name", VInt 5)] []; ORpAttrs None [] [("name", VStr "5")] []] b /\
  Forall2 named (b_species b) ["5"; "5"].
Proof. exact (ex_intro _ E2 (ex_intro _ so2 odd_names_clash)). Qed.

Theorem C110_empty_name_refuted : exists E so b, performed E so b_empty [ORpAttrs None [] [("name", VStr "")] []] b /\
  snd (assign_species_ids E b) = Err EAttribute.
Proof. exact (ex_intro _ E2 (ex_intro _ so2 empty_name_blocks)). Qed.

(** C111: sorting loses and invents nothing, also when it fails half way; when
    ids are distinct it only permutes the elements. *)
Theorem C111_sort_contents E uid b : let b' := fst (sort_elements E uid b) in
  b_keys b' = b_keys b /\ Permutation (map el_items (b_species b)) (map el_items (b_species b')) /\
  Permutation (map el_items (b_reactions b)) (map el_items (b_reactions b')).
Proof. exact (sort_same E uid b). Qed.

Theorem C111_sort_permutes E uid b : NoDup (map el_id (b_species b)) -> NoDup (map el_id (b_reactions b)) ->
  let b' := fst (sort_elements E uid b) in Permutation (b_species b) (b_species b') /\ Permutation (b_reactions b) (b_reactions b').
Proof. exact (sort_perm E uid b). Qed.

Example C111_nonvacuous : exists b b', performed E2 so2 b_empty (map ORp (rev chem_sps) ++ map ORx (rev chem_rxs)) b /\
  sort_elements E2 0 b = (b', Ok tt) /\ b_species b' <> b_species b /\
  NoDup (map el_id (b_species b)) /\ NoDup (map el_id (b_reactions b)).
Proof. exact sort_example. Qed.

(** C112: an existing file is not overwritten unless asked for. *)
Theorem C112_protected path b fs : shas path fs = true -> dump_xml path false b fs = (fs, Err EXml).
Proof. exact (dump_protected path b fs). Qed.

Example C112_nonvacuous : shas "a.xml" [("a.xml", ([] : list element, [] : list element))] = true.
Proof. exact eq_refl. Qed.

(** All theorems of this file at once (one traversal instead of one per
    theorem). *)
Definition all_theorems := (
  @C28_roundtrip_partial,
  @C28_chemistry_partial,
  @C106_empty_text_refuted,
  @C107_comma_unreadable_refuted,
  @C107_comma_misread_refuted,
  @C29_distinct_ids_partial,
  @C29_effect,
  @C29_clash_refuted,
  @C29_reactions,
  @C30_names_partial,
  @C30_rejected_unchanged_partial,
  @C108_conflict_refuted,
  @C108_dangling_refuted,
  @C109_partial_add_refuted,
  @C110_odd_names_refuted,
  @C110_empty_name_refuted,
  @C111_sort_contents,
  @C111_sort_permutes,
  @C112_protected).
Print Assumptions all_theorems.
