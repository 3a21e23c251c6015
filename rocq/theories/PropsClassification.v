(** Property theorems about classification and sorting (C25 - C27, C55 - C58).
    The vocabulary is that of ClassSpec.v. *)
From Coq Require Import Permutation Sorted.
From Verif Require Import Base BaseLemmas Species Reactions Classification ClassSpec ClassProofs ClassExact ClassSort
  ClassMeaning ClassCategories MolSpec MolExamples ClassExamples.

(** C25 *)
Theorem C25_partition sps rs h d k' :
  NoDup (map cr_id rs) -> ops_of rs h ->
  get_classified (run (clf_new sps rs) h) = (k', Ok d) ->
  NoDup (map fst (buckets d)) /\ Permutation (List.concat (map snd (buckets d))) rs.
Proof. exact (classification_complete sps rs h d k'). Qed.

Theorem C25_buckets sps rs h d k' :
  NoDup (map cr_id rs) -> ops_of rs h ->
  let k := run (clf_new sps rs) h in
  get_classified k = (k', Ok d) ->
  Permutation (k_reactions k) rs /\ Permutation (k_species k) sps /\ k_reactions k' = k_reactions k /\
  (forall r, In r rs -> exists tc, classify r = Ok tc /\ In tc scheme_pairs) /\
  (forall tc, In tc d -> snd tc <> []) /\
  buckets d = filter (fun b => nonempty (snd b))
                     (map (fun tc => (tc, filter (in_class tc) (k_reactions k))) scheme_pairs).
Proof. exact (classification_partitions sps rs h d k'). Qed.

Theorem C25_succeeds_iff sps rs h :
  NoDup (map cr_id rs) -> ops_of rs h ->
  (exists k' d, get_classified (run (clf_new sps rs) h) = (k', Ok d)) <->
  (forall r, In r rs -> exists tc, classify r = Ok tc).
Proof. exact (classification_total sps rs h). Qed.

Example C25_not_vacuous :
  NoDup (map cr_id rs0) /\ ops_of rs0 [OSortSpecies; OClassify; OAligned r_CC; OSortReactions] /\
  exists k' d, get_classified (run (clf_new sp0 rs0) [OSortSpecies; OClassify; OAligned r_CC; OSortReactions]) = (k', Ok d) /\
    map (fun b => (fst b, map cr_id (snd b))) (buckets d) =
      [(("ELECTRON IMPACT COLLISIONS", "excitation"), [3]);
       (("NEUTRAL - NEUTRAL COLLISIONS", "elastic scattering"), [1; 2])].
Proof. exact partition_example. Qed.

(** C26: exactly when classification of a Reaction object raises. *)
Theorem C26_raises_iff E r v :
  formulas_ok E -> electrons_ok E (r_lhs r ++ r_rhs r) -> rx_history E r -> cr_view E r = Ok v ->
  ids_ok (cr_lhs v ++ cr_rhs v) ->
  (unsupported v -> classify v = Err EIndex) /\ (~ unsupported v -> exists tc, classify v = Ok tc).
Proof. exact (classify_object E r v). Qed.

Theorem C26_like_charges_refuted :
  exists r v, rx_history E1 r /\ conserves E1 (r_lhs r) (r_rhs r) /\ cr_view E1 r = Ok v /\ like_charges v /\
    classify v = Err EIndex.
Proof. exact classifier_raises. Qed.

Theorem C26_electrons_refuted :
  exists r v, rx_history E1 r /\ conserves E1 (r_lhs r) (r_rhs r) /\ cr_view E1 r = Ok v /\ classify v = Err EIndex.
Proof. exact classifier_raises_electrons. Qed.

Example C26_not_vacuous :
  formulas_ok E1 /\
  (electrons_ok E1 (r_lhs rx_ion ++ r_rhs rx_ion) /\ rx_history E1 rx_ion /\
   ids_ok (cr_lhs (vw rx_ion) ++ cr_rhs (vw rx_ion)) /\ ~ unsupported (vw rx_ion)) /\
  cr_view E1 rx_ion = Ok (vw rx_ion) /\ classify (vw rx_ion) = Ok ("ELECTRON IMPACT COLLISIONS", "ionization").
Proof. exact (conj E1_ok (conj ion_hyps ion_class)). Qed.

(** C27 *)
Theorem C27_key_order a b qa qb :
  sortable a -> sortable b -> sort_key a = Ok qa -> sort_key b = Ok qb ->
  ((qa < qb)%Q <-> before a b).
Proof. exact (key_order a b qa qb). Qed.

Theorem C27_sort_species k :
  (forall s, In s (k_species k) -> sortable s) ->
  exists k', sort_species k = (k', Ok tt) /\
    Permutation (k_species k') (k_species k) /\
    StronglySorted (fun a b => ~ before b a) (k_species k') /\
    (forall p : cs -> bool,
       (forall a b, In a (k_species k) -> In b (k_species k) -> p a = true -> p b = true -> ~ before b a) ->
       filter p (k_species k') = filter p (k_species k)) /\
    k_reactions k' = k_reactions k.
Proof. exact (sort_species_spec k). Qed.

Theorem C27_strict_order a b : sortable a -> sortable b -> before a b -> ~ before b a.
Proof. exact (before_strict a b). Qed.

Example C27_not_vacuous :
  (forall s, In s sp0 -> sortable s) /\
  map cs_name (k_species (fst (sort_species (clf_new sp0 rs0)))) = ["e"; "He"; "He+"; "He*"; "C"; "M"].
Proof. exact sort_example. Qed.

(** C55 *)
Theorem C55_types E r v t c :
  formulas_ok E -> electrons_ok E (r_lhs r ++ r_rhs r) -> rx_history E r -> cr_view E r = Ok v ->
  ids_ok (cr_lhs v ++ cr_rhs v) -> classify v = Ok (t, c) -> type_spec v t.
Proof. exact (classify_object_type E r v t c). Qed.

(** 'stripping' is documented, but never assigned. *)
Theorem C55_published_scheme r t c :
  classify r = Ok (t, c) -> exists cats, In (t, cats) scheme /\ In c cats /\ c <> "stripping".
Proof. exact (classify_scheme r t c). Qed.

(** C58: the categories; vocabulary of ClassMeaning.v. *)
Theorem C58_categories E r v t c :
  formulas_ok E -> electrons_ok E (r_lhs r ++ r_rhs r) -> rx_history E r -> cr_view E r = Ok v ->
  ids_ok (cr_lhs v ++ cr_rhs v) -> classify v = Ok (t, c) -> category_spec v t c.
Proof. exact (classify_object_category E r v t c). Qed.

(** Hence, e.g., the product of an ionization is a positive ion and that of
    an attachment a negative one. *)
Theorem C58_charge_account E r v c :
  formulas_ok E -> electrons_ok E (r_lhs r ++ r_rhs r) -> rx_history E r -> cr_view E r = Ok v ->
  ids_ok (cr_lhs v ++ cr_rhs v) -> electron_hits v c -> charge_account v c.
Proof. exact (object_account E r v c). Qed.

Example C58_not_vacuous :
  electron_hits (vw rx_ion) ion_partner /\
  cr_view E1 rx_ion = Ok (vw rx_ion) /\ classify (vw rx_ion) = Ok ("ELECTRON IMPACT COLLISIONS", "ionization").
Proof. exact (conj ion_hits ion_class). Qed.

(** C56 *)
Theorem C56_sorting_total_refuted :
  snd (sort_species (clf_new [c_e; c_Sc] [])) = Err EValue /\
  snd (sort_species (clf_new [c_e; c_4] [])) = Err ENotImplemented.
Proof. exact sort_raises. Qed.

Theorem C56_large_counts_refuted :
  map cs_name (k_species (fst (sort_species (clf_new [c_C60; c_N; c_C] [])))) = ["C"; "N"; "C60"].
Proof. exact sort_carry. Qed.

(** C57 *)
Theorem C57_alignment_refuted :
  exists sps rs h r1 r2 tc k1 k2 s1 s2,
    NoDup (map cr_id rs) /\ ops_of rs h /\ In r1 rs /\ In r2 rs /\ classify r1 = Ok tc /\ classify r2 = Ok tc /\
    get_aligned (run (clf_new sps rs) h) r1 = (k1, Ok s1) /\ get_aligned k1 r2 = (k2, Ok s2) /\
    String.length s1 <> String.length s2.
Proof. exact misaligned. Qed.

(** All theorems of this file at once (one traversal instead of one per
    theorem). *)
Definition all_theorems := (
  @C25_partition,
  @C25_buckets,
  @C25_succeeds_iff,
  @C26_raises_iff,
  @C26_like_charges_refuted,
  @C26_electrons_refuted,
  @C27_key_order,
  @C27_sort_species,
  @C27_strict_order,
  @C55_types,
  @C55_published_scheme,
  @C58_categories,
  @C58_charge_account,
  @C56_sorting_total_refuted,
  @C56_large_counts_refuted,
  @C57_alignment_refuted).
Print Assumptions all_theorems.
