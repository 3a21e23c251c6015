(** When XML chemistries can be sorted: theorems about the model in Xml.v, with
    the vocabulary of ClassSpec.v and XmlSortSpec.v. *)
From Coq Require Import Permutation.
From Verif Require Import Base Species Reactions MolSpec Classification ClassSpec Xml XmlSortSpec XmlSort XmlSpec XmlExamples XmlSortExamples XmlSortable XmlSortRound.
Open Scope Z_scope.

(** C188: the elements can be sorted when they can be read, the species are
    within the limits of the sorting scheme, the reactions can be classified,
    and the ids are written like Python writes integers. *)
Theorem C188_sorts_partial E uid b ss rs : (forall z, iparse E (ishow E z) = Some z) ->
  NoDup (map el_id (b_species b)) -> NoDup (map el_id (b_reactions b)) -> read_as E uid b ss rs ->
  (forall s, In s ss -> sortable s) -> (forall r, In r rs -> exists tc, classify r = Ok tc) ->
  (forall e, In e (b_species b ++ b_reactions b) -> exists z, el_id e = ishow E z) ->
  exists b', sort_elements E uid b = (b', Ok tt).
Proof. exact (fun R => sorts E R uid b ss rs). Qed.

(** Without the last condition it never succeeds, though the ids can be read. *)
Theorem C188_odd_id_refuted E uid b e : NoDup (map el_id (b_species b)) -> NoDup (map el_id (b_reactions b)) ->
  In e (b_species b ++ b_reactions b) -> (forall z, el_id e <> ishow E z) -> forall b', sort_elements E uid b <> (b', Ok tt).
Proof. exact (odd_id E uid b e). Qed.

Theorem C188_padded_refuted : exists ss rs b', NoDup (map el_id (b_species padded)) /\ NoDup (map el_id (b_reactions padded)) /\
  map el_id (b_reactions padded) = ["2"; "01"] /\ read_as E2 0 padded ss rs /\ (forall s, In s ss -> sortable s) /\
  (forall r, In r rs -> exists tc, classify r = Ok tc) /\ sort_elements E2 0 padded = (b', Err EValue).
Proof. exact padded_fails. Qed.

Example C188_nonvacuous : exists ss rs, (forall z, iparse E2 (ishow E2 z) = Some z) /\
  NoDup (map el_id (b_species mixed)) /\ NoDup (map el_id (b_reactions mixed)) /\ read_as E2 0 mixed ss rs /\ (forall s, In s ss -> sortable s) /\
  (forall r, In r rs -> exists tc, classify r = Ok tc) /\ (forall e, In e (b_species mixed ++ b_reactions mixed) -> exists z, el_id e = ishow E2 z).
Proof. exact sorts_example. Qed.

(** C189: species and reactions that are written, sorted and read again,
    directly or from a file, are the same ones in some order; also when sorting
    fails half way. *)
Theorem C189_sorted_roundtrip_partial E so uid0 uid sps rxs :
  numbers_readable E -> (forall s, In s sps -> writable_species s) -> NoDup (map get_name sps) -> NoDup (map rp_id sps) ->
  (forall r, In r rxs -> writable_reaction E r /\ incl (r_lhs r ++ r_rhs r) sps) -> NoDup (map r_id rxs) ->
  exists b sps2 rxs2 sps' rxs', performed E so b_empty (map ORp sps ++ map ORx rxs) b /\
    Permutation sps2 sps /\ Permutation rxs2 rxs /\ reads E uid (fst (sort_elements E uid0 b)) sps' rxs' /\
    Forall2 (same_species E) sps2 sps' /\ Forall2 (same_reaction E) rxs2 rxs' /\
    (forall r', In r' rxs' -> incl (r_lhs r' ++ r_rhs r') sps').
Proof. exact (fun NR => sorted_roundtrip E so NR uid0 uid sps rxs). Qed.

Example C189_nonvacuous : numbers_readable E2 /\ (forall s, In s chem_sps -> writable_species s) /\ NoDup (map get_name chem_sps) /\
  NoDup (map rp_id chem_sps) /\ (forall r, In r chem_rxs -> writable_reaction E2 r /\ incl (r_lhs r ++ r_rhs r) chem_sps) /\ NoDup (map r_id chem_rxs).
Proof.
  exact (conj E2_readable (conj chem_writable (conj (proj1 chem_names) (conj (proj2 chem_names) (conj chem_rx chem_rx_ids))))).
Qed.

(** All theorems of this file at once (one traversal instead of one per
    theorem). *)
Definition all_theorems := (
  @C188_sorts_partial,
  @C188_odd_id_refuted,
  @C188_padded_refuted,
  @C189_sorted_roundtrip_partial).
Print Assumptions all_theorems.
