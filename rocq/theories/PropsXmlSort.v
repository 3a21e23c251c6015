(** The order of the elements of a sorted XML chemistry: theorems about the
    model in Xml.v, with the vocabulary of ClassSpec.v and XmlSortSpec.v. *)
From Coq Require Import Permutation Sorted.
From Verif Require Import Base Species Reactions MolSpec Classification ClassSpec Xml XmlSortSpec XmlSort XmlSpec XmlExamples XmlSortExamples.
Open Scope Z_scope.

(** C187 *)
Theorem C187_order E uid b b' : (forall z, iparse E (ishow E z) = Some z) ->
  NoDup (map el_id (b_species b)) -> NoDup (map el_id (b_reactions b)) -> sort_elements E uid b = (b', Ok tt) ->
  exists ss rs ss' rs', read_as E uid b ss rs /\
    reordered (b_species b) ss (b_species b') ss' /\ species_ordered ss ss' /\
    reordered (b_reactions b) rs (b_reactions b') rs' /\ reactions_ordered ss' rs rs'.
Proof. exact (fun R => sorted_order E R uid b b'). Qed.

Example C187_nonvacuous : exists b' ss rs, (forall z, iparse E2 (ishow E2 z) = Some z) /\
  NoDup (map el_id (b_species mixed)) /\ NoDup (map el_id (b_reactions mixed)) /\
  sort_elements E2 0 mixed = (b', Ok tt) /\ read_as E2 0 mixed ss rs /\ (forall s, In s ss -> sortable s) /\
  map el_name (b_species mixed) = [Ok (Some "O+"); Ok (Some "O*"); Ok (Some "O"); Ok (Some "M"); Ok (Some "e")] /\
  map el_name (b_species b') = [Ok (Some "e"); Ok (Some "O"); Ok (Some "O+"); Ok (Some "O*"); Ok (Some "M")] /\
  map el_id (b_reactions mixed) = ["2"; "1"] /\ map el_id (b_reactions b') = ["1"; "2"].
Proof. exact sorting_example. Qed.

(** Clashing ids are renewed before sorting and again after it. *)
Theorem C187_clashing E uid b b' ns : (forall z, iparse E (ishow E z) = Some z) ->
  Forall2 named (b_species b) ns -> NoDup ns ->
  Z.of_nat (List.length (filter (fun n => negb (String.eqb n "e") && negb (String.eqb n "M")) ns)) < 999 ->
  sort_elements E uid b = (b', Ok tt) ->
  exists b1 b2 ss rs ss' rs', renewed E b b b1 /\ renewed E b b2 b' /\ read_as E uid b1 ss rs /\
    reordered (b_species b1) ss (b_species b2) ss' /\ species_ordered ss ss' /\
    reordered (b_reactions b1) rs (b_reactions b2) rs' /\ reactions_ordered ss' rs rs'.
Proof. exact (fun R => sorted_any E R uid b b' ns). Qed.

Example C187_clashing_nonvacuous : exists b', Forall2 named (b_species clashing) ["O+"; "O*"; "O"; "M"; "e"] /\
  sort_elements E2 0 clashing = (b', Ok tt) /\ ~ NoDup (map el_id (b_species clashing)) /\ ~ NoDup (map el_id (b_reactions clashing)) /\
  map el_name (b_species b') = [Ok (Some "e"); Ok (Some "O"); Ok (Some "O+"); Ok (Some "O*"); Ok (Some "M")] /\
  map el_id (b_species b') = ["0"; "1"; "2"; "3"; "999"] /\ map el_id (b_reactions b') = ["1"; "2"].
Proof. exact clashing_example. Qed.

(** All theorems of this file at once (one traversal instead of one per
    theorem). *)
Definition all_theorems := (
  @C187_order,
  @C187_clashing).
Print Assumptions all_theorems.
