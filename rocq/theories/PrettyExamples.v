(** Concrete printed arrays. *)
From Verif Require Import Base BaseLemmas Species Reactions Chemistry ChemSpec ChemInv ChemHist ChemLoad ChemExamples InitialExamples
  PrettyPrint PrettySpec PrettyProofs.
Open Scope Z_scope.

(** Oxygen with the reactions numbered from [z]; the negative ion disabled. *)
Definition reactions_from (z : Z) := [
  mkr z [sE; sO2] [sE; sO2];
  mkr (z + 1) [sE; sO2] [sE; sE; sO2p];
  mkr (z + 2) [sE; sO2] [sO1; sOm];
  mkr (z + 3) [sE; sO1] [sE; sO1]].
Definition c_from (z : Z) : chem :=
  match init Plain species_ox (reactions_from z) None with Ok c => c | Err _ => fresh Plain species_ox (reactions_from z) None end.
Lemma c_11_init : init Plain species_ox (reactions_from 11) None = Ok (c_from 11).
Proof. vm_compute. reflexivity. Qed.
Lemma c_1_init : init Plain species_ox (reactions_from 1) None = Ok (c_from 1).
Proof. vm_compute. reflexivity. Qed.
Lemma c_0_init : init Plain species_ox (reactions_from 0) None = Ok (c_from 0).
Proof. vm_compute. reflexivity. Qed.
Definition c_off (z : Z) : chem := run E0 (c_from z) [ODisable [RName "O-"] []].
Lemma c_off_reachable z : init Plain species_ox (reactions_from z) None = Ok (c_from z) -> heap_ok species_ox (reactions_from z) ->
  reachable E0 (c_off z).
Proof. intros I H. apply run_reachable. eapply reach_init; [exact H|exact I]. Qed.
Lemma c_11_reachable : reachable E0 (c_off 11).
Proof. apply c_off_reachable; [exact c_11_init|table]. Qed.
Lemma c_1_reachable : reachable E0 (c_off 1).
Proof. apply c_off_reachable; [exact c_1_init|table]. Qed.
Lemma c_0_reachable : reachable E0 (c_off 0).
Proof. apply c_off_reachable; [exact c_0_init|table]. Qed.

(** Row 13 and the column of O- are red. *)
Lemma printed_11 : match pretty_frame (c_off 11) (stoich_frame (c_off 11) true true Net) true with
  | Ok p => pp_index p = [LBlank; LId 11; LId 12; LId 13; LId 14] /\
      map (fun r => map cl_red r) (pp_rows p) =
        [[false; false; false; false; true; false];
         [false; false; false; false; true; false];
         [false; false; false; false; true; false];
         [true; true; true; true; true; true];
         [false; false; false; false; true; false]] /\
      map (fun r => match r with x :: _ => cl_val x | [] => CVal 0 end) (pp_rows p) =
        [CText ""; CText "e + O2 > e + O2"; CText "e + O2 > e + e + O2+"; CText "e + O2 > O + O-"; CText "e + O > e + O"]%string
  | Err _ => False
  end.
Proof. vm_compute. repeat split. Qed.

Lemma c_1_reactions : c_reactions (c_off 1) = reactions_from 1.
Proof. vm_compute. reflexivity. Qed.
Lemma c_1_species : c_species (c_off 1) = species_ox.
Proof. vm_compute. reflexivity. Qed.
Lemma c_1_enr : c_enr (c_off 1) 4 = true /\ c_enr (c_off 1) 3 = false.
Proof. vm_compute. split; reflexivity. Qed.

(** The same chemistry with the reactions numbered from 1: the rows carry
    the names of species, row 3 (disabled) is not red, row 4 (enabled) is. *)
Lemma mislabelled : exists c p, reachable E0 c /\
  (forall i, In i (map sp_id (c_species c)) \/ In i (map rx_id (c_reactions c)) -> 0 < i) /\
  pretty_frame c (stoich_frame c true true Net) true = Ok p /\
  nth_error (pp_rows p) 4 = Some [MkCell (CText "O-") true; MkCell (CVal 0) true; MkCell (CVal 0) true; MkCell (CVal 0) true; MkCell (CVal 0) true; MkCell (CVal 0) true]%string /\
  nth_error (pp_index p) 4 = Some (LId 4) /\ labelled c GReactions 4 "e + O > e + O" /\ ~ off c GReactions 4 /\
  off c GReactions 3 /\ (exists row x, nth_error (pp_rows p) 3 = Some row /\ In x row /\ cl_red x = false) /\ nth_error (pp_index p) 3 = Some (LId 3).
Proof.
  exists (c_off 1).
  destruct (pretty_frame (c_off 1) (stoich_frame (c_off 1) true true Net) true) as [p|e] eqn:H; [|vm_compute in H; discriminate].
  exists p. split; [exact c_1_reachable|].
  unfold off, labelled. rewrite c_1_reactions, c_1_species, (proj1 c_1_enr), (proj2 c_1_enr). split.
  { intros i I. vm_compute in I. intuition (subst; reflexivity). }
  split; [reflexivity|]. vm_compute in H. injection H as <-.
  split; [reflexivity|]. split; [reflexivity|]. split.
  { exists (mkr 4 [sE; sO1] [sE; sO1]). split; [right; right; right; left; reflexivity|]. split; reflexivity. }
  split; [intros [_ X]; discriminate|].
  split; [split; [vm_compute; auto|reflexivity]|].
  split; [|reflexivity]. eexists _, _. split; [reflexivity|]. split; [left; reflexivity|reflexivity].
Qed.

(** Without annotation: the first label is lost. *)
Lemma first_label_lost : exists c p, reachable E0 c /\
  pretty_frame c (stoich_frame c true true Net) false = Ok p /\
  map rx_id (get_reactions c true) = [11; 12; 13; 14] /\ pp_index p = [LBlank; LId 12; LId 13; LId 14].
Proof.
  exists (c_off 11).
  destruct (pretty_frame (c_off 11) (stoich_frame (c_off 11) true true Net) false) as [p|e] eqn:H; [|vm_compute in H; discriminate].
  exists p. split; [exact c_11_reachable|]. split; [reflexivity|]. vm_compute in H. injection H as <-. split; vm_compute; reflexivity.
Qed.

(** A reaction numbered 0: the array cannot be printed. *)
Lemma zero_crash : exists c, reachable E0 c /\ ids_of c GReactions (fr_index (stoich_frame c true true Net)) /\
  pretty_frame c (stoich_frame c true true Net) true = Err EAttribute.
Proof.
  exists (c_off 0). split; [exact c_0_reachable|]. split.
  - assert (I0 : fr_index (stoich_frame (c_off 0) true true Net) = [0; 1; 2; 3]) by (vm_compute; reflexivity).
    assert (R0 : map rx_id (c_reactions (c_off 0)) = [0; 1; 2; 3]) by (vm_compute; reflexivity).
    assert (S0 : map sp_id (c_species (c_off 0)) = [1; 2; 3; 4; 5]) by (vm_compute; reflexivity).
    unfold ids_of. rewrite I0, R0, S0. split; [apply incl_refl|]. intros H. specialize (H 0 (or_introl eq_refl)). cbn in H.
    intuition discriminate.
  - vm_compute. reflexivity.
Qed.
