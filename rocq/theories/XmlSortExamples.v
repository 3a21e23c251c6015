(** A chemistry, added in a different order, is sorted. *)
From Verif Require Import Base Species Reactions MolSpec Classification ClassSpec Xml XmlSpec XmlProofs XmlBuilder BaseLemmas XmlExamples XmlSortSpec.
Open Scope Z_scope.

Definition mixed : builder := bhistory E2 so2 b_empty (map ORp (rev chem_sps) ++ map ORx (rev chem_rxs)).

Lemma sorting_example : exists b' ss rs, (forall z, iparse E2 (ishow E2 z) = Some z) /\
  NoDup (map el_id (b_species mixed)) /\ NoDup (map el_id (b_reactions mixed)) /\
  sort_elements E2 0 mixed = (b', Ok tt) /\ read_as E2 0 mixed ss rs /\ (forall s, In s ss -> sortable s) /\
  map el_name (b_species mixed) = [Ok (Some "O+"); Ok (Some "O*"); Ok (Some "O"); Ok (Some "M"); Ok (Some "e")] /\
  map el_name (b_species b') = [Ok (Some "e"); Ok (Some "O"); Ok (Some "O+"); Ok (Some "O*"); Ok (Some "M")] /\
  map el_id (b_reactions mixed) = ["2"; "1"] /\ map el_id (b_reactions b') = ["1"; "2"].
Proof.
  eexists _, _, _. split; [exact (proj1 (proj2 (proj2 E2_readable)))|]. split; [apply nodupSb_NoDup; vm_compute; reflexivity|]. split; [apply nodupSb_NoDup; vm_compute; reflexivity|].
  split; [vm_compute; reflexivity|]. split; [eexists _, _; split; [vm_compute; reflexivity|split; vm_compute; reflexivity]|].
  split; [|repeat split; vm_compute; reflexivity].
  assert (NO : element_number "O" 8) by (eexists; split; reflexivity).
  intros s Hs. cbn in Hs. destruct Hs as [<-|[<-|[<-|[<-|[<-|[]]]]]].
  - right. eexists. exists 1, [8; 1]. split; [reflexivity|]. split; [lia|]. split; [cbn; lia|]. split; [|reflexivity].
    cbn. constructor; [exact NO|lia|constructor].
  - right. eexists. exists 0, [8; 1]. split; [reflexivity|]. split; [lia|]. split; [cbn; lia|]. split; [|reflexivity].
    cbn. constructor; [exact NO|lia|constructor].
  - right. eexists. exists 0, [8; 1]. split; [reflexivity|]. split; [lia|]. split; [cbn; lia|]. split; [|reflexivity].
    cbn. constructor; [exact NO|lia|constructor].
  - now left.
  - right. eexists. exists (-1), []. split; [reflexivity|]. split; [lia|]. split; [cbn; lia|]. split; [constructor|reflexivity].
Qed.

(** The same chemistry with clashing ids. *)
Definition clashing : builder := MkB (b_keys mixed) (map (fun e => MkEl "7" (el_items e)) (b_species mixed))
  (map (fun e => MkEl "7" (el_items e)) (b_reactions mixed)).

Lemma named_map l : forall ns, map el_name l = map (fun n => Ok (Some n)) ns -> Forall2 named l ns.
Proof. induction l as [|e l IH]; intros [|n ns] H; try discriminate; constructor; [|apply IH]; cbn in H; congruence. Qed.

Lemma clashing_example : exists b', Forall2 named (b_species clashing) ["O+"; "O*"; "O"; "M"; "e"] /\
  sort_elements E2 0 clashing = (b', Ok tt) /\ ~ NoDup (map el_id (b_species clashing)) /\ ~ NoDup (map el_id (b_reactions clashing)) /\
  map el_name (b_species b') = [Ok (Some "e"); Ok (Some "O"); Ok (Some "O+"); Ok (Some "O*"); Ok (Some "M")] /\
  map el_id (b_species b') = ["0"; "1"; "2"; "3"; "999"] /\ map el_id (b_reactions b') = ["1"; "2"].
Proof.
  eexists. split; [|split; [vm_compute; reflexivity|]].
  - apply named_map. vm_compute. reflexivity.
  - split; [intros N; apply nodupSb_NoDup in N; vm_compute in N; discriminate|].
    split; [intros N; apply nodupSb_NoDup in N; vm_compute in N; discriminate|]. repeat split; vm_compute; reflexivity.
Qed.
