(** A reduction driven by the graph of its chemistry. *)
From Coq Require Import Permutation Lqa.
From Verif Require Import Base BaseLemmas Species Reactions Chemistry ChemSpec ChemHist ChemLoad ChemGetters ChemExamples Graph GraphSpec GraphPaths
  ChemGraph ChemGraphSpec GraphExamples Tables Workspace GraphInit GraphInitSpec GraphInitProofs GraphInitRank GraphInitExamples GraphReduce
  Morris MorrisStats InitialGuess GlobalModel GlobalSpec GlobalExamples Reduction ReductionSpec ReductionMain ReductionExamples ScoresSpec.
Local Open Scope Q_scope.

Definition gd_rates : frame := MkFrame [LName "t"; LId 1; LId 2; LId 3; LId 4; LId 5; LId 6] [(0%Z, [0; 1; 1; 1; 1; 1; 1])].

(** The scores of the species of the chemistry with respect to Ar+, in order. *)
Definition gd_l : list (string * Q) :=
  [("O", 524288 # 2883584); ("O+", 524288 # 2883584); ("Ar*", 512 # 2560); ("Ar", 512 # 2560)]%string.

Lemma gd_dicts : dict_rets c0.
Proof.
  intros s d Hs Hd. change (enabled_species c0) with [sE; sAr; sArp; sArs; sO; sOp; sM] in Hs. cbn [In] in Hs.
  repeat match type of Hs with _ \/ _ => destruct Hs as [Hs|Hs] | False => destruct Hs end; subst s; vm_compute in Hd;
    try discriminate; injection Hd as <-; cbn; repeat (constructor; [cbn; intuition discriminate|]); constructor.
Qed.
Lemma gd_rect : rectangular gd_rates.
Proof. intros r [<-|[]]; reflexivity. Qed.
Lemma gd_nonneg : rates_nonneg gd_rates.
Proof. intros r v [<-|[]]; cbn; intros H; repeat (destruct H as [<-|H]; [lra|]); destruct H. Qed.

Lemma gd_rank : exists rk, computed c0 go_par gd_rates go_fluxes = Some rk /\ Permutation rk (map (fun p => (fst p, Some (snd p))) gd_l).
Proof.
  eexists. split; [vm_compute; reflexivity|]. cbn [gd_l map fst snd].
  match goal with |- Permutation [?a; ?b; ?c; ?d] _ =>
    apply (perm_trans (l' := [c; d] ++ [a; b])); [apply (Permutation_app_comm [a; b] [c; d])|] end.
  do 2 apply perm_skip. apply perm_swap.
Qed.

(** O, O+ and Ar* are tried and put back, one after another. *)
Definition gd_b : nat -> solving := solver [done 6 5 2; done 5 3 4; done 5 3 4; done 3 4 4].
Definition gd_rows : list (option string * option Q) :=
  [(None, None); (Some "O"%string, Some (524288 # 2883584)); (Some "O+"%string, Some (524288 # 2883584)); (Some "Ar*"%string, Some (512 # 2560))].
Lemma gd_reduction : exists s1 st st', r_init A1 g0 fs0 = (s1, Ok st) /\ gm_chem g0 = Some c0 /\
  run_reduction E1 no_files dd1 sc1 gd_b A1 9 st (Static gd_l) 2 = Some (st', Ok tt) /\
  map (fun r => (h_species r, h_score r)) (r_hist st') =
    gd_rows.
Proof. do 3 eexists. repeat (split; [vm_compute; reflexivity|]). vm_compute. reflexivity. Qed.

Lemma gd_driven : exists k gs rk s1 st st',
  reachable E1 c0 /\ assert_consistency c0 = Ok tt /\ dict_rets c0 /\ rectangular gd_rates /\
  cgraph_init c0 go_par gd_rates go_fluxes = Ok k /\ rates_nonneg gd_rates /\ permuting keep /\ fr_rows gd_rates <> [] /\
  NoDup (map (fun x => ex_label (fst x) (snd x)) (list_prod ["Ar+"%string] (cg_times k))) /\
  distribute_weights k DRG true = Ok gs /\ ranking_values k Graph.Qltb ex_label (scores_shortest keep) gs ["Ar+"%string] = Ok rk /\
  Permutation rk (map (fun p => (fst p, Some (snd p))) gd_l) /\ r_init A1 g0 fs0 = (s1, Ok st) /\ gm_chem g0 = Some c0 /\
  run_reduction E1 no_files dd1 sc1 gd_b A1 9 st (Static gd_l) 2 = Some (st', Ok tt) /\
  map (fun r => (h_species r, h_score r)) (r_hist st') =
    gd_rows.
Proof.
  destruct gd_rank as (rk & H & P). apply computed_inv in H. destruct H as (k & gs & Hk & Hg & Hr).
  destruct gd_reduction as (s1 & st & st' & R1 & R2 & R3 & R4).
  assert (T : exists k', cgraph_init c0 go_par gd_rates go_fluxes = Ok k' /\ cg_times k' = [0]) by (eexists; split; vm_compute; reflexivity).
  destruct T as (k' & Hk' & T). assert (k' = k) by (rewrite Hk in Hk'; congruence). subst k'.
  exists k, gs, rk, s1, st, st'. split; [exact c0_reachable1|]. split; [exact c0_consistent|]. split; [exact gd_dicts|]. split; [exact gd_rect|].
  split; [exact Hk|]. split; [exact gd_nonneg|]. split; [exact (proj1 gi_ranking)|]. split; [discriminate|].
  split. { rewrite T. cbn. constructor; [intros []|constructor]. }
  split; [exact Hg|]. split; [exact Hr|]. split; [exact P|]. split; [exact R1|]. split; [exact R2|]. split; [exact R3|exact R4].
Qed.
