(** The claims about scores in the histories of reductions: C184. *)
From Coq Require Import Permutation.
From Verif Require Import Base Species Reactions Chemistry ChemSpec ChemGetters ChemExamples Graph GraphSpec GraphPaths ChemGraph ChemGraphSpec GraphExamples
  Tables Workspace GraphInit GraphInitSpec GraphInitRank GraphReduce Morris MorrisStats InitialGuess GlobalModel GlobalSpec GlobalExamples
  Reduction ReductionSpec ReductionMain ReductionExamples ScoresSpec ReductionScores ScoresExamples.
Open Scope list_scope.

(** With a static ranking the rows after the first name members of the
    ranking, with their scores, and no score is less than an earlier one. *)
Theorem C184_follows E fhash default_dir scan backend k c g s s1 st l max m st' :
  (forall l, Permutation (scan l) l) -> reachable E c -> declared_exist c -> (0 <= rc_max k)%Q ->
  fs_ok s -> gm_chem g = Some c -> r_init k g s = (s1, Ok st) ->
  run_reduction E fhash default_dir scan backend k m st (Static l) max = Some (st', Ok tt) -> follows l (r_hist st').
Proof. exact (fun P R D M => static_follows E fhash default_dir scan backend k P c R D M g s s1 st l max m st'). Qed.

Theorem C184_ascending E fhash default_dir scan backend k c g s s1 st st' l max m :
  (forall l, Permutation (scan l) l) -> reachable E c -> declared_exist c -> (0 <= rc_max k)%Q ->
  fs_ok s -> gm_chem g = Some c -> r_init k g s = (s1, Ok st) ->
  run_reduction E fhash default_dir scan backend k m st (Static l) max = Some (st', Ok tt) ->
  exists r rows, r_hist st' = r :: rows /\ h_species r = None /\ h_score r = None /\
    (forall x, In x rows -> exists n v, h_species x = Some n /\ h_score x = Some v /\ In (n, v) l) /\
    (forall a x b y c, rows = a ++ x :: b ++ y :: c ->
       exists v w, h_score x = Some v /\ h_score y = Some w /\ (v <= w)%Q).
Proof. exact (fun P R D M => scores_ascend E fhash default_dir scan backend k P c R D M g s s1 st st' l max m). Qed.

(** When the ranking is that of the graph of the chemistry, each score is the
    conductance of the best path from an important species, and no species is
    tried after one with a better path. *)
Theorem C184_graph E fhash default_dir scan backend k c g s s1 st st' l max m par rates fluxes kg r z label it w surface gs important rk :
  (forall l, Permutation (scan l) l) -> reachable E c -> declared_exist c -> (0 <= rc_max k)%Q ->
  assert_consistency c = Ok tt -> dict_rets c -> rectangular rates -> cgraph_init c par rates fluxes = Ok kg ->
  rates_nonneg rates -> sget "radius" par = Some r -> sget "length" par = Some z -> (0 < r)%Q -> (0 < z)%Q ->
  permuting it -> fr_rows rates <> [] ->
  NoDup (map (fun x => label (fst x) (snd x)) (list_prod important (cg_times kg))) ->
  distribute_weights kg w surface = Ok gs -> ranking_values kg Graph.Qltb label (scores_shortest it) gs important = Ok rk ->
  Permutation rk (map (fun p => (fst p, Some (snd p))) l) ->
  fs_ok s -> gm_chem g = Some c -> r_init k g s = (s1, Ok st) ->
  run_reduction E fhash default_dir scan backend k m st (Static l) max = Some (st', Ok tt) ->
  exists r rows, r_hist st' = r :: rows /\
    (forall x, In x rows -> exists n v, h_species x = Some n /\ h_score x = Some v /\ best_path gs important n v /\
       In n (map sp_name (enabled_species c)) /\ ~ In n important) /\
    (forall a x b y c, rows = a ++ x :: b ++ y :: c ->
       exists n1 n2, h_species x = Some n1 /\ h_species y = Some n2 /\
         forall v1 v2, best_path gs important n1 v1 -> best_path gs important n2 v2 -> (v1 <= v2)%Q).
Proof. exact (chem_driven E fhash default_dir scan backend k c g s s1 st st' l max m par rates fluxes kg r z label it w surface gs important rk). Qed.

Example C184_not_vacuous : exists k gs rk s1 st st',
  reachable E1 c0 /\ assert_consistency c0 = Ok tt /\ dict_rets c0 /\ rectangular gd_rates /\
  cgraph_init c0 go_par gd_rates go_fluxes = Ok k /\ rates_nonneg gd_rates /\ permuting keep /\ fr_rows gd_rates <> [] /\
  NoDup (map (fun x => ex_label (fst x) (snd x)) (list_prod ["Ar+"%string] (cg_times k))) /\
  distribute_weights k DRG true = Ok gs /\ ranking_values k Graph.Qltb ex_label (scores_shortest keep) gs ["Ar+"%string] = Ok rk /\
  Permutation rk (map (fun p => (fst p, Some (snd p))) gd_l) /\ r_init A1 g0 fs0 = (s1, Ok st) /\ gm_chem g0 = Some c0 /\
  run_reduction E1 no_files dd1 sc1 gd_b A1 9 st (Static gd_l) 2 = Some (st', Ok tt) /\
  map (fun r => (h_species r, h_score r)) (r_hist st') = gd_rows.
Proof. exact gd_driven. Qed.

(** All theorems of this file at once (one traversal instead of one per
    theorem). *)
Definition all_theorems := (
  @C184_follows,
  @C184_ascending,
  @C184_graph).
Print Assumptions all_theorems.
