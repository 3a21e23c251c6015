(** Property theorems about building the graph of a chemistry (C173 - C178).
    Vocabulary: GraphInitSpec.v. *)
From Coq Require Import Permutation Sorted.
From Verif Require Import Base BaseLemmas Species Reactions Chemistry ChemSpec ChemHist ChemLoad ChemGetters ChemExamples Graph GraphSpec GraphPaths
  ChemGraph ChemGraphSpec GraphExamples Tables Workspace GraphInit GraphInitSpec GraphInitProofs GraphInitRank GraphInitExamples GraphReduce.
Local Open Scope Q_scope.

(** C173: the constructor accepts exactly what fits the chemistry ... *)
Theorem C173_accepts E c par rates fluxes :
  reachable E c -> assert_consistency c = Ok tt -> dict_rets c -> rectangular rates ->
  ((exists k, cgraph_init c par rates fluxes = Ok k) <-> fitting c par rates fluxes).
Proof. exact (fun R A D RC => init_iff c (reachable_Inv E c R) A D par rates fluxes RC). Qed.

(** ... and holds its data. *)
Theorem C173_data E c par rates fluxes k :
  reachable E c -> assert_consistency c = Ok tt -> dict_rets c -> rectangular rates ->
  cgraph_init c par rates fluxes = Ok k -> holds c par rates fluxes k.
Proof. exact (fun R A D RC => init_holds c (reachable_Inv E c R) A D par rates fluxes RC k). Qed.

Example C173_not_vacuous :
  reachable E0 cd /\ assert_consistency cd = Ok tt /\ dict_rets cd /\ rectangular gi_rates /\ fitting cd gi_par gi_rates gi_fluxes /\
  exists k, cgraph_init cd gi_par gi_rates gi_fluxes = Ok k /\
    cg_species k = ["e"; "Ar"; "Ar+"; "Ar*"; "M"]%string /\ cg_special k = ["e"; "M"]%string /\ cg_reactions k = 5%nat /\
    cg_times k = [0; 1] /\ cg_radius k = 1 /\ cg_length k = 2#1 /\
    map (cg_flux k 0%nat) (seq 0 5) = [0; 0; 2#1; 0; 0] /\
    map (fun a => cg_ret k a 2%nat) (seq 0 5) = [0; 1#2; 0; 1#2; 0] /\
    map (cg_lhs k 1%nat) (seq 0 5) = [1; 1; 0; 0; 0]%Z /\ map (cg_rhs k 1%nat) (seq 0 5) = [2; 0; 1; 0; 0]%Z /\
    map (cg_rate k 0%nat) (seq 0 5) = [1; 1; 0; 1; 1].
Proof. exact (conj cd_reachable' (conj cd_consistent (conj cd_dicts (conj gi_rect (conj gi_fitting gi_graph))))). Qed.

(** C174: the DRG graphs of a chemistry have an edge exactly where one
    species influences another. *)
Theorem C174_edges E c par rates fluxes k r z surface :
  reachable E c -> assert_consistency c = Ok tt -> dict_rets c -> rectangular rates ->
  cgraph_init c par rates fluxes = Ok k -> finite_rets c ->
  rates_nonneg rates -> sget "radius" par = Some r -> sget "length" par = Some z -> 0 < r -> 0 < z ->
  exists gs, distribute_weights k DRG surface = Ok gs /\ List.length gs = List.length (fr_rows rates) /\
    forall t g, nth_error gs t = Some g -> forall x y,
      In x (enabled_species c) -> In y (enabled_species c) ->
      (In (sp_name x, sp_name y) (g_edges g) <-> x <> y /\ influences c rates fluxes surface t x y).
Proof. exact (fun R A D RC K FR => chem_edges c (reachable_Inv E c R) A D par rates fluxes k RC K FR r z surface). Qed.

Example C174_not_vacuous :
  finite_rets cd /\ rates_nonneg gi_rates /\ sget "radius" gi_par = Some 1 /\ sget "length" gi_par = Some (2#1) /\
  influences cd gi_rates gi_fluxes true 0 sArp sArs /\ influences cd gi_rates gi_fluxes true 0 sE sArp /\
  ~ influences cd gi_rates gi_fluxes true 0 sM sArp.
Proof. exact (conj cd_finite (conj gi_nonneg (conj eq_refl (conj eq_refl gi_influence)))). Qed.

(** C175: the ranking of a chemistry assesses exactly the enabled ordinary
    species that are not important, and leaves out the score of exactly the
    isolated ones. *)
Theorem C175_ranking E c par rates fluxes k r z label it surface important :
  reachable E c -> assert_consistency c = Ok tt -> dict_rets c -> rectangular rates ->
  cgraph_init c par rates fluxes = Ok k -> finite_rets c ->
  rates_nonneg rates -> sget "radius" par = Some r -> sget "length" par = Some z -> 0 < r -> 0 < z ->
  permuting it -> fr_rows rates <> [] ->
  NoDup (map (fun x => label (fst x) (snd x)) (list_prod important (cg_times k))) ->
  exists gs rk, distribute_weights k DRG surface = Ok gs /\
    ranking_values k Qltb label (scores_shortest it) gs important = Ok rk /\
    map fst rk = map sp_name (filter (fun s => ordinaryb s && negb (memS (sp_name s) important)) (enabled_species c)) /\
    forall x, In x (enabled_species c) -> ordinary x -> ~ In (sp_name x) important ->
      exists o, sget (sp_name x) rk = Some o /\
        (o = None <-> important = [] \/
           forall t y, (t < List.length (fr_rows rates))%nat -> In y (enabled_species c) -> y <> x ->
             ~ influences c rates fluxes surface t x y /\ ~ influences c rates fluxes surface t y x).
Proof.
  exact (fun R A D RC K FR => chem_ranking c (reachable_Inv E c R) A D par rates fluxes k RC K FR r z label it surface important).
Qed.

Example C175_not_vacuous :
  permuting keep /\ fr_rows gi_rates <> [] /\
  exists k, cgraph_init cd gi_par gi_rates gi_fluxes = Ok k /\
    NoDup (map (fun x => ex_label (fst x) (snd x)) (list_prod ["Ar+"%string] (cg_times k))).
Proof. exact gi_ranking. Qed.

(** C176: chemistries that fit their frames are refused. *)
Theorem C176_refused_refuted : exists c par rates fluxes,
  reachable E0 c /\ assert_consistency c = Ok tt /\ rectangular rates /\ dict_rets c /\
  fr_cols rates = LName "t" :: map (fun r => LId (rx_id r)) (enabled_reactions c) /\
  tb_cols fluxes = "t"%string :: map sp_name (filter ordinaryb (enabled_species c)) /\
  ~ In "t"%string (map sp_name (enabled_species c)) /\
  Forall2 (fun a b => exists q, hd_error (snd a) = Some q /\ q == snd b "t"%string) (fr_rows rates) (tb_rows fluxes) /\
  In "radius"%string (map fst par) /\ In "length"%string (map fst par) /\
  cgraph_init c par rates fluxes = Err EGraphInit /\
  exists k, cgraph_init (run E0 c [OResetSp "ret_coefs"]) par rates fluxes = Ok k.
Proof. exact adhoc_disabled. Qed.

(** C177: the sorted ranking of a chemistry passes the check of
    [run_reduction] exactly if no assessed species is isolated. *)
Theorem C177_usable E c par rates fluxes k r z label it surface important :
  reachable E c -> assert_consistency c = Ok tt -> dict_rets c -> rectangular rates ->
  cgraph_init c par rates fluxes = Ok k -> finite_rets c ->
  rates_nonneg rates -> sget "radius" par = Some r -> sget "length" par = Some z -> 0 < r -> 0 < z ->
  permuting it -> fr_rows rates <> [] -> important <> [] ->
  NoDup (map (fun x => label (fst x) (snd x)) (list_prod important (cg_times k))) ->
  exists gs rk, distribute_weights k DRG surface = Ok gs /\
    ranking_values k Qltb label (scores_shortest it) gs important = Ok rk /\
    forall l, Permutation rk l -> LocallySorted (fun p q => score_leb Qltb p q = true) l ->
      (passes_check (map snd l) = true <->
       forall x, In x (enabled_species c) -> ordinary x -> ~ In (sp_name x) important -> ~ isolated c rates fluxes surface x).
Proof.
  exact (fun R A D RC K FR => usable c (reachable_Inv E c R) A D par rates fluxes k RC K FR r z label it surface important).
Qed.

Example C177_not_vacuous :
  exists a b, computed cd gi_par gi_rates gi_fluxes = Some [("Ar"%string, Some a); ("Ar*"%string, Some b)] /\
    (passes_check [Some a; Some b] = true \/ passes_check [Some b; Some a] = true).
Proof. exact gi_passes. Qed.

(** C178 *)
Theorem C178_ranking_refused_refuted : exists c par rates fluxes k gs rk,
  reachable E0 c /\ assert_consistency c = Ok tt /\ cgraph_init c par rates fluxes = Ok k /\ rates_nonneg rates /\
  distribute_weights k DRG true = Ok gs /\ ranking_values k Qltb ex_label (scores_shortest keep) gs ["Ar+"%string] = Ok rk /\
  (exists a, In ("Ar"%string, Some a) rk /\ 0 < a) /\
  forall l, Permutation rk l -> passes_check (map snd l) = false.
Proof. exact refused_ranking. Qed.

(** All theorems of this file at once (one traversal instead of one per
    theorem). *)
Definition all_theorems := (
  @C173_accepts,
  @C173_data,
  @C174_edges,
  @C175_ranking,
  @C176_refused_refuted,
  @C177_usable,
  @C178_ranking_refused_refuted).
Print Assumptions all_theorems.
