(** Theorems about the Morris method (C50, C51, C63-C71). Vocabulary:
    MorrisSpec.v, MorrisRunSpec.v, MorrisStatsProofs.v (first definitions);
    examples and witnesses: MorrisExamples.v. *)
From Coq Require Import Permutation Sorted.
From Verif Require Import Base Species Reactions Chemistry ChemSpec ChemGetters ChemHist ChemLoad Morris MorrisSpec MorrisDesign MorrisMaps MorrisRet
  MorrisRun MorrisRunSpec MorrisRunProofs MorrisRunMore MorrisStats MorrisStatsProofs MorrisExamples.
Open Scope Q_scope.

(** ** C50 *)

(** The settings of the code: step 1/2 on a grid of ten cells. *)
Theorem C50_designs m flip perm x0 :
  morris_default = Ok m -> (2 <= List.length x0)%nat -> Forall (on_grid m) x0 -> Permutation perm (seq 0 (List.length x0)) ->
  exists l, trajectory m perm flip x0 = (l, Ok tt) /\ List.length l = List.length x0 /\
    NoDup (changed l) /\ (forall i, In i (changed l) <-> (i < List.length x0)%nat) /\
    design m (round5 (mm_delta m)) x0 l.
Proof. intros M. exact (trajectory_ok m (1 # 2) 10 flip M default_fine perm x0). Qed.

Theorem C50_default_step : exists m, morris_default = Ok m /\ mm_density m = 10%Z /\ round5 (mm_delta m) == 1 # 2.
Proof. exists m0. split; [exact m0_init|]. split; [reflexivity|]. vm_compute. reflexivity. Qed.

(** Any accepted settings whose half cells are multiples of 10^-5. *)
Theorem C50_designs_settings m delta density flip perm x0 :
  morris_init delta density = Ok m -> (2 * density | 100000)%Z ->
  (2 <= List.length x0)%nat -> Forall (on_grid m) x0 -> Permutation perm (seq 0 (List.length x0)) ->
  exists l, trajectory m perm flip x0 = (l, Ok tt) /\ List.length l = List.length x0 /\
    NoDup (changed l) /\ (forall i, In i (changed l) <-> (i < List.length x0)%nat) /\
    design m (round5 (mm_delta m)) x0 l.
Proof. intros M F. exact (trajectory_ok m delta density flip M F perm x0). Qed.

(** Random start points are moved to the nearest grid point. *)
Theorem C50_seed m delta density xc :
  morris_init delta density = Ok m -> (2 * density | 100000)%Z ->
  exists x0, get_seed_x m xc = Ok x0 /\
    Forall2 (fun q g => on_grid m g /\ forall g', on_grid m g' -> Qabs.Qabs (g - q) <= Qabs.Qabs (g' - q)) xc x0.
Proof. intros M F. exact (seed_ok m delta density M F xc). Qed.

(** ** C51 *)

(** Every evaluation of a trajectory uses the nominal coefficients times the
    factors of its own vector, whatever was evaluated before. *)
Theorem C51_coefficients ty c nom xs :
  wf c -> nominal_values c = Ok nom -> Forall (fun x => List.length x = num_factors ty c) xs ->
  exists cs, apply_all ty nom c xs = (cs, Ok tt) /\ Forall2 (evaluated ty c (v_vals nom)) xs cs.
Proof. exact (trajectory_values ty c nom xs). Qed.

Theorem C51_middle_is_nominal ty c x j r w : factor ty c x j r w -> Forall (fun q => q == 1 # 2) x -> w == 1.
Proof. exact (factor_half ty c x j r w). Qed.

Theorem C51_monotone ty c x y j r w v : factor ty c x j r w -> factor ty c y j r v ->
  Forall2 (fun p q => 0 <= p <= q) x y -> w <= v.
Proof. exact (factor_monotone ty c x y j r w v). Qed.

(** One return coefficient. *)
Theorem C51_return_coefficient pw E c x a b nom rng c' out :
  ret_ready c -> finite_state c -> map_ret_coef pw E c x a b (Fin nom) rng = (c', Ok out) ->
  exists s t q q',
    denotes c a s /\ denotes c b t /\ s <> t /\
    In s (get_species c false false true) /\ In t (get_species c false false true) /\
    0 <= x <= 1 /\ 1 < rng /\ 0 < nom /\
    (exists d, shown_ret c s = Some d /\ finite_dict d q) /\
    (exists d', shown_ret c' s = Some d' /\ finite_dict d' q') /\
    qget (sp_name t) q' == nom * pw rng (2 * x - 1) /\ 0 <= qget (sp_name s) q' /\
    (forall n, n <> sp_name t -> n <> sp_name s -> qget n q' = qget n q) /\
    total q' == total q /\
    (forall u, In u (c_species c) -> u <> s -> shown_ret c' u = shown_ret c u) /\
    others_same c c' /\ c_stick c' = c_stick c /\ c_arrh c' = c_arrh c /\
    ret_ready c'.
Proof. exact (map_ret_ok pw E c x a b nom rng c' out). Qed.

(** A whole trajectory of return coefficients. *)
Theorem C51_return_trajectory pw E l c c' :
  ret_ready c -> finite_state c -> ret_calls pw E c l c' ->
  ret_ready c' /\ finite_state c' /\ others_same c c' /\ c_stick c' = c_stick c /\ c_arrh c' = c_arrh c /\
  (forall s v, In s (c_species c) -> returned_total c s v -> returned_total c' s v) /\
  (forall s t k, In s (c_species c) -> In t (c_species c) -> s <> t -> last_target c s t l (Some k) ->
     returned c' s (sp_name t) (rc_nominal k * pw (rc_range k) (2 * rc_x k - 1))) /\
  (forall s t v, In s (c_species c) -> In t (c_species c) -> s <> t -> last_target c s t l None ->
     returned c s (sp_name t) v -> returned c' s (sp_name t) v).
Proof. exact (ret_calls_ok pw E l c c'). Qed.

Theorem C51_return_rejected pw E c x a b nom rng c' e :
  Inv c -> declared_exist c -> map_ret_coef pw E c x a b nom rng = (c', Err e) -> c' = c.
Proof. exact (map_ret_rejected pw E c x a b nom rng c' e). Qed.

Theorem C51_return_range pw r x y : power_like pw -> 1 < r ->
  (x == 1 # 2 -> pw r (2 * x - 1) == 1) /\
  (0 <= x <= 1 -> / r <= pw r (2 * x - 1) <= r) /\
  (x <= y -> pw r (2 * x - 1) <= pw r (2 * y - 1)).
Proof.
  intros P R. split; [exact (pw_middle pw P r x R)|]. split; [exact (pw_bounds pw P r x R)|exact (pw_monotone pw P r x y R)].
Qed.

(** ** C63 *)
Theorem C63_stays_on_grid_refuted : exists m perm flip x0 i d x l,
  morris_init (1 # 7) 7 = Ok m /\
  Forall (fun v => exists g, In g (mm_grid m) /\ v == g) x0 /\ Permutation perm (seq 0 (List.length x0)) /\
  trajectory m perm flip x0 = ((i, d, x) :: l, Ok tt) /\
  exists v, nth_error x i = Some v /\ forall g, In g (mm_grid m) -> ~ v == g.
Proof. exact off_grid. Qed.

Theorem C63_moves_refuted : exists m perm flip x0 l,
  morris_init (1 # 1000000000000) 10 = Ok m /\
  Forall (fun v => exists g, In g (mm_grid m) /\ v == g) x0 /\ Permutation perm (seq 0 (List.length x0)) /\
  trajectory m perm flip x0 = (l, Ok tt) /\ List.length l = 2%nat /\
  Forall (fun t => snd (fst t) == 0 /\ Forall2 Qeq (snd t) x0) l.
Proof. exact no_step. Qed.

(** ** C64: for every history of calls, each killed after any number of
    file-system actions or not at all, and each evaluation failing or not. *)
Theorem C64_done_means_logged {cfg} (same : cfg -> cfg -> bool) l : all_logged (run_calls same l fs0).
Proof. exact (done_means_logged same l). Qed.

Theorem C64_done_is_kept {cfg} (same : cfg -> cfg -> bool) l s : keeps_done s (run_calls same l s).
Proof. exact (done_is_kept same l s). Qed.

(** Trajectories running at the same time, under every schedule. *)
Theorem C64_parallel {cfg} (same : cfg -> cfg -> bool) ks sched s ps' s' :
  NoDup (map snd ks) -> parallel sched (procs same ks) s = (ps', s') ->
  keeps_done s s' /\ (all_logged s -> all_logged s').
Proof. exact (parallel_safe same ks sched s ps' s'). Qed.

Theorem C64_success {cfg} (same : cfg -> cfg -> bool) k s id :
  (match k_id k with Some i => Ok i | None => next_traj_id s end) = Ok id ->
  dir s id = None -> sound_call k -> passes same k s ->
  exists s', run_trajectory same None k s = (s', Finished)
             /\ dir s' id = Some (finished_dir k)
             /\ (forall i, i <> id -> dir s' i = dir s i)
             /\ f_cfg s' = Some (k_cfg k) /\ f_cfg2 s' = Some (k_cfg k) /\ f_meta s' = Some (k_type k, str_lower (k_backend k)).
Proof. exact (trajectory_succeeds same k s id). Qed.

(** ** C65 *)
Theorem C65_next_id {cfg} (s : mfs cfg) id :
  next_traj_id s = Ok id ->
  exists i, id = traj_name i /\ (1 <= i <= 998)%nat
            /\ (forall tm rs, ~ completed s id tm rs)
            /\ (forall j, (1 <= j < i)%nat -> exists tm rs, completed s (traj_name j) tm rs).
Proof. exact (next_id_ok s id). Qed.

Theorem C65_no_id {cfg} (s : mfs cfg) e :
  next_traj_id s = Err e ->
  e = EMorrisLog /\ forall j, (1 <= j <= 998)%nat -> exists tm rs, completed s (traj_name j) tm rs.
Proof. exact (next_id_error s e). Qed.

Theorem C65_names_distinct i j : traj_name i = traj_name j -> i = j.
Proof. exact (traj_name_inj i j). Qed.

Theorem C65_queue {cfg} (s : mfs cfg) num :
  exists ids, morris_queue s num = Ok ids /\ List.length ids = num /\ NoDup ids
              /\ forall id tm rs, In id ids -> ~ completed s id tm rs.
Proof. exact (morris_queue_ok s num). Qed.

(** ** C66 *)
Theorem C66_coherent {cfg} (same : cfg -> cfg -> bool) l :
  (forall c, same c c = true) -> (forall c d, same c d = true -> same d c = true) ->
  (forall c d e, same c d = true -> same d e = true -> same c e = true) ->
  Forall (fun bk => fst bk = None) l -> all_coherent same (run_calls same l fs0).
Proof. intros R S T. exact (sequential_all_coherent same R S T l). Qed.

Theorem C66_crash_refuted : exists l, let s := run_calls Nat.eqb l fs0 in
  exists id1 id2 o1 o2, produced s id1 o1 /\ produced s id2 o2 /\ ~ coherent Nat.eqb o1 o2.
Proof. exact crash_incoherent. Qed.

Theorem C66_concurrent_refuted : exists ks sched, NoDup (map snd ks) /\
  let s := snd (parallel sched (procs Nat.eqb ks) fs0) in
  exists id1 id2 o1 o2, produced s id1 o1 /\ produced s id2 o2 /\ ~ coherent Nat.eqb o1 o2.
Proof. exact concurrent_incoherent. Qed.

(** ** C67 *)

(** Whatever stopped the trajectory, once its base run is logged and its meta
    file is not, no later call gets anywhere. *)
Theorem C67_unfinished_blocks {cfg} (same : cfg -> cfg -> bool) b k s s' o id l :
  k_id k = None -> next_traj_id s = Ok id -> dir s id = None ->
  run_trajectory same b k s = (s', o) ->
  (exists d, dir s' id = Some d /\ In (fst (k_base k)) (akeys (t_runs d))) ->
  (forall tm rs, ~ completed s' id tm rs) ->
  Forall (fun bk => k_id (snd bk) = None /\ fst (k_base (snd bk)) = fst (k_base k)) l ->
  run_calls same l s' = s'.
Proof.
  intros A B C D E F. exact (stuck_forever same _ l s' (unfinished_blocks same b k s s' o id A B C D E F)).
Qed.

Theorem C67_repeatable_refuted : exists k b s,
  run_trajectory Nat.eqb (Some b) k fs0 = (s, Crashed) /\ sound_call k /\ k_id k = None /\
  stuck (fst (k_base k)) s /\
  forall l, Forall (fun bk => k_id (snd bk) = None /\ fst (k_base (snd bk)) = fst (k_base k)) l -> run_calls Nat.eqb l s = s.
Proof. exact killed_blocks. Qed.

Theorem C67_statistics_refuted :
  exists l s, s = run_calls Nat.eqb l fs0 /\ (exists tm rs, completed s "traj001" tm rs) /\ stats_metas s = Err EOS.
Proof. exact unfinished_stats. Qed.

(** ** C68 *)
Theorem C68_all_complete {cfg} (same : cfg -> cfg -> bool) c ty b ks sched s ps' s' :
  same c c = true -> str_lower b = b ->
  NoDup (map snd ks) ->
  (forall kid, In kid ks -> sound_call (fst kid) /\ k_cfg (fst kid) = c /\ k_type (fst kid) = ty /\ k_backend (fst kid) = b
                            /\ dir s (snd kid) = None) ->
  agrees same c ty b s ->
  parallel sched (procs same ks) s = (ps', s') -> Forall (fun l => l = []) ps' ->
  forall kid, In kid ks -> dir s' (snd kid) = Some (finished_dir (fst kid)).
Proof. intros S L. exact (together_completes same c ty b S L ks sched s ps' s'). Qed.

Theorem C68_first_run_refuted : exists (ks : list (call nat * string)) sched c ty b,
  morris_queue (@fs0 nat) 2 = Ok (map snd ks) /\
  Forall (fun kid => sound_call (fst kid) /\ k_cfg (fst kid) = c /\ k_type (fst kid) = ty /\ k_backend (fst kid) = b) ks /\
  Nat.eqb c c = true /\ str_lower b = b /\
  exists ps s, parallel sched (procs Nat.eqb ks) fs0 = (ps, s) /\ Forall (fun l => l = []) ps /\
    exists id, In id (map snd ks) /\ forall tm rs, ~ completed s id tm rs.
Proof. exact trajectory_lost. Qed.

(** ** C69 *)
Theorem C69_second_trajectory_refuted : exists k s1, sound_call k /\ run_trajectory Nat.eqb None k fs0 = (s1, Finished) /\
  exists s2, run_trajectory Nat.eqb None k s1 = (s2, Failed EMorrisCoherence).
Proof. exact capital_letters. Qed.

Theorem C69_capital_letters {cfg} (same : cfg -> cfg -> bool) k s :
  f_cfg s = Some (k_cfg k) -> f_cfg2 s = Some (k_cfg k) -> f_meta s = Some (k_type k, str_lower (k_backend k)) ->
  same (k_cfg k) (k_cfg k) = true -> str_lower (k_backend k) <> k_backend k ->
  forall id, (match k_id k with Some i => Ok i | None => next_traj_id s end) = Ok id -> has_meta s id = false ->
  exists s', run_trajectory same None k s = (s', Failed EMorrisCoherence).
Proof. exact (capital_backend same k s). Qed.

(** ** C70 *)
Theorem C70_elementary_effects m step F names x0 l t :
  logged_traj F names x0 l t -> design m step x0 l ->
  exists rows mean, evaluate_trajectory t = Ok (rows, mean) /\ difference_quotients F names x0 l rows
    /\ forall o, mean o = qmean (map (fun x => F x o) (points x0 l)).
Proof. exact (evaluate_ok m step F names x0 l t). Qed.

Theorem C70_statistics std ts evs st :
  mapM evaluate_trajectory ts = Ok evs -> get_morris_stats std ts = Ok st ->
  Forall (fun ev => NoDup (map fst (fst ev))) evs ->
  forall f es, Forall2 (fun ev e => In (f, e) (fst ev)) evs es ->
  forall o, ms_mu st f o = qmean (map (fun e : outputs => e o) es)
            /\ ms_sigma st f o = std (map (fun e : outputs => e o) es).
Proof. exact (mu_is_mean std ts evs st). Qed.

(** Any number of trajectories of a model that is affine in the factors. *)
Theorem C70_affine_models m delta density std F names o a b ts :
  morris_init delta density = Ok m -> (2 * density | 100000)%Z -> ~ round5 (mm_delta m) == 0 ->
  NoDup names -> affine F o a b -> List.length b = List.length names -> ts <> [] -> Forall (run_of m F names) ts ->
  exists st, get_morris_stats std ts = Ok st /\
    forall i n bi, nth_error names i = Some n -> nth_error b i = Some bi ->
      In n (ms_labels st) /\ ms_mu st n o == bi.
Proof. intros I Fi Mo. exact (affine_recovered m delta density I Fi Mo std F names o a b ts). Qed.

(** ** C71 *)
Theorem C71_ranking std cols meth outs logs r :
  get_ranking std cols meth outs logs = Ok r ->
  exists ms m0 rest, mapM (get_morris_stats std) logs = Ok ms /\ ms = m0 :: rest /\ incl outs cols /\
    StronglySorted before r /\ Permutation r (map (fun f => (f, score meth ms outs f)) (ms_labels m0)).
Proof. exact (ranking_ok std cols meth outs logs r). Qed.

(** The scores, for several trajectories and non-zero outputs. *)
Theorem C71_score_max ms outs f sg : ms <> [] -> outs <> [] -> numbers ms outs f sg ->
  exists v, score RMax ms outs f = Fin v /\
    (exists m o o', In m ms /\ In o outs /\ In o' outs /\ v = rel_effect m f o + rel_spread sg m o') /\
    (forall m o o', In m ms -> In o outs -> In o' outs -> rel_effect m f o + rel_spread sg m o' <= v).
Proof. exact (score_max_ok ms outs f sg). Qed.

Theorem C71_score_mean ms outs f sg : ms <> [] -> outs <> [] -> numbers ms outs f sg ->
  exists v, score RMean ms outs f = Fin v /\
    v == qmean (map (fun m => qmean (map (fun o => rel_effect m f o + rel_spread sg m o) outs)) ms).
Proof. exact (score_mean_ok ms outs f sg). Qed.

(** With a single trajectory the default method ranks nothing. *)
Theorem C71_single_trajectory_refuted std cols outs fs logs r :
  (forall x, std [x] = NaN) -> NoDup fs ->
  Forall (fun ts => exists t, ts = [t] /\ tl_factors t = fs) logs ->
  get_ranking std cols RMax outs logs = Ok r -> forall f v, In (f, v) r -> v = NaN.
Proof. exact (single_trajectory_nan std cols outs fs logs r). Qed.

(** All theorems of this file at once (one traversal instead of one per
    theorem). *)
Definition all_theorems := (
  @C50_designs,
  @C50_default_step,
  @C50_designs_settings,
  @C50_seed,
  @C51_coefficients,
  @C51_middle_is_nominal,
  @C51_monotone,
  @C51_return_coefficient,
  @C51_return_trajectory,
  @C51_return_rejected,
  @C51_return_range,
  @C63_stays_on_grid_refuted,
  @C63_moves_refuted,
  @C64_done_means_logged,
  @C64_done_is_kept,
  @C64_parallel,
  @C64_success,
  @C65_next_id,
  @C65_no_id,
  @C65_names_distinct,
  @C65_queue,
  @C66_coherent,
  @C66_crash_refuted,
  @C66_concurrent_refuted,
  @C67_unfinished_blocks,
  @C67_repeatable_refuted,
  @C67_statistics_refuted,
  @C68_all_complete,
  @C68_first_run_refuted,
  @C69_second_trajectory_refuted,
  @C69_capital_letters,
  @C70_elementary_effects,
  @C70_statistics,
  @C70_affine_models,
  @C71_ranking,
  @C71_score_max,
  @C71_score_mean,
  @C71_single_trajectory_refuted).
Print Assumptions all_theorems.
