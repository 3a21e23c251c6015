(** Properties of running a global model and logging its results. *)
From Coq Require Import Permutation Qabs.
From Verif Require Import Base Species Reactions Chemistry ChemSpec ChemExamples MorrisStats Tables TablesSpec InitialGuess
  InitialExamples GlobalModel GlobalSpec GlobalLog GlobalProofs GlobalMore GlobalExamples.
Open Scope Q_scope.

(** ** C43
    A history is a list of steps, each with the number of file operations
    after which the process dies ([None]: it does not). *)
Theorem C43_served E fhash default_dir scan w l t :
  w_obj w = None -> served get_solution (ghistory E fhash default_dir scan w l) = Ok t ->
  exists pre b a r post, l = (pre ++ (b, GRun a (SDone true r)) :: post)%list /\ (forall bo, In bo post -> harmless (snd bo)) /\ t = rw_sol r.
Proof. exact (served_solution E fhash default_dir scan w l t). Qed.

Theorem C43_finished E fhash default_dir scan w b a o w' :
  gstep E fhash default_dir scan w (b, GRun a o) = (w', Finished) ->
  exists r, o = SDone true r /\ served get_solution w' = Ok (rw_sol r) /\ served success w' = Ok true.
Proof. exact (run_finished E fhash default_dir scan w b a o w'). Qed.

Theorem C43_failed E fhash default_dir scan w b a o w' e g :
  w_obj w = Some g -> ra_log a = false -> gstep E fhash default_dir scan w (b, GRun a o) = (w', Failed e) ->
  served get_solution w' = Err EBackendUnsuccessful /\ served (get_rates E) w' = Err EBackendUnsuccessful /\
  served (get_wall_fluxes E) w' = Err EBackendUnsuccessful /\ served success w' = Ok false /\ w_fs w' = w_fs w.
Proof. exact (run_failed E fhash default_dir scan w b a o w' e g). Qed.

Theorem C43_existing_refused E fhash scan b g id dir el_temp init_n compress s :
  assert_success g = Ok tt -> isdir s (run_path dir id) = true -> isdir s dir = true ->
  log_results E fhash scan b g id dir el_temp init_n false compress s = (s, Failed EGlobalModelLog).
Proof. exact (existing_refused E fhash scan b g id dir el_temp init_n compress s). Qed.

Theorem C43_files_kept E fhash default_dir scan l w :
  (forall bo, In bo l -> no_overwrite (snd bo)) -> fs_ok (w_fs w) ->
  kept (w_fs w) (w_fs (ghistory E fhash default_dir scan w l)).
Proof. exact (files_kept E fhash default_dir scan l w). Qed.

Theorem C43_logs_marked E fhash default_dir scan l w :
  (forall bo, In bo l -> no_overwrite (snd bo)) -> fs_ok (w_fs w) -> marked (w_fs w) ->
  marked (w_fs (ghistory E fhash default_dir scan w l)).
Proof. exact (logs_marked E fhash default_dir scan l w). Qed.

Theorem C43_logged E fhash default_dir scan w b a o w' :
  (forall l, Permutation (scan l) l) -> fs_ok (w_fs w) -> ra_log a = true ->
  gstep E fhash default_dir scan w (b, GRun a o) = (w', Finished) ->
  exists g m r id dir init_n t attrs rates fluxes, w_obj w = Some g /\ gm_model g = Some m /\
    o = SDone true r /\ ra_id a = Some id /\ (ra_to a = Some dir \/ ra_to a = None /\ default_dir (gm_backend g) = Ok dir) /\
    match ra_init a with Some i => init_n = i | None => generate_initial_n (bm_chem m) (bm_par m) default_fractions = Ok init_n end /\
    (isdir (w_fs w) (run_path dir id) = true -> ra_over a = true) /\
    chemistry_attributes E fhash (bm_chem m) = Ok attrs /\
    served (get_rates E) w' = Ok rates /\ served (get_wall_fluxes E) w' = Ok fluxes /\
    logged (ra_compress a) (rw_sol r) (tb_sol t) /\ logged (ra_compress a) rates (tb_rates t) /\
    logged (ra_compress a) fluxes (tb_flux t) /\ tb_log t = rw_log r /\
    same_outside (run_path dir id) (w_fs w) (w_fs w') /\
    forall q x, under (run_path dir id) q = true ->
      (fget q (fs_files (w_fs w')) = Some x <->
       exists n, q = (run_path dir id ++ [n])%list /\ In (n, x) (log_files_of t attrs (bm_par m) (ra_temp a) init_n)).
Proof. exact (run_logged E fhash default_dir scan w b a o w'). Qed.

Theorem C43_outside E fhash scan b g id dir el_temp init_n overwrite compress s :
  (forall l, Permutation (scan l) l) -> fs_ok s ->
  fs_ok (fst (log_results E fhash scan b g id dir el_temp init_n overwrite compress s)) /\
  same_outside (run_path dir id) s (fst (log_results E fhash scan b g id dir el_temp init_n overwrite compress s)).
Proof. exact (fun SP => log_outside E fhash scan SP b g id dir el_temp init_n overwrite compress s). Qed.

(** ** C75 *)
Theorem C75_overwrite_loses_refuted : exists l c o e,
  snd (gstep E1 no_files dd1 sc1 (hist l) (None, GRun (args0 true true "a") o)) = Failed e /\
  fget (file_a "solver_log.yaml") (fs_files (w_fs (hist l))) = Some c /\ c <> CEmpty /\
  fget (file_a "solver_log.yaml") (fs_files (w_fs (fst (gstep E1 no_files dd1 sc1 (hist l) (None, GRun (args0 true true "a") o))))) = None /\
  exists f, fget (file_a "chemistry_attributes.yaml")
              (fs_files (w_fs (fst (gstep E1 no_files dd1 sc1 (hist l) (None, GRun (args0 true true "a") o))))) = Some f /\ f = CEmpty.
Proof. exact overwrite_loses. Qed.

Theorem C75_crash_in_overwrite_refuted : exists l b,
  marked (w_fs (hist l)) /\
  exists s z, gstep E1 no_files dd1 sc1 (hist l) (Some b, GRun (args0 true true "a") (SDone true (raw0 6 2))) = (MkWorld None s, Crashed) /\
    fget (file_a "solver_log.yaml") (fs_files s) = Some (CLog z) /\
    fget (file_a "solution.csv") (fs_files s) = None.
Proof. exact crash_in_overwrite. Qed.

(** ** C76 *)
Theorem C76_empty_id_refuted : exists l, (forall bo, In bo l -> no_overwrite (snd bo)) /\
  fget (file_a "solution.csv") (fs_files (w_fs (hist l))) <> None /\
  snd (gstep E1 no_files dd1 sc1 (hist l) (go true true "" 2)) = Finished /\
  fget (file_a "solution.csv") (fs_files (w_fs (fst (gstep E1 no_files dd1 sc1 (hist l) (go true true "" 2))))) = None.
Proof. exact empty_id. Qed.

(** ** C77 *)
Theorem C77_failed_reload_refuted : exists l e, snd (gstep E1 no_files dd1 sc1 (hist l) (None, GReload (Err e))) = Failed e /\
  (exists t, served get_solution (hist l) = Ok t) /\
  let w := fst (gstep E1 no_files dd1 sc1 (hist l) (None, GReload (Err e))) in
  served success w = Ok true /\ served get_solution w = Err EAttribute /\
  snd (gstep E1 no_files dd1 sc1 w (None, GReload (Ok par0))) = Failed EAttribute /\
  forall a o b, exists e, snd (gstep E1 no_files dd1 sc1 w (b, GRun a o)) = Failed e.
Proof. exact failed_reload. Qed.

(** ** C78 *)
Theorem C78_convergence tb eps tw pre a :
  ascending tb -> In "t"%string (tb_cols tb) -> tb_rows tb = (pre ++ [a])%list ->
  covered tb (time a - time a * tw) -> 0 <= eps ->
  exists flags, check_convergency tb eps tw = Ok flags /\
    map fst flags = filter (fun c => negb (String.eqb c "t")) (tb_cols tb) /\
    forall c b, In (c, b) flags -> exists v, sampled tb c (time a - time a * tw) v /\
      (at_col a c + v == 0 -> b = false) /\
      (~ at_col a c + v == 0 -> (b = true <-> Qabs (at_col a c - v) <= eps * Qabs ((at_col a c + v) / 2))).
Proof. exact (convergency_spec tb eps tw pre a). Qed.

Theorem C78_stopped_early tb t_end pre a : tb_rows tb = (pre ++ [a])%list -> 0 < t_end ->
  exists b, stopped_early tb t_end = Ok b /\ (b = true <-> time a < t_end * (19 # 20) - (1 # 100000000)).
Proof. exact (stopped_spec tb t_end pre a). Qed.

Theorem C78_absent_refuted : exists tb, ascending tb /\ (forall r, In r (tb_rows tb) -> at_col r "A" == 0) /\
  check_convergency tb (1 # 10) (1 # 10) = Ok [("A"%string, false)].
Proof. exact absent_not_converged. Qed.

(** ** C79 *)
Theorem C79_rates E fhash default_dir scan w l : w_obj w = None -> forall tb,
  served (get_rates E) (ghistory E fhash default_dir scan w l) = Ok tb ->
  exists pre b a r post c0, l = (pre ++ (b, GRun a (SDone true r)) :: post)%list /\ (forall bo, In bo post -> harmless (snd bo)) /\
    (exists g0 m0, w_obj (ghistory E fhash default_dir scan w pre) = Some g0 /\ gm_model g0 = Some m0 /\ bm_chem m0 = c0) /\
    ((forall bo, In bo post -> not_chem (snd bo)) -> List.length (names_of c0) <> List.length (get_reactions c0 false) ->
     tb = to_table (map (fun x => ishow E (rx_id x)) (get_reactions c0 false)) (rw_rates r)).
Proof. exact (served_rates E fhash default_dir scan w l). Qed.

Theorem C79_fluxes E fhash default_dir scan w l : w_obj w = None -> forall tb,
  served (get_wall_fluxes E) (ghistory E fhash default_dir scan w l) = Ok tb ->
  exists pre b a r post c0, l = (pre ++ (b, GRun a (SDone true r)) :: post)%list /\ (forall bo, In bo post -> harmless (snd bo)) /\
    (exists g0 m0, w_obj (ghistory E fhash default_dir scan w pre) = Some g0 /\ gm_model g0 = Some m0 /\ bm_chem m0 = c0) /\
    ((forall bo, In bo post -> not_chem (snd bo)) -> tb = to_table (names_of c0) (rw_flux r)).
Proof. exact (served_fluxes E fhash default_dir scan w l). Qed.

Theorem C79_columns cols m k j t vs c v :
  NoDup cols -> ~ In "t"%string cols -> List.length vs = List.length cols ->
  nth_error m k = Some (t, vs) -> nth_error cols j = Some c -> nth_error vs j = Some v ->
  exists r, nth_error (tb_rows (to_table cols m)) k = Some (Z.of_nat k, r) /\ r c = v /\ r "t"%string = t.
Proof. exact (to_table_value cols m k j t vs c v). Qed.

Theorem C79_named_after_species_refuted : exists c l tb, reachable E0 c /\ assert_consistency c = Ok tt /\
  l = [(None, GNew "PyGMol" c (Ok par0)); (None, GRun (args0 false false "a") (SDone true raw_ox))] /\
  served (get_rates E1) (hist l) = Ok tb /\ tb_cols tb = ["t"; "O2"; "O2+"; "O-"; "O"]%string /\
  map rx_id (get_reactions c false) = [1; 2; 3; 4]%Z.
Proof. exact rates_named_after_species. Qed.

Theorem C79_relabelled_refuted : exists tb tb',
  served (get_rates E1) (hist h2) = Ok tb /\ served (get_rates E1) (hist (h2 ++ h2_change)) = Ok tb' /\
  tb_cols tb = ["t"; "2"; "4"; "5"; "6"]%string /\ tb_cols tb' = ["t"; "2"; "3"; "4"; "5"]%string /\
  map (fun r => snd r "4"%string) (tb_rows tb) = map (fun r => snd r "3"%string) (tb_rows tb') /\
  map (fun r => snd r "4"%string) (tb_rows tb) <> map (fun r => snd r "4"%string) (tb_rows tb').
Proof. exact rates_relabelled. Qed.

Theorem C79_unavailable_refuted : exists l, (exists tb, served (get_rates E1) (hist l) = Ok tb) /\
  let w := hist (l ++ [(None, GChem (ODisable [RName "O"%string] []))]) in
  (exists t, served get_solution w = Ok t) /\ served (get_rates E1) w = Err EValue /\ served (get_wall_fluxes E1) w = Err EValue.
Proof. exact rates_unavailable. Qed.

(** ** C80 *)
Theorem C80_single_reaction_refuted : exists c, reachable E0 c /\ assert_consistency c = Ok tt /\ List.length (get_reactions c false) = 1%nat /\
  forall g m a o b s, gm_model g = Some m -> bm_chem m = c -> exists e, snd (gm_run E1 no_files dd1 sc1 b g a o s) = Failed e.
Proof. exact one_reaction. Qed.

(** All theorems of this file at once (one traversal instead of one per
    theorem). *)
Definition all_theorems := (
  @C43_served,
  @C43_finished,
  @C43_failed,
  @C43_existing_refused,
  @C43_files_kept,
  @C43_logs_marked,
  @C43_logged,
  @C43_outside,
  @C75_overwrite_loses_refuted,
  @C75_crash_in_overwrite_refuted,
  @C76_empty_id_refuted,
  @C77_failed_reload_refuted,
  @C78_convergence,
  @C78_stopped_early,
  @C78_absent_refuted,
  @C79_rates,
  @C79_fluxes,
  @C79_columns,
  @C79_named_after_species_refuted,
  @C79_relabelled_refuted,
  @C79_unavailable_refuted,
  @C80_single_reaction_refuted).
Print Assumptions all_theorems.
