(** Neutral models, the reported table, restarts and the results a Model keeps. *)
From Coq Require Import Reals Qreals Lra.
From Verif Require Import Base BaseLemmas Species Reactions Chemistry ChemSpec MolSpec MolExamples Morris MorrisStats InitialGuess InitialSpec Tables ExtReal
  Equations EqSpec EqExamples Views ConserveSpec LinkSpec BalanceExamples Neutral NeutralProofs Solution SolutionProofs SolutionMore
  SolutionExamples SolutionWitness SolutionFirst StartGiven.
From Coq Require Import Permutation.
Open Scope R_scope.

(** ** C117 *)

(** C117: for a NeutralChemistry the neutral right-hand side gives every
    species the time derivative of the general model, with the electron
    energy kept constant, and does not touch the equations. *)
Theorem C117_neutral_rhs E objs c v K model p e t y :
  c_kind c = Chemistry.Neutral -> view_of E objs c = Ok v -> neutral_init K model v p = Ok e ->
  exists dn, n_obj_function t y e = (e, Ok (dn ++ [X 0])%list) /\
    forall d, snd (obj_function t y e) = Ok d -> exists drho, d = (dn ++ [drho])%list.
Proof. exact (neutral_chemistry E objs c v K model p e t y). Qed.

(** C117: the rates are Arrhenius at the gas temperature times the densities. *)
Theorem C117_neutral_rates E objs c v K model p e n rho :
  c_kind c = Chemistry.Neutral -> view_of E objs c = Ok v -> neutral_init K model v p = Ok e -> 0 < p_temp p ->
  List.length n = List.length (v_names v) ->
  n_rates (state n rho) None None None None e = (e, map X (map (fun j =>
    el (v_a v) j * Rpower (p_temp p / 300) (el (v_b v) j) * exp (- el (v_c v) j / p_temp p) *
    (Prod (map (fun i => el n i ^ Z.to_nat (nth i (nth j (v_lhs v) []) 0%Z)) (seq 0 (List.length (v_names v)))) *
     Sum (List.length (v_names v)) (el n) ^ Z.to_nat (nth j (v_m_lhs v) 0%Z))) (seq 0 (List.length (v_a v))))).
Proof. exact (fun KD V I => neutral_rates_real K model v p e n rho I (neutral_no_electrons E objs c v KD V)). Qed.

Example C117_nonvacuous : exists e, reachable E1 cN /\ c_kind cN = Chemistry.Neutral /\ view_of E1 objsN cN = Ok vN /\ neutral_init K1 Combined vN parN = Ok e /\
  0 < p_temp parN /\ v_m_lhs vN = [1; 1]%Z.
Proof.
  destruct (initN Combined) as (e & I). exists e. split; [exact cN_reachable|]. split; [vm_compute; reflexivity|]. split; [exact vN_ok|]. split; [exact I|].
  split; [cbn; lra|reflexivity].
Qed.

(** ** C118 *)

(** C118: the table of a run lists, for each time step, the time, the
    densities under the names of the species, then electron density,
    electron temperature, gas temperature and pressure. *)
Theorem C118_table K model v p e (sol : list (R * (list R * R))) :
  eq_init K model v p = Ok e -> NoDup (v_names v) ->
  (forall x, In x (v_names v) -> ~ In x ["t"; "e"; "Te"; "Tg"; "p"]%string) ->
  List.length (v_names v) <> 1%nat -> List.length (v_names v) <> 0%nat -> List.length (v_a v) <> 1%nat ->
  (forall t n rho, In (t, (n, rho)) sol -> List.length n = List.length (v_names v) /\ electrons v n <> 0) ->
  post_process General (st e) (v_names v) (map (fun x => (X (fst x), state (fst (snd x)) (snd (snd x)))) sol) =
  Ok (map (fun x => let '(t, (n, rho)) := x in
    (("t"%string, X t) :: combine (v_names v) (map X n) ++
     [("e"%string, X (electrons v n)); ("Te"%string, X (Rmax (rho / electrons v n * 2 / 3) (gas_ev K p)));
      ("Tg"%string, X (p_temp p)); ("p"%string, X (c_k K * p_temp p * Sum (List.length (v_names v)) (el n)))])%list) sol).
Proof. exact (table_stated K model v p e sol). Qed.

(** C118: restarting from any row of the table gives back the densities of
    that row; the electron energy is the old one, or that of electrons as hot
    as the gas if it was lower; the start is accepted. *)
Theorem C118_restart K model v p e (sol : list (R * (list R * R))) rows i t n rho row :
  eq_init K model v p = Ok e -> NoDup (v_names v) -> (forall x, In x (v_names v) -> ~ In x ["t"; "e"; "Te"; "Tg"; "p"]%string) ->
  (forall t n rho, In (t, (n, rho)) sol -> List.length n = List.length (v_names v) /\ electrons v n <> 0) ->
  post_process General (st e) (v_names v) (map (fun x => (X (fst x), state (fst (snd x)) (snd (snd x)))) sol) = Ok rows ->
  nth_error sol i = Some (t, (n, rho)) -> nth_error rows i = Some row -> 0 < electrons v n ->
  exists d te, mapM (fun n => match sget n row with Some x => Ok (n, x) | None => Err EKey end) (v_names v) = Ok d /\
    sget "Te"%string row = Some te /\
    restart (v_names v) (v_charge v) te d = Ok (state n (Rmax rho (3 / 2 * electrons v n * gas_ev K p))) /\
    validate (v_names v) (v_charge v) (state n (Rmax rho (3 / 2 * electrons v n * gas_ev K p))) = Ok tt.
Proof. exact (restart_from_table K model v p e sol rows i t n rho row). Qed.

Example C118_nonvacuous : exists e, eq_init K1 Combined vB parB = Ok e /\ NoDup (v_names vB) /\
  (forall x, In x (v_names vB) -> ~ In x ["t"; "e"; "Te"; "Tg"; "p"]%string) /\
  List.length (v_names vB) <> 1%nat /\ List.length (v_names vB) <> 0%nat /\ List.length (v_a vB) <> 1%nat /\ 0 < electrons vB n1 /\
  forall t n rho, In (t, (n, rho)) [(0, (n1, 3)); (1, (n1, 300))] -> List.length n = List.length (v_names vB) /\ electrons vB n <> 0.
Proof.
  destruct table_witness as (e & A & B & C & D & F & G & H). exists e. repeat (split; [assumption|]). split; [rewrite nB_electrons; lra|exact H].
Qed.

(** C118: a restart need not give back the state exactly. *)
Theorem C118_exact_restart_refuted : exists K model v p e n rho d te y, physical K /\ proper_params p /\ eq_init K model v p = Ok e /\
  NoDup (v_names v) /\ (forall x, In x (v_names v) -> ~ In x ["t"; "e"; "Te"; "Tg"; "p"]%string) /\
  List.length n = List.length (v_names v) /\ 0 < electrons v n /\ 0 <= rho /\
  (exists row, rearrange (frame_row General (st e) (v_names v) (X 1) (state n rho)) = Ok row /\
    mapM (fun n => match sget n row with Some x => Ok (n, x) | None => Err EKey end) (v_names v) = Ok d /\ sget "Te"%string row = Some te) /\
  restart (v_names v) (v_charge v) te d = Ok y /\ y <> state n rho.
Proof. exact cold_restart. Qed.

(** ** C119 *)

(** C119: the first row of the table of a run started from generated
    densities shows these densities, the requested pressure, the requested
    electron density and the start temperature. *)
Theorem C119_first_row E objs c p fr l d te K model v mp e y0 rest b b' :
  reachable E c -> c_kind c = Plain -> heavy c = Ok l -> (0 < gp_temp p)%Q -> (0 < gp_press p)%Q -> (0 < fr_ion fr)%Q ->
  neutral_feeds l (gp_feeds p) -> (exists s, In s l /\ snd s = 0%Z) -> generate_initial_n c p fr = Ok d ->
  view_of E objs c = Ok v -> eq_init K model v mp = Ok e -> c_k K = Q2R boltzmann -> p_temp mp = Q2R (gp_temp p) ->
  (forall x, In x (v_names v) -> ~ In x ["t"; "e"; "Te"; "Tg"; "p"]%string) ->
  restart (v_names v) (v_charge v) (X (Q2R te)) (map (fun nx => (fst nx, X (Q2R (snd nx)))) d) = Ok y0 ->
  run General (MkSetting (Ok e) (v_names v) (v_charge v) (SolverDone true ((X 0, y0) :: rest))) (X (Q2R te))
    (map (fun nx => (fst nx, X (Q2R (snd nx)))) d) b = (b', Ok tt) ->
  exists row rows, bk_solution b' = Ok (row :: rows) /\
    mapM (fun n => match sget n row with Some x => Ok (n, x) | None => Err EKey end) (v_names v) =
      Ok (map (fun nx => (fst nx, X (Q2R (snd nx)))) d) /\
    sget "t"%string row = Some (X 0) /\
    sget "p"%string row = Some (X (Q2R (gp_press p))) /\
    sget "e"%string row = Some (X (Q2R (gas_density p * fr_ion fr))) /\
    sget "Te"%string row = Some (X (Rmax (Q2R te) (gas_ev K mp))).
Proof. exact (first_row_run E objs c p fr l d te K model v mp e y0 rest b b'). Qed.

Example C119_nonvacuous : exists d e y0 b', reachable E1 cB /\ c_kind cB = Plain /\ heavy cB = Ok lB /\ neutral_feeds lB (gp_feeds pB) /\
  (exists s, In s lB /\ snd s = 0%Z) /\
  generate_initial_n cB pB default_fractions = Ok d /\ view_of E1 objsB cB = Ok vB /\ eq_init KB Combined vB parB = Ok e /\
  c_k KB = Q2R boltzmann /\ p_temp parB = Q2R (gp_temp pB) /\ (forall x, In x (v_names vB) -> ~ In x reserved) /\
  restart (v_names vB) (v_charge vB) (X (Q2R 1)) (as_numbers d) = Ok y0 /\
  run General (MkSetting (Ok e) (v_names vB) (v_charge vB) (SolverDone true [(X 0, y0)])) (X (Q2R 1)) (as_numbers d) (unsolved e) = (b', Ok tt).
Proof.
  destruct first_run_witness as (d & e & y0 & b' & A & B & C & D). destruct first_witness as (d' & e' & F1 & F2 & F3 & F4 & _ & F5 & _ & F6 & F7 & F8).
  exists d, e, y0, b'. repeat (split; [first [assumption|exact neutralB]|]). exact D.
Qed.

(** ** C120 *)

(** C120: the start of a neutral run with fed species: the densities add up
    to that of a gas at the requested pressure and temperature, less 1e-15 of
    it for each fed species; without feeds all species have equal densities,
    adding up exactly. *)
Theorem C120_neutral_start_fed names p :
  (forall n, In n names -> 0 <= InitialGuess.feed_of (gp_feeds p) n)%Q -> (exists n, In n names /\ 0 < InitialGuess.feed_of (gp_feeds p) n)%Q ->
  (qsum (fst (n_build_y0 names p)) ==
   gas_density p * (1 - inject_Z (Z.of_nat (List.length (filter (fun n => Qltb 0 (InitialGuess.feed_of (gp_feeds p) n)) names))) * (1 # 1000000000000000)))%Q.
Proof. exact (fun FN => neutral_total_fed names (gp_feeds p) (gas_density p) FN). Qed.
Theorem C120_neutral_start_unfed names p :
  names <> [] -> (forall n, In n names -> InitialGuess.feed_of (gp_feeds p) n == 0)%Q ->
  (qsum (fst (n_build_y0 names p)) == gas_density p)%Q /\
  Forall (fun q => q * inject_Z (Z.of_nat (List.length names)) == gas_density p)%Q (fst (n_build_y0 names p)).
Proof. exact (neutral_unfed names p). Qed.
Theorem C120_neutral_start_valid names p : n_validate_y0 names (n_build_y0 names p) = Ok tt /\ snd (n_build_y0 names p) = 0%Q.
Proof. exact (neutral_start_valid names p). Qed.

Example C120_nonvacuous : let p := MkGp 300 100 [("O2"%string, 100%Q)] 1 in
  (forall n, In n ["O"; "O2"]%string -> 0 <= InitialGuess.feed_of (gp_feeds p) n)%Q /\
  (exists n, In n ["O"; "O2"]%string /\ 0 < InitialGuess.feed_of (gp_feeds p) n)%Q.
Proof.
  cbv zeta. split; [intros n I; cbn in I; destruct I as [<-|[<-|[]]]; vm_compute; discriminate|].
  exists "O2"%string. split; [cbn; tauto|reflexivity].
Qed.

(** C120: densities given by name are accepted exactly when they name every
    species once, and each species then starts with its own. *)
Theorem C120_given_start names p d : NoDup (map fst d) ->
  (Permutation (map fst d) names -> exists ns, n_y0_from_init_params names p (Some d) = Ok (ns, 0%Q) /\
     Forall2 (fun n q => In (n, q) d) names ns) /\
  (~ Permutation (map fst d) names -> n_y0_from_init_params names p (Some d) = Err EInitialSolution).
Proof. exact (neutral_given names p d). Qed.
Example C120_given_start_nonvacuous : NoDup (map fst [("O", 4%Q); ("O2", 1%Q)]%string) /\
  Permutation (map fst [("O", 4%Q); ("O2", 1%Q)]%string) ["O2"; "O"]%string.
Proof.
  split; [repeat constructor; cbn; intuition discriminate|]. apply perm_swap.
Qed.

(** C120: with feeds the total is not exactly that of the requested pressure. *)
Theorem C120_exact_total_refuted : exists names p, NoDup names /\ (forall n, In n names -> (0 <= InitialGuess.feed_of (gp_feeds p) n)%Q) /\
  (0 < gp_temp p)%Q /\ (0 < gp_press p)%Q /\
  n_validate_y0 names (n_build_y0 names p) = Ok tt /\ ~ (qsum (fst (n_build_y0 names p)) == gas_density p)%Q.
Proof. exact neutral_short. Qed.
(** C120: negative densities are accepted as a start. *)
Theorem C120_no_negative_start_refuted : exists names p init_n y, NoDup names /\ n_y0_from_init_params names p (Some init_n) = Ok y /\
  n_validate_y0 names y = Ok tt /\ exists q, In q (fst y) /\ (q < 0)%Q.
Proof. exact neutral_negative. Qed.

(** ** C121 *)

(** C121: after a run that did not raise, the object reports success, the
    table is that of the solver's time steps, and the rates are those of the
    equations built for this run at these time steps. *)
Theorem C121_fresh_results K model v p e names charges o te d b b' :
  eq_init K model v p = Ok e -> run General (MkSetting (Ok e) names charges o) te d b = (b', Ok tt) ->
  exists sol rows, o = SolverDone true sol /\ bk_succeeded b' = Ok true /\
    post_process General (st e) names sol = Ok rows /\ bk_solution b' = Ok rows /\
    bk_rates General b' = Ok (map (fun ty => snd (get_reaction_rates (snd ty) None None None None e)) sol).
Proof. exact (fresh_results K model v p e names charges o te d b b'). Qed.

(** C121: whatever table an object serves after any series of runs is the
    table of one of these runs. *)
Theorem C121_some_run cl e0 (l : list (setting * (ext * list (string * ext)))) rows :
  bk_solution (fold_left (fun b a => fst (run cl (fst a) (fst (snd a)) (snd (snd a)) b)) l (MkBackend e0 None None None)) = Ok rows ->
  exists w e ok sol, In w (map fst l) /\ se_eq w = Ok e /\ se_out w = SolverDone ok sol /\ post_process cl (st e) (se_names w) sol = Ok rows.
Proof. exact (some_run cl e0 l rows). Qed.

(** C121: a run in which the solver does not come to an end raises and
    leaves the flag and the table the object serves as they were. *)
Theorem C121_unsolved cl w te d b b' r : (forall ok sol, se_out w <> SolverDone ok sol) -> run cl w te d b = (b', r) ->
  r <> Ok tt /\ bk_succeeded b' = bk_succeeded b /\ bk_solution b' = bk_solution b.
Proof. exact (run_unsolved cl w te d b b' r). Qed.

(** C121: after a run that raised, the object may report success with the
    table of an earlier run and the rates of the new equations. *)
Theorem C121_no_stale_results_refuted o : o = SolverValueError \/ (exists t n rho, o = SolverDone true [(t, state n rho)]) ->
  exists E objs c c' K v v' p e e' te d b b' rows x r r',
  reachable E c /\ c' = fst (disable c [] [2%Z]) /\ view_of E objs c = Ok v /\ view_of E objs c' = Ok v' /\ physical K /\ proper_params p /\
  eq_init K Combined v p = Ok e /\ eq_init K Combined v' p = Ok e' /\
  (exists sol, run General (MkSetting (Ok e) (v_names v) (v_charge v) (SolverDone true sol)) te d (unsolved e) = (b, Ok tt)) /\
  bk_solution b = Ok rows /\ bk_rates General b = Ok [r] /\ List.length r = 2%nat /\
  run General (MkSetting (Ok e') (v_names v') (v_charge v') o) te d b = (b', Err x) /\
  bk_succeeded b' = Ok true /\ bk_solution b' = Ok rows /\ bk_rates General b' = Ok [r'] /\ List.length r' = 1%nat.
Proof. exact (stale o). Qed.

(** ** C122 *)

(** C122: a NeutralChemistry may contain the electron; an electron collision
    then has a positive rate although there are no electrons. *)
Theorem C122_electron_collisions_need_electrons_refuted : exists E objs rxs c v K p e r0 r1 n rs,
  reachable E c /\ objects E objs rxs c /\ c_kind c = Chemistry.Neutral /\ view_of E objs c = Ok v /\ neutral_init K Combined v p = Ok e /\
  get_reactions c false = [r0; r1] /\ occurrences "e" (rx_lhs r0) = 1%Z /\
  report_density NeutralOnly (st e) (state n 0) = X 0 /\
  n_rates (state n 0) None None None None e = (e, map X rs) /\ List.length rs = 2%nat /\ 0 < el rs 0.
Proof. exact electron_positive. Qed.

(** C122: wall fluxes cannot be asked for on neutral equations. *)
Theorem C122_fluxes_reported_refuted y n v e : snd (n_wall_fluxes y n None v e) = Err EType.
Proof. exact (proj1 (neutral_no_fluxes y n v e)). Qed.

(** ** C123 *)

(** C123: a species called Te loses its density in the table, and a restart
    from the table starts from a wrong density. *)
Theorem C123_species_columns_refuted : exists E objs c K v p e row n,
  reachable E c /\ view_of E objs c = Ok v /\ physical K /\ proper_params p /\ eq_init K Combined v p = Ok e /\
  NoDup (v_names v) /\ electrons v n = 2 /\ nth_error (v_names v) 0 = Some "Te"%string /\ nth_error n 0 = Some 7 /\
  rearrange (frame_row General (st e) (v_names v) (X 0) (state n 300)) = Ok row /\
  sget "Te"%string row = Some (X 100) /\
  exists d y, mapM (fun n => match sget n row with Some x => Ok (n, x) | None => Err EKey end) (v_names v) = Ok d /\
    restart (v_names v) (v_charge v) (X 100) d = Ok y /\ validate (v_names v) (v_charge v) y = Ok tt /\ nth_error y 0 = Some (X 100).
Proof. exact tellurium. Qed.

(** C123: a start that is not a number is accepted. *)
Theorem C123_numeric_start_refuted : exists names charges te d y,
  NoDup names /\ restart names charges te d = Ok y /\ validate names charges y = Ok tt /\ In XNaN y.
Proof. exact nan_accepted. Qed.

(** All theorems of this file at once (one traversal instead of one per
    theorem). *)
Definition all_theorems := (
  @C117_neutral_rhs,
  @C117_neutral_rates,
  @C118_table,
  @C118_restart,
  @C118_exact_restart_refuted,
  @C119_first_row,
  @C120_neutral_start_fed,
  @C120_neutral_start_unfed,
  @C120_neutral_start_valid,
  @C120_given_start,
  @C120_exact_total_refuted,
  @C120_no_negative_start_refuted,
  @C121_fresh_results,
  @C121_some_run,
  @C121_unsolved,
  @C121_no_stale_results_refuted,
  @C122_electron_collisions_need_electrons_refuted,
  @C122_fluxes_reported_refuted,
  @C123_species_columns_refuted,
  @C123_numeric_start_refuted).
Print Assumptions all_theorems.
