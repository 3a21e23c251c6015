(** The first row and the restart, as seen through a Model. *)
From Coq Require Import Reals Qreals Lra.
From Verif Require Import Base BaseLemmas Chemistry ChemSpec ChemHist ChemLoad Morris MorrisStats InitialGuess InitialSpec InitialProofs InitialMain Tables ExtReal
  Equations EqSpec EqPure EqDefaults EqReal EqFlow EqFloors EqExamples Views Neutral NeutralProofs Solution SolutionProofs SolutionMore BalanceExamples SolutionExamples SolutionWitness.
From Verif Require Conserve TablesProofs.
Open Scope R_scope.

Definition as_numbers (d : list (string * Q)) : list (string * ext) := map (fun nx => (fst nx, X (Q2R (snd nx)))) d.

Lemma post_first cl s names t y rest rows : post_process cl s names ((t, y) :: rest) = Ok rows ->
  exists row rows', rows = row :: rows' /\ rearrange (frame_row cl s names t y) = Ok row.
Proof.
  unfold post_process. destruct (raise_if _ _); cbn [bind]; [|discriminate]. cbn [mapM fst snd].
  destruct (rearrange _) as [row|]; cbn [bind]; [|discriminate]. destruct (mapM _ rest) as [r|]; cbn [bind]; [|discriminate].
  intros H. injection H as <-. eauto.
Qed.

Lemma first_row_run E objs c p fr l d te K model v mp e y0 rest b b' :
  reachable E c -> c_kind c = Plain -> heavy c = Ok l -> (0 < gp_temp p)%Q -> (0 < gp_press p)%Q -> (0 < fr_ion fr)%Q ->
  neutral_feeds l (gp_feeds p) -> (exists s, In s l /\ snd s = 0%Z) -> generate_initial_n c p fr = Ok d ->
  view_of E objs c = Ok v -> eq_init K model v mp = Ok e -> c_k K = Q2R boltzmann -> p_temp mp = Q2R (gp_temp p) ->
  (forall x, In x (v_names v) -> ~ In x reserved) ->
  restart (v_names v) (v_charge v) (X (Q2R te)) (as_numbers d) = Ok y0 ->
  run General (MkSetting (Ok e) (v_names v) (v_charge v) (SolverDone true ((X 0, y0) :: rest))) (X (Q2R te)) (as_numbers d) b = (b', Ok tt) ->
  exists row rows, bk_solution b' = Ok (row :: rows) /\
    densities_of (v_names v) row = Ok (as_numbers d) /\
    sget "t"%string row = Some (X 0) /\
    sget "p"%string row = Some (X (Q2R (gp_press p))) /\
    sget "e"%string row = Some (X (Q2R (gas_density p * fr_ion fr))) /\
    sget "Te"%string row = Some (X (Rmax (Q2R te) (gas_ev K mp))).
Proof.
  intros R KD H T P F NF NE G V I CK TP D Y RUN.
  destruct (run_ok _ _ _ _ _ _ RUN) as (e' & sol & rows & SE & SO & PP & ->). cbn [se_eq se_names se_out] in *.
  injection SE as <-. injection SO as <-. destruct (post_first _ _ _ _ _ _ _ PP) as (row & rows' & -> & RW).
  destruct (first_row E objs c p fr l d te K model v mp e 0 R KD H T P F NF NE G V I CK TP D) as (ns & rho & row' & Y' & RW' & A & B & C & J).
  assert (EY : y0 = state (map Q2R ns) (Q2R rho)).
  { destruct (heavy_view E objs c v l V H) as [EN EC].
    destruct (initial_ok E c p fr l R KD H T P F NF NE) as (ns' & G' & L' & _ & C3 & _). rewrite G in G'. injection G' as Ed.
    assert (Lc : List.length (map fst l) = List.length ns') by (rewrite map_length; symmetry; exact L').
    assert (ND : NoDup (v_names v)) by (rewrite EN; exact (heavy_NoDup c l (i_wf c (reachable_Inv E c R)) H)).
    assert (Ad : as_numbers d = combine (v_names v) (map X (map Q2R ns'))).
    { unfold as_numbers. rewrite EN, Ed. clear -L'. revert ns' L'. induction l as [|s l IH]; intros [|q ns] L; try discriminate L; [reflexivity|].
      cbn [map combine fst snd]. f_equal. apply IH. cbn in L. lia. }
    destruct (same_start E c p fr l d te R KD H T P F NF G) as (ns2 & rho2 & rho' & Y2 & _ & _ & Ens & Rho & _).
    rewrite Y' in Y2. injection Y2 as <- <-. rewrite Ens, Ed, map_snd_combine by exact Lc.
    rewrite Ad, restart_is in Y; [|exact ND|rewrite map_length, EN, map_length; exact L'|rewrite EN, EC, !map_length; reflexivity].
    injection Y as <-. unfold state. f_equal. f_equal. f_equal. rewrite (electrons_Q v l ns' EN EC L').
    apply Qeq_eqR in Rho. rewrite Rho, !Q2R_mult.
    apply Qeq_eqR in C3. rewrite C3, Q2R_mult. replace (Q2R (3 # 2)) with (3 / 2) by (unfold Q2R; cbn; lra). ring. }
  subst y0. rewrite RW' in RW. injection RW as <-.
  exists row', rows'. split; [reflexivity|]. split; [exact A|]. split; [|split; [exact B|split; [exact C|exact J]]].
  destruct (heavy_view E objs c v l V H) as [EN EC].
  clear -RW'. unfold rearrange in RW'. cbn [mapM] in RW'.
  destruct (sget "t"%string _) as [x|] eqn:Q; cbn [bind] in RW'; [|discriminate].
  destruct (mapM _ _) as [r|]; cbn [bind] in RW'; [|discriminate]. injection RW' as <-. cbn [aget String.eqb Ascii.eqb Bool.eqb].
  unfold frame_row in Q. rewrite (aget_aset_same String.eqb Seqb_spec) in Q. injection Q as <-. reflexivity.
Qed.

(** The run of the example. *)
Lemma first_run_witness : exists d e y0 b', generate_initial_n cB pB default_fractions = Ok d /\ eq_init KB Combined vB parB = Ok e /\
  restart (v_names vB) (v_charge vB) (X (Q2R 1)) (as_numbers d) = Ok y0 /\
  run General (MkSetting (Ok e) (v_names vB) (v_charge vB) (SolverDone true [(X 0, y0)])) (X (Q2R 1)) (as_numbers d) (unsolved e) = (b', Ok tt).
Proof.
  destruct (initial_ok MolExamples.E1 cB pB default_fractions lB cB_reachable eq_refl lB_heavy eq_refl eq_refl eq_refl feedsB neutralB) as (ns & A & L & _ & C & _).
  assert (I : exists e, eq_init KB Combined vB parB = Ok e) by (eexists; reflexivity). destruct I as (e & I).
  assert (Ad : as_numbers (combine (map fst lB) ns) = combine (v_names vB) (map X (map Q2R ns))).
  { change (v_names vB) with (map fst lB). unfold as_numbers. clear -L. revert ns L. generalize lB. intros l. induction l as [|s l IH]; intros [|q ns] L; try discriminate L; [reflexivity|].
    cbn [map combine fst snd]. f_equal. apply IH. cbn in L. lia. }
  assert (Lv : List.length (map Q2R ns) = List.length (v_names vB)) by (rewrite map_length, L; reflexivity).
  assert (PE : 0 < electrons vB (map Q2R ns)).
  { rewrite (electrons_Q vB lB ns eq_refl eq_refl L). apply Qeq_eqR in C. rewrite C. replace 0 with (Q2R 0) by (unfold Q2R; cbn; lra).
    apply Qlt_Rlt. reflexivity. }
  exists (combine (map fst lB) ns), e. rewrite Ad. exists (state (map Q2R ns) (3 / 2 * electrons vB (map Q2R ns) * Q2R 1)). eexists.
  split; [exact A|]. split; [exact I|]. split; [apply restart_is; [exact vB_NoDup|exact Lv|reflexivity]|].
  unfold run. cbn [se_names se_charges]. rewrite restart_is by (try exact vB_NoDup; try exact Lv; reflexivity).
  unfold solve. cbn [se_eq se_names se_charges se_out]. rewrite validate_is by (try exact Lv; reflexivity).
  destruct (Rlt_dec 0 _) as [_|G]; [|contradiction].
  set (rho := 3 / 2 * electrons vB (map Q2R ns) * Q2R 1).
  assert (PP : post_process General (st e) (v_names vB) [(X 0, state (map Q2R ns) rho)] = Ok [reported KB vB parB 0 (map Q2R ns) rho]); [|rewrite PP; reflexivity].
  refine (solution_reported KB Combined vB parB e [(0, (map Q2R ns, rho))] I vB_NoDup vB_free _ _ _ _); [discriminate|discriminate|discriminate|].
  intros t n r H. cbn [In] in H. destruct H as [H|[]]. injection H as <- <- <-. split; [exact Lv|lra].
Qed.

(** Restarting from any row of the table. *)
Lemma restart_from_table K model v p e (sol : list (R * (list R * R))) rows i t n rho row :
  eq_init K model v p = Ok e -> NoDup (v_names v) -> (forall x, In x (v_names v) -> ~ In x reserved) ->
  (forall t n rho, In (t, (n, rho)) sol -> List.length n = List.length (v_names v) /\ electrons v n <> 0) ->
  post_process General (st e) (v_names v) (map (fun x => (X (fst x), state (fst (snd x)) (snd (snd x)))) sol) = Ok rows ->
  nth_error sol i = Some (t, (n, rho)) -> nth_error rows i = Some row -> 0 < electrons v n ->
  exists d te, densities_of (v_names v) row = Ok d /\ sget "Te"%string row = Some te /\
    restart (v_names v) (v_charge v) te d = Ok (state n (Rmax rho (3 / 2 * electrons v n * gas_ev K p))) /\
    validate (v_names v) (v_charge v) (state n (Rmax rho (3 / 2 * electrons v n * gas_ev K p))) = Ok tt.
Proof.
  intros I ND D F PP Ns Nr P.
  destruct (F t n rho (nth_error_In _ _ Ns)) as [L _].
  destruct (restart_round_trip K model v p e t n rho I ND D L P) as (row' & d & te & A & B & C & G).
  exists d, te. replace row with row'; [tauto|].
  unfold post_process in PP. destruct (raise_if _ _) as [[]|]; cbn [bind] in PP; [|discriminate].
  apply mapM_Ok_inv in PP. clear -PP Ns Nr A.
  revert i rows PP Ns Nr. induction sol as [|x sol IH]; intros i rows PP Ns Nr; [destruct i; discriminate Ns|].
  inversion PP as [|? r ? rows' Q PP']; subst. destruct i as [|i]; cbn [nth_error] in Ns, Nr.
  - injection Ns as ->. injection Nr as <-. cbn [fst snd] in Q. congruence.
  - exact (IH i rows' PP' Ns Nr).
Qed.

(** ** Statements in full *)
Lemma table_stated K model v p e (sol : list (R * (list R * R))) :
  eq_init K model v p = Ok e -> NoDup (v_names v) ->
  (forall x, In x (v_names v) -> ~ In x reserved) ->
  List.length (v_names v) <> 1%nat -> List.length (v_names v) <> 0%nat -> List.length (v_a v) <> 1%nat ->
  (forall t n rho, In (t, (n, rho)) sol -> List.length n = List.length (v_names v) /\ electrons v n <> 0) ->
  post_process General (st e) (v_names v) (map (fun x => (X (fst x), state (fst (snd x)) (snd (snd x)))) sol) =
  Ok (map (fun x => let '(t, (n, rho)) := x in
    (("t"%string, X t) :: combine (v_names v) (map X n) ++
     [("e"%string, X (electrons v n)); ("Te"%string, X (Rmax (rho / electrons v n * 2 / 3) (gas_ev K p)));
      ("Tg"%string, X (p_temp p)); ("p"%string, X (c_k K * p_temp p * Sum (List.length (v_names v)) (el n)))])%list) sol).
Proof.
  intros I ND D A B C F. rewrite (solution_reported K model v p e sol I ND D A B C F). f_equal. apply map_ext. intros [t [n rho]].
  reflexivity.
Qed.

Lemma neutral_unfed names p :
  names <> [] -> (forall n, In n names -> InitialGuess.feed_of (gp_feeds p) n == 0)%Q ->
  (qsum (fst (n_build_y0 names p)) == gas_density p)%Q /\
  Forall (fun q => q * inject_Z (Z.of_nat (List.length names)) == gas_density p)%Q (fst (n_build_y0 names p)).
Proof.
  intros NE Z. assert (FN : forall n, In n names -> (0 <= InitialGuess.feed_of (gp_feeds p) n)%Q) by (intros n I; rewrite (Z n I); apply Qle_refl).
  destruct (neutral_total_unfed names (gp_feeds p) (gas_density p) FN NE Z) as [A B]. split; [exact A|].
  unfold n_build_y0. cbn [fst]. apply Forall_forall. intros q I. apply in_map_iff in I as (n & <- & I). exact (B n I).
Qed.
Lemma neutral_start_valid names p : n_validate_y0 names (n_build_y0 names p) = Ok tt /\ snd (n_build_y0 names p) = 0%Q.
Proof. split; [|reflexivity]. unfold n_validate_y0, n_build_y0. cbn [fst]. rewrite map_length, Nat.eqb_refl. reflexivity. Qed.

Lemma fresh_results K model v p e names charges o te d b b' :
  eq_init K model v p = Ok e -> run General (MkSetting (Ok e) names charges o) te d b = (b', Ok tt) ->
  exists sol rows, o = SolverDone true sol /\ bk_succeeded b' = Ok true /\
    post_process General (st e) names sol = Ok rows /\ bk_solution b' = Ok rows /\
    bk_rates General b' = Ok (map (fun ty => snd (get_reaction_rates (snd ty) None None None None e)) sol).
Proof.
  intros I R. destruct (served_rates K model v p (MkSetting (Ok e) names charges o) te d b b' e eq_refl I R) as (sol & O & RT).
  destruct (run_ok _ _ _ _ _ _ R) as (e' & sol' & rows & SE & SO & PP & ->). cbn [se_eq se_out se_names] in *. injection SE as <-.
  rewrite O in SO. injection SO as <-. exists sol, rows. repeat split; assumption.
Qed.

Lemma some_run cl e0 (l : list (setting * (ext * list (string * ext)))) rows :
  bk_solution (fold_left (fun b a => fst (run cl (fst a) (fst (snd a)) (snd (snd a)) b)) l (MkBackend e0 None None None)) = Ok rows ->
  exists w e ok sol, In w (map fst l) /\ se_eq w = Ok e /\ se_out w = SolverDone ok sol /\ post_process cl (st e) (se_names w) sol = Ok rows.
Proof.
  intros H. change (bk_solution (attempts cl (unsolved e0) l) = Ok rows) in H. unfold bk_solution in H.
  destruct (bk_primary _); [|discriminate]. destruct (bk_secondary _) as [r|] eqn:Q; [|discriminate]. injection H as ->.
  destruct (rows_from cl l e0 rows Q) as (pre & a & post & -> & (e & ok & sol & A & B & C)).
  exists (fst a), e, ok, sol. split; [|auto]. rewrite map_app. apply in_or_app. right. left. reflexivity.
Qed.

Lemma electron_positive : exists E objs rxs c v K p e r0 r1 n rs,
  reachable E c /\ ConserveSpec.objects E objs rxs c /\ c_kind c = Chemistry.Neutral /\ view_of E objs c = Ok v /\ neutral_init K Combined v p = Ok e /\
  get_reactions c false = [r0; r1] /\ LinkSpec.occurrences "e" (rx_lhs r0) = 1%Z /\
  report_density NeutralOnly (st e) (state n 0) = X 0 /\
  n_rates (state n 0) None None None None e = (e, map X rs) /\ List.length rs = 2%nat /\ 0 < el rs 0.
Proof.
  destruct (electron_runs Combined) as (r0 & r1 & e & A & B & C & D & F & V & I).
  assert (P0 : 0 < el n1 0) by (unfold el, n1; cbn; lra). assert (P1 : 0 < el n1 1) by (unfold el, n1; cbn; lra).
  destruct (electron_rate Combined n1 0 e I eq_refl P0 P1) as (rs & H1 & H2 & H3 & H4).
  exists MolExamples.E1, objsE, rxsE, cE, vE, K1, parB, e, r0, r1, n1, rs.
  split; [exact A|]. split; [exact B|]. split; [exact C|]. split; [exact V|]. split; [exact I|]. split; [exact D|]. split; [exact F|].
  split; [exact H4|]. split; [exact H1|]. split; [exact H2|exact H3].
Qed.
