(** Parts of the right-hand side, where it is finite and where it is not. *)
From Coq Require Import Reals Qreals Lra.
From Verif Require Import Base BaseLemmas Morris Tables ExtReal Equations EqSpec EqPure EqDefaults EqPower EqReal EqFlow EqFloors EqWall.
Open Scope R_scope.

Lemma inv_vec K model v p e m l : eq_init K model v p = Ok e -> snd (mapA AVec m e) = AVec l -> value m (st e) = l.
Proof. intros H A. rewrite mapA_answer in A. apply AVec_inj in A. rewrite <- (fresh_value _ _ _ _ _ _ H). exact A. Qed.

(** ** Volumetric sources of given rates *)

Lemma volume_exact K model v p e y rs : eq_init K model v p = Ok e -> List.length rs = List.length (v_a v) ->
  exists ss, List.length ss = List.length (v_names v) /\ answers e (CVolume y (Some (map X rs))) (AVec (map X ss)) /\
    forall i, (i < List.length ss)%nat ->
      el ss i = Sum (List.length rs) (fun j => IZR (nth i (nth j (v_net v) []) 0%Z) * el rs j).
Proof.
  intros H L. pose proof (init_built _ _ _ _ _ H) as B.
  exists (tab (List.length (v_names v)) (fun i => Sum (List.length rs) (fun j => IZR (nth i (nth j (v_net v) []) 0%Z) * el rs j))).
  rewrite length_tab. split; [reflexivity|]. split; [|intros i Li; apply el_tab; exact Li].
  unfold answers. cbn [perform]. rewrite mapA_answer. f_equal. rewrite (fresh_value _ _ _ _ _ _ H).
  unfold get_volumetric_source_rates. vb. unfold ns, nr. rewrite (b_ns _ _ _ _ _ B), (b_nr _ _ _ _ _ B), <- L, <- tab_real.
  apply tab_ext. intros i Li. rewrite <- xsum_tab. f_equal. apply tab_ext. intros j Lj.
  rewrite at_map by exact Lj. unfold net, mat. rewrite (b_view _ _ _ _ _ B). reflexivity.
Qed.

(** ** The derivative is the sum of the parts *)

Lemma rhs_parts K model v p e t y a b c d i : eq_init K model v p = Ok e ->
  answers e (CVolume y None) (AVec a) -> answers e (CFlow y None None) (AVec b) ->
  answers e (CSurface y None None) (AVec c) -> answers e (CMinN y None) (AVec d) ->
  (i < List.length (v_names v))%nat ->
  forall dy, answers e (CObj t y) (AVecR (Ok dy)) ->
  nth i dy XNaN = xadd (xadd (xadd (nth i a XNaN) (nth i b XNaN)) (nth i c XNaN)) (nth i d XNaN).
Proof.
  intros H A1 A2 A3 A4 Li dy A. pose proof (init_built _ _ _ _ _ H) as B.
  unfold answers in *. cbn [perform] in *.
  apply (inv_vec _ _ _ _ _ _ _ H) in A1, A3. cbn [asks snd] in A2, A4. apply AVec_inj in A2, A4.
  rewrite mapA_answer in A. apply AVecR_inj in A. rewrite (fresh_value _ _ _ _ _ _ H), obj_value in A. unfold dy0 in A. destruct (drho0 (st e) y t) as [r|]; cbn [bind] in A; [|discriminate A].
  injection A as <-.
  assert (Ns : ns (st e) = List.length (v_names v)) by apply (b_ns _ _ _ _ _ B).
  assert (Ld : List.length (dn0 (st e) y) = List.length (v_names v)).
  { unfold dn0, get_dn_dt. vb. rewrite length_tab. exact Ns. }
  rewrite app_nth1 by lia. rewrite <- dn_default. unfold get_dn_dt. vb. rewrite Ns, nth_tab by exact Li.
  unfold opt. rewrite A1, A2, A3, A4. reflexivity.
Qed.

Lemma rhs_length K model v p e t y dy : eq_init K model v p = Ok e ->
  answers e (CObj t y) (AVecR (Ok dy)) -> List.length dy = Datatypes.S (List.length (v_names v)).
Proof.
  intros H A. pose proof (init_built _ _ _ _ _ H) as B.
  unfold answers in *. cbn [perform] in *. rewrite mapA_answer in *. apply AVecR_inj in A.
  rewrite (fresh_value _ _ _ _ _ _ H), obj_value in A. unfold dy0 in A.
  destruct (drho0 (st e) y t) as [r|]; cbn [bind] in A; [|discriminate A]. injection A as <-.
  rewrite app_length. unfold dn0, get_dn_dt. vb. rewrite length_tab. unfold ns. rewrite (b_ns _ _ _ _ _ B). cbn [List.length]. lia.
Qed.

(** ** Finite numbers *)

Definition fin (x : ext) : Prop := exists r, x = X r.
Lemma fin_X r : fin (X r).
Proof. exists r. reflexivity. Qed.
Lemma fin_add x y : fin x -> fin y -> fin (xadd x y).
Proof. intros (a & ->) (b & ->). apply fin_X. Qed.
Lemma fin_sub x y : fin x -> fin y -> fin (xsub x y).
Proof. intros (a & ->) (b & ->). apply fin_X. Qed.
Lemma fin_mul x y : fin x -> fin y -> fin (xmul x y).
Proof. intros (a & ->) (b & ->). apply fin_X. Qed.
Lemma fin_div x b : fin x -> b <> 0 -> fin (xdiv x (X b)).
Proof. intros (a & ->) Z. rewrite xdiv_real by exact Z. apply fin_X. Qed.
Lemma fin_list l : Forall fin l -> exists r, l = map X r.
Proof. induction 1 as [|x l (a & ->) _ (r & ->)]; [exists []; reflexivity|exists (a :: r); reflexivity]. Qed.
Lemma fin_sum l : Forall fin l -> fin (xsum l).
Proof. intros F. destruct (fin_list l F) as (r & ->). rewrite xsum_real. apply fin_X. Qed.
Lemma fin_tab k f : (forall i, (i < k)%nat -> fin (f i)) -> Forall fin (tab k f).
Proof.
  intros H. apply Forall_forall. intros x I. unfold tab in I. apply in_map_iff in I. destruct I as (i & <- & I).
  apply in_seq in I. apply H. lia.
Qed.
Lemma fin_map {A} (f : A -> ext) l : (forall a, In a l -> fin (f a)) -> Forall fin (map f l).
Proof. intros H. apply Forall_forall. intros x I. apply in_map_iff in I. destruct I as (a & <- & I). apply H. exact I. Qed.

Lemma partner_pos K model v p s j : physical K -> proper_view v -> built K model v p s -> (j < List.length (v_a v))%nat ->
  elc s j = true -> els s j = true -> 0 < at_ (s_partner s) j.
Proof.
  intros PK PV B Lj E1 E2. pose proof (b_partner _ _ _ _ _ B) as Pm. apply mapM_Ok_inv in Pm.
  assert (G : forall l ps, Forall2 (fun a b => partner_mass v (s_mass s) a = Ok b) l ps -> forall i, (i < List.length l)%nat ->
     partner_mass v (s_mass s) (nth i l 0%nat) = Ok (nth i ps 0)).
  { clear. induction 1 as [|a b l ps E F IH]; intros i Li; cbn [List.length] in Li; [lia|]. destruct i; [exact E|]. apply IH. lia. }
  specialize (G _ _ Pm j). rewrite seq_length in G. specialize (G Lj). rewrite seq_nth in G by exact Lj. cbn [Nat.add] in G.
  unfold partner_mass in G. unfold elc, els, e_lhs in E1, E2. rewrite (b_view _ _ _ _ _ B) in E1, E2. rewrite E1, E2 in G. cbn [andb] in G.
  destruct (filter _ _) as [|i l] eqn:Fl; [discriminate G|]. injection G as G. unfold at_. rewrite <- G.
  assert (I : In i (i :: l)) by (left; reflexivity). rewrite <- Fl in I. apply filter_In in I. destruct I as [I _]. apply in_seq in I.
  destruct PV as (M & _). destruct PK as (_ & _ & _ & _ & A). unfold at_.
  assert (F : Forall (fun m => 0 < m) (s_mass s)).
  { rewrite (b_mass _ _ _ _ _ B). apply Forall_forall. intros x J. apply in_map_iff in J. destruct J as (m & <- & J).
    rewrite Forall_forall in M. apply Rmult_lt_0_compat; [apply M; exact J|exact A]. }
  apply (Forall_el _ _ i F). lia.
Qed.

Section Finite.
  Variables (K : constants) (model : dmodel) (v : view) (p : mparams) (e : equations).
  Hypothesis PK : physical K.
  Hypothesis PP : proper_params p.
  Hypothesis PV : proper_view v.
  Hypothesis H : eq_init K model v p = Ok e.
  Variables (n : list R) (rho : R).
  Hypothesis L : List.length n = List.length (v_names v).
  Hypothesis NN : all_nonneg n.
  Hypothesis EP : 0 < electrons v n.
  Hypothesis CO : collisional K v p n rho.
  Hypothesis AN : model = Combined -> forall i, (i < List.length n)%nat -> (charge_of v i < 0)%Z -> el (v_stick v) i <> 0.
  Hypothesis ND : neutral_density v n <> 0.
  Let s := st e.
  Let N := List.length (v_names v).
  Let y := state n rho.

  Lemma bs : built K model v p s.
  Proof. apply init_built. exact H. Qed.

  Lemma fin_rates j : (j < List.length (v_a v))%nat -> fin (xat (value (get_reaction_rates y None None None None) s) j).
  Proof.
    intros Lj. destruct (rates_exact K model v p e n rho PK PP H L) as (rs & Lr & A & _); [lra|].
    unfold answers in A. cbn [perform] in A. rewrite mapA_answer in A. apply AVec_inj in A. rewrite (fresh_value _ _ _ _ _ _ H) in A.
    unfold s, y. rewrite A, at_map by lia. apply fin_X.
  Qed.

  Lemma fin_surface i : (i < N)%nat -> fin (xat (value (get_diffusion_source_rates y None None) s) i).
  Proof.
    intros Li. destruct (fluxes_ok K model v p e n rho) as (ws & Lw & A & _); try assumption.
    assert (Lw' : List.length ws = List.length (v_names v)) by lia.
    destruct (surface_exact K model v p e (state n rho) ws PP H Lw' A) as (ss & Ls & As & _).
    unfold answers in As. cbn [perform] in As. rewrite mapA_answer in As. apply AVec_inj in As. rewrite (fresh_value _ _ _ _ _ _ H) in As.
    unfold s, y. rewrite As, at_map by (unfold N in Li; lia). apply fin_X.
  Qed.

  Lemma fin_te : fin (get_electron_temperature s y None None).
  Proof. unfold s, y. rewrite (te_value _ _ _ _ _ _ _ bs L) by lra. apply fin_X. Qed.

  Lemma fin_dn : Forall fin (dn0 s y).
  Proof.
    rewrite <- dn_default. unfold get_dn_dt. vb. apply fin_tab. unfold ns. rewrite (b_ns _ _ _ _ _ bs). intros i Li.
    apply fin_add; [apply fin_add; [apply fin_add|apply fin_surface; exact Li]|].
    - unfold get_volumetric_source_rates. vb. rewrite xat_tab by (unfold ns; rewrite (b_ns _ _ _ _ _ bs); exact Li).
      apply fin_sum, fin_tab. unfold nr. rewrite (b_nr _ _ _ _ _ bs). intros j Lj. apply fin_mul; [apply fin_X|apply fin_rates; exact Lj].
    - unfold opt, s, y. rewrite (flow_value K model v p e PP H n rho L ND). rewrite at_map by (rewrite length_tab; exact Li). apply fin_X.
    - unfold opt, get_min_n_correction. rewrite xat_tab by (unfold ns; rewrite (b_ns _ _ _ _ _ bs); exact Li).
      unfold opt, y. rewrite state_density, at_map by (rewrite L; exact Li). rewrite correction_exact. apply fin_X.
  Qed.

  Lemma fin_sheath : fin (get_sheath_voltage s y None).
  Proof.
    unfold get_sheath_voltage, opt. apply fin_mul; [apply fin_te|].
    unfold sheath_voltage_factor, mean_ion_mass, species, ns. rewrite (b_ns _ _ _ _ _ bs).
    pose proof (some_positive K model v p s bs n L NN EP) as Ne.
    set (l := map (mass s) (filter (positive s) (seq 0 (List.length (v_names v))))).
    assert (Nl : l <> []) by (unfold l; destruct (filter (positive s) (seq 0 (List.length (v_names v)))); [congruence|discriminate]).
    assert (Pl : Forall (fun x => 0 < x) l).
    { apply Forall_forall. intros x I. apply in_map_iff in I. destruct I as (i & <- & I). apply filter_In in I. destruct I as [I _].
      apply in_seq in I. rewrite (s_mass_of _ _ _ _ _ bs) by lia. apply (mass_pos K model v p s PK PV bs). lia. }
    assert (E : xmean (map (fun i => X (mass s i)) (filter (positive s) (seq 0 (List.length (v_names v))))) = X (rsum l / INR (List.length l))).
    { rewrite <- (map_map (mass s) X). fold l. unfold xmean. destruct (map X l) as [|a b] eqn:M; [destruct l; [congruence|discriminate M]|].
      rewrite <- M, xsum_real, map_length. apply xdiv_real. apply Rgt_not_eq, lt_0_INR. destruct l; [congruence|cbn; lia]. }
    rewrite E. rewrite (b_const _ _ _ _ _ bs). destruct PK as (_ & _ & Me & _). pose proof PI_RGT_0.
    assert (0 < 2 * PI * c_me K) by (apply Rmult_lt_0_compat; lra).
    assert (0 < rsum l / INR (List.length l)).
    { apply Rdiv_lt_0_compat; [apply rsum_pos; assumption|]. apply lt_0_INR. destruct l; [congruence|cbn; lia]. }
    assert (0 < rsum l / INR (List.length l) / (2 * PI * c_me K)) by (apply Rdiv_lt_0_compat; assumption).
    rewrite xdiv_real by lra. rewrite xsqrt_real by lra. rewrite xlog_real by (apply sqrt_lt_R0; assumption). apply fin_X.
  Qed.

  Lemma fin_losses j : (j < List.length (v_a v))%nat -> fin (xat (value (get_el_en_losses y None) s) j).
  Proof.
    intros Lj. rewrite value_def. unfold get_el_en_losses. cbn [st ca snd opt]. unfold nr. rewrite (b_nr _ _ _ _ _ bs), xat_tab by exact Lj.
    destruct (elc s j) eqn:E1; [destruct (els s j) eqn:E2|]; cbn [andb].
    - unfold elastic_loss. pose proof (partner_pos _ _ _ _ _ _ PK PV bs Lj E1 E2) as Pp.
      apply fin_mul; [apply fin_div; [apply fin_X|lra]|]. apply fin_sub; [apply fin_te|apply fin_X].
    - cbn [init_cache el_en_loss]. rewrite (b_view _ _ _ _ _ bs), at_map; [apply fin_X|].
      rewrite (h_loss _ (shapes_iff _ (b_shapes _ _ _ _ _ bs))). exact Lj.
    - cbn [init_cache el_en_loss]. rewrite (b_view _ _ _ _ _ bs), at_map; [apply fin_X|].
      rewrite (h_loss _ (shapes_iff _ (b_shapes _ _ _ _ _ bs))). exact Lj.
  Qed.

  Lemma fin_rho t : List.length (p_power p) = List.length (p_times p) -> (0 <= t <= p_t_end p)%Q ->
    exists r, drho0 s y t = Ok r /\ fin r.
  Proof.
    intros Lp T. pose proof bs as B. pose proof PP as (_ & _ & _ & _ & Te).
    destruct (power_between K model v p e t H Lp Te T) as (q & Q & _).
    unfold drho0, get_drho_dt_ext. fold s in Q. rewrite Q. cbn [bind]. eexists. split; [reflexivity|].
    pose proof (volume_pos p PP). pose proof PK as (_ & ec & _).
    rewrite (s_volume _ _ _ _ _ B), (b_const _ _ _ _ _ B).
    apply fin_add; [apply fin_sub; [apply fin_sub; [apply fin_sub; [apply fin_sub|]|]|]|].
    - apply fin_div; [apply fin_div; [apply fin_X|lra]|lra].
    - rewrite <- inel_default. unfold get_drho_dt_el_inel. vb. apply fin_sum, fin_map. intros j I. apply filter_In in I. destruct I as [I _].
      unfold reactions, nr in I. rewrite (b_nr _ _ _ _ _ B) in I. apply in_seq in I. apply fin_mul; [apply fin_losses; lia|apply fin_rates; lia].
    - rewrite <- gain_default. unfold get_drho_dt_gain_loss. vb. unfold opt. apply fin_mul; [apply fin_mul; [apply fin_X|apply fin_te]|].
      apply fin_sum, fin_tab. unfold nr. rewrite (b_nr _ _ _ _ _ B). intros j Lj. apply fin_mul; [apply fin_X|apply fin_rates; exact Lj].
    - rewrite <- el_walls_default. unfold get_drho_dt_el_walls. vb. unfold opt. apply fin_mul; [apply fin_mul; [apply fin_X|apply fin_te]|].
      apply fin_sum, fin_tab. unfold ns. rewrite (b_ns _ _ _ _ _ B). intros i Li. apply fin_mul; [apply fin_X|apply fin_surface; exact Li].
    - rewrite <- ions_default. unfold get_drho_dt_ions_walls. vb. unfold opt. cbv zeta. unfold species, ns. rewrite (b_ns _ _ _ _ _ B).
      apply fin_sub; (apply fin_mul; [|apply fin_sum, fin_map; intros i I; apply filter_In in I; destruct I as [I _]; apply in_seq in I]).
      + apply fin_mul; [apply fin_X|apply fin_te].
      + apply fin_surface. unfold N. lia.
      + apply fin_sheath.
      + apply fin_mul; [apply fin_X|]. apply fin_surface. unfold N. lia.
    - unfold cor_rho0, get_min_rho_correction, opt, y. rewrite state_rho, correction_exact. apply fin_X.
  Qed.
End Finite.

(** The right-hand side is a vector of numbers on every plasma state. *)
Lemma rhs_finite K model v p e n rho t : physical K -> proper_params p -> proper_view v -> eq_init K model v p = Ok e ->
  List.length n = List.length (v_names v) -> all_nonneg n -> 0 < electrons v n -> collisional K v p n rho ->
  (model = Combined -> forall i, (i < List.length n)%nat -> (charge_of v i < 0)%Z -> el (v_stick v) i <> 0) ->
  neutral_density v n <> 0 ->
  List.length (p_power p) = List.length (p_times p) -> (0 <= t <= p_t_end p)%Q ->
  exists ds, List.length ds = Datatypes.S (List.length n) /\ answers e (CObj t (state n rho)) (AVecR (Ok (map X ds))).
Proof.
  intros PK PP PV H L NN EP CO AN ND Lp T.
  destruct (fin_rho K model v p e PK PP PV H n rho L NN EP CO AN t Lp T) as (r & R & (q & ->)).
  destruct (fin_list _ (fin_dn K model v p e PK PP PV H n rho L NN EP CO AN ND)) as (d & D).
  assert (A : answers e (CObj t (state n rho)) (AVecR (Ok (map X (d ++ [q])%list)))).
  { unfold answers. cbn [perform]. rewrite mapA_answer. f_equal. rewrite (fresh_value _ _ _ _ _ _ H), obj_value.
    unfold dy0. rewrite R. cbn [bind]. rewrite D, map_app. reflexivity. }
  exists (d ++ [q])%list. split; [|exact A]. pose proof (rhs_length _ _ _ _ _ _ _ _ H A) as E. rewrite map_length in E. lia.
Qed.

(** ** Energy lost in elastic collisions *)
Lemma elastic_nonneg K model v p e n rho j : physical K -> proper_params p -> proper_view v -> eq_init K model v p = Ok e ->
  List.length n = List.length (v_names v) -> electrons v n <> 0 -> (j < List.length (v_a v))%nat ->
  (0 < nth j (v_e_lhs v) 0%Z)%Z -> nth j (v_elastic v) false = true ->
  exists ls l, answers e (CLosses (state n rho) None) (AVec ls) /\ nth j ls XNaN = X l /\ 0 <= l.
Proof.
  intros PK PP PV H L NZ Lj E1 E2. pose proof (init_built _ _ _ _ _ H) as B.
  apply Z.ltb_lt in E1.
  assert (C1 : elc (st e) j = true) by (unfold elc, e_lhs, zat; rewrite (b_view _ _ _ _ _ B); exact E1).
  assert (C2 : els (st e) j = true) by (unfold els, bat; rewrite (b_view _ _ _ _ _ B); exact E2).
  pose proof (partner_pos _ _ _ _ _ _ PK PV B Lj C1 C2) as Pp.
  eexists. exists (3 * c_me K / at_ (s_partner (st e)) j * (electron_ev K v p n rho - gas_ev K p)). split; [|split].
  - unfold answers. cbn [perform]. rewrite mapA_answer, (fresh_value _ _ _ _ _ _ H). reflexivity.
  - rewrite value_def. unfold get_el_en_losses. cbn [st ca snd opt]. unfold nr. rewrite (b_nr _ _ _ _ _ B), nth_tab by exact Lj.
    rewrite C1, C2. cbn [andb]. unfold elastic_loss. rewrite (te_value _ _ _ _ _ _ _ B L NZ), (b_const _ _ _ _ _ B), (s_gas _ _ _ _ _ B).
    rewrite xdiv_real by lra. reflexivity.
  - destruct PK as (_ & _ & Me & _). pose proof (Rmax_r (rho / electrons v n * 2 / 3) (gas_ev K p)) as M. fold (electron_ev K v p n rho) in M.
    apply Rmult_le_pos; [|lra]. left. apply Rdiv_lt_0_compat; lra.
Qed.

(** ** A single species *)

Lemma single_nan K v p e n0 rho : physical K -> proper_params p -> proper_view v -> eq_init K Combined v p = Ok e ->
  List.length (v_names v) = 1%nat -> charge_of v 0 = 0%Z ->
  forall t dy, answers e (CObj t (state [n0] rho)) (AVecR (Ok dy)) -> nth 0 dy (X 0) = XNaN.
Proof.
  intros PK PP PV H N1 C t dy A. pose proof (init_built _ _ _ _ _ H) as B. set (y := state [n0] rho) in *.
  unfold answers in A. cbn [perform] in A. rewrite mapA_answer in A. apply AVecR_inj in A.
  rewrite (fresh_value _ _ _ _ _ _ H), obj_value in A. unfold dy0 in A.
  destruct (drho0 (st e) y t) as [r|]; cbn [bind] in A; [|discriminate A]. injection A as <-.
  assert (Ns : ns (st e) = 1%nat) by (unfold ns; rewrite (b_ns _ _ _ _ _ B); exact N1).
  assert (Ld : List.length (dn0 (st e) y) = 1%nat) by (unfold dn0, get_dn_dt; vb; rewrite length_tab; exact Ns).
  rewrite app_nth1 by lia. rewrite (nth_indep _ (X 0) XNaN) by lia.
  rewrite <- dn_default. unfold get_dn_dt. vb. rewrite Ns, nth_tab by lia.
  assert (Sg : mat XNaN (value (get_sigma_sc y None None) (st e)) 0 0 = X 0).
  { rewrite sigma_default. unfold sigma0. rewrite value_def. unfold get_sigma_sc, optM, bindM, ret_. cbn [st ca snd].
    rewrite Ns, mat_tab by lia. reflexivity. }
  assert (Mp : xat (value (get_mean_free_paths y None None) (st e)) 0 = XInf).
  { unfold get_mean_free_paths. vb. rewrite Ns, xat_tab by lia. unfold tab. cbn [seq map]. rewrite Sg. unfold opt, y. rewrite state_density.
    unfold xat. cbn [map nth xsum fold_left xmul xadd]. unfold xsum. cbn [fold_left xadd]. unfold xdiv.
    destruct (Req_EM_T (0 + n0 * 0) 0) as [_|F]; [rewrite Rsgn_pos by lra; reflexivity|exfalso; apply F; ring]. }
  assert (M0 : 0 < mass (st e) 0).
  { rewrite (s_mass_of _ _ _ _ _ B) by lia. apply (mass_pos K Combined v p (st e) PK PV B). lia. }
  assert (V0 : exists w, 0 < w /\ xat (value (get_mean_speeds y None) (st e)) 0 = X w).
  { exists (sqrt (8 * c_k K * p_temp p / (PI * mass (st e) 0))). pose proof PK as (k & _). pose proof PP as (T & _). pose proof PI_RGT_0.
    assert (0 < PI * mass (st e) 0) by (apply Rmult_lt_0_compat; lra).
    assert (0 < 8 * c_k K * p_temp p / (PI * mass (st e) 0)) by (apply Rdiv_lt_0_compat; [apply Rmult_lt_0_compat; lra|lra]).
    split; [apply sqrt_lt_R0; assumption|].
    rewrite value_def. unfold get_mean_speeds. cbn [st ca snd]. rewrite Ns, xat_tab by lia. rewrite (s_neutral _ _ _ _ _ _ B), C. cbn [Z.eqb].
    cbn [init_cache v_m]. change (s_ns (st e)) with (ns (st e)). rewrite Ns, xat_tab by lia. rewrite (s_neutral _ _ _ _ _ _ B), C. cbn [Z.eqb].
    unfold neutral_speed, temp_g. rewrite (b_const _ _ _ _ _ B), (b_par _ _ _ _ _ B). rewrite xdiv_real by lra. apply xsqrt_real. lra. }
  destruct V0 as (w & Wp & V0).
  assert (Df : xat (value (get_diffusivities y None None None) (st e)) 0 = XInf).
  { unfold get_diffusivities. vb. rewrite Ns, xat_tab by lia. rewrite (s_neutral _ _ _ _ _ _ B), C. cbn [Z.eqb].
    unfold get_free_diffusivities. vb. rewrite Ns, xat_tab by lia. rewrite Mp, V0. pose proof PI_RGT_0.
    cbn [xmul]. rewrite (Rsgn_pos (PI / 8)) by lra. cbn [by_sign xmul]. rewrite Rsgn_pos by exact Wp. reflexivity. }
  assert (W : xat (value (get_wall_fluxes y None None None) (st e)) 0 = XNaN).
  { unfold get_wall_fluxes. vb. rewrite Ns, xat_tab by lia. rewrite Df, V0. unfold opt, y. rewrite state_density.
    unfold wall_flux. rewrite (b_model _ _ _ _ _ B). unfold xat. cbn [map nth xopp xmul xdiv xadd].
    rewrite (Rsgn_pos 4) by lra. cbn [by_sign xdiv]. rewrite (Rsgn_pos w) by exact Wp. cbn [by_sign].
    destruct (Rsgn n0); cbn [by_sign xmul xadd xdiv]; try reflexivity; destruct (Rsgn (stick (st e) 0)); reflexivity. }
  assert (D : xat (value (get_diffusion_sinks y None) (st e)) 0 = XNaN).
  { unfold get_diffusion_sinks. vb. rewrite Ns, xat_tab by lia. rewrite W. reflexivity. }
  assert (S : xat (value (get_diffusion_source_rates y None None) (st e)) 0 = XNaN).
  { unfold get_diffusion_source_rates. vb. rewrite Ns, xat_tab by lia. rewrite D. apply xadd_nan_l. }
  rewrite S, xadd_nan_r. apply xadd_nan_l.
Qed.

(** The right-hand side has a value at every time of the simulation. *)
Lemma rhs_answers K model v p e t y : eq_init K model v p = Ok e -> List.length (p_power p) = List.length (p_times p) ->
  (0 < p_t_end p)%Q -> (0 <= t <= p_t_end p)%Q -> exists dy, answers e (CObj t y) (AVecR (Ok dy)).
Proof.
  intros H Lp Te T. destruct (power_between K model v p e t H Lp Te T) as (q & Q & _).
  eexists. unfold answers. cbn [perform]. rewrite mapA_answer. rewrite (fresh_value _ _ _ _ _ _ H), obj_value.
  unfold dy0, drho0, get_drho_dt_ext. rewrite Q. cbn [bind]. reflexivity.
Qed.

(** Temperatures, speeds and cross-sections, exactly. *)
Lemma transport_exact K model v p e n rho : physical K -> proper_params p -> proper_view v -> eq_init K model v p = Ok e ->
  List.length n = List.length (v_names v) -> 0 < electrons v n ->
  answers e (CIonTemp (state n rho) None) (ANum (X (ion_temperature K v p n))) /\
  answers e (CDebye (state n rho) None None) (ANum (X (debye_length K v p n rho))) /\
  answers e (CSpeeds (state n rho) None) (AVec (map X (map (speed K v p n) (seq 0 (List.length n))))) /\
  (exists m, answers e (CSigma (state n rho) None None) (AMat m) /\
     forall i k, (i < List.length n)%nat -> (k < List.length n)%nat -> nth k (nth i m []) XNaN = X (cross_section K v p n rho i k)) /\
  0 < ion_temperature K v p n /\ 0 < debye_length K v p n rho /\ forall i, (i < List.length n)%nat -> 0 < speed K v p n i.
Proof.
  intros PK PP PV H L EP. pose proof (init_built _ _ _ _ _ H) as B.
  split; [|split; [|split; [|split; [|split; [|split]]]]].
  - unfold answers. cbn [perform asks snd]. f_equal. apply (ti_value K model v p (st e) B n rho L).
  - unfold answers. cbn [perform asks snd]. f_equal. apply (debye_value K model v p (st e) PK PP B n rho L EP).
  - unfold answers. cbn [perform]. rewrite mapA_answer. f_equal. rewrite (fresh_value _ _ _ _ _ _ H), L.
    apply (v_value K model v p (st e) PK PP PV B n rho L).
  - eexists. split; [unfold answers; cbn [perform]; rewrite mapA_answer, (fresh_value _ _ _ _ _ _ H); reflexivity|].
    rewrite L. intros i k Li Lk. apply (sigma_at K model v p (st e) PK PP PV B n rho L EP i k Li Lk).
  - apply ion_temperature_pos; assumption.
  - apply debye_pos; assumption.
  - intros i Li. apply (speed_pos K model v p (st e)); try assumption. lia.
Qed.

(** [get_dy_dt] and the optimised right-hand side agree. *)
Lemma rhs_same K model v p e t y : eq_init K model v p = Ok e ->
  snd (perform (CObj t y) e) = snd (perform (CDy t y None None) e).
Proof.
  intros H. cbn [perform]. rewrite !mapA_answer, !(fresh_value _ _ _ _ _ _ H), obj_value, dy_value. reflexivity.
Qed.

(** Flow: what a user sees. *)
Lemma flow_balance K model v p e n rho : proper_params p -> eq_init K model v p = Ok e ->
  List.length n = List.length (v_names v) -> all_nonneg n -> 0 < neutral_density v n ->
  exists fs, List.length fs = List.length n /\ answers e (CFlow (state n rho) None None) (AVec (map X fs)) /\
    (pressure_of K v p n = p_pressure p -> Sum (List.length n) (el fs) = 0) /\
    (pressure_of K v p n > p_pressure p -> Sum (List.length n) (el fs) < 0) /\
    (pressure_of K v p n < p_pressure p -> Sum (List.length n) (el fs) > 0) /\
    forall i, (i < List.length n)%nat -> charge_of v i <> 0%Z -> feed_of v p i = 0 -> el fs i = 0.
Proof.
  intros PP H L NN ND. destruct (flow_exact K model v p e n rho PP H L) as (fs & Lf & A & C & _ & T); [lra|].
  exists fs. rewrite Lf, <- L in *. split; [reflexivity|]. split; [exact A|]. rewrite T.
  destruct PP as (_ & _ & _ & P0 & _).
  set (P := pressure_of K v p n). set (D := neutral_density v n) in *.
  assert (E : - (1000 * D * (P - p_pressure p) / p_pressure p) = (1000 * D / p_pressure p) * (p_pressure p - P)) by (field; lra).
  assert (G : 0 < 1000 * D / p_pressure p) by (apply Rdiv_lt_0_compat; lra).
  rewrite E. split; [intros ->; ring|]. split; [intros; nra|]. split; [intros; nra|].
  intros i Li Ci Fi. rewrite C by assumption. unfold inflow_of. rewrite Fi. unfold Rdiv. ring.
Qed.

(** Power at the knots and in between, through the public method. *)
Lemma power_answers K model v p e t : eq_init K model v p = Ok e -> List.length (p_power p) = List.length (p_times p) ->
  (0 < p_t_end p)%Q -> (0 <= t <= p_t_end p)%Q ->
  exists q, answers e (CPower t) (APower (Ok q)) /\ on_polygon (s_tpow (st e)) (p_power p) t q.
Proof.
  intros H Lp Te T. destruct (power_between K model v p e t H Lp Te T) as (q & Q & O).
  exists q. split; [|exact O]. unfold answers. cbn [perform asks snd]. rewrite Q. reflexivity.
Qed.
Lemma power_at K model v p e i : eq_init K model v p = Ok e -> List.length (p_power p) = List.length (p_times p) ->
  (i < List.length (p_times p))%nat ->
  exists q, answers e (CPower (nth i (s_tpow (st e)) 0%Q)) (APower (Ok q)) /\ (q == nth i (p_power p) 0)%Q.
Proof.
  intros H Lp Li. destruct (power_knots K model v p e i H Lp Li) as (q & Q & O).
  exists q. split; [|exact O]. unfold answers. cbn [perform asks snd]. rewrite Q. reflexivity.
Qed.
