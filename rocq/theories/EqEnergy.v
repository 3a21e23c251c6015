(** The energy equation, exactly. *)
From Coq Require Import Reals Qreals Lra.
From Verif Require Import Base BaseLemmas Morris Tables ExtReal Equations EqSpec EqPure EqDefaults EqPower EqReal EqFlow EqFloors EqWall EqMore EnergySpec.
Open Scope R_scope.

Section Energy.
  Variables (K : constants) (model : dmodel) (v : view) (p : mparams) (e : equations).
  Hypothesis PK : physical K.
  Hypothesis PP : proper_params p.
  Hypothesis PV : proper_view v.
  Hypothesis H : eq_init K model v p = Ok e.
  Variables (n : list R) (rho : R).
  Hypothesis L : List.length n = List.length (v_names v).
  Hypothesis NN : all_nonneg n.
  Hypothesis EP : 0 < electrons v n.
  Let s := st e.
  Let y := state n rho.
  Let B : built K model v p s := init_built K model v p e H.

  Lemma s_positive i : positive s i = Z.ltb 0 (charge_of v i).
  Proof. unfold positive. rewrite (s_charge _ _ _ _ _ _ B). reflexivity. Qed.

  Lemma sum_positive f : rsum (map f (filter (positive s) (seq 0 (List.length (v_names v))))) =
    Sum (List.length (v_names v)) (fun i => if Z.ltb 0 (charge_of v i) then f i else 0).
  Proof. rewrite rsum_filter, Sum_rsum. apply rsum_map_ext. intros i _. rewrite s_positive. reflexivity. Qed.

  Lemma sheath_exact : sheath_voltage_factor s = X (sheath_factor K v).
  Proof.
    unfold sheath_voltage_factor, mean_ion_mass, species, ns. rewrite (b_ns _ _ _ _ _ B).
    pose proof (some_positive K model v p s B n L NN EP) as Ne.
    set (F := filter (positive s) (seq 0 (List.length (v_names v)))) in *.
    assert (C : ion_count v = INR (List.length F)).
    { unfold ion_count. rewrite <- (sum_positive (fun _ => 1)). fold F. clear. induction F as [|a l IH]; [reflexivity|].
      cbn [map List.length]. rewrite S_INR, <- IH. change (rsum (1 :: map (fun _ => 1) l)) with (1 + rsum (map (fun _ : nat => 1) l)). ring. }
    assert (P : 0 < INR (List.length F)) by (apply lt_0_INR; destruct F; [congruence|cbn; lia]).
    assert (M : rsum (map (mass s) F) = ion_mass K v * INR (List.length F)).
    { unfold ion_mass. rewrite C. unfold F at 1. rewrite sum_positive.
      rewrite (Sum_ext _ _ (fun i => if Z.ltb 0 (charge_of v i) then mass_of K v i else 0)); [field; lra|].
      intros i Li. rewrite (s_mass_of _ _ _ _ _ B) by exact Li. reflexivity. }
    assert (P2 : 0 < rsum (map (mass s) F)).
    { apply rsum_pos; [destruct F; [congruence|discriminate]|]. apply Forall_forall. intros x I. apply in_map_iff in I.
      destruct I as (i & <- & I). unfold F in I. apply filter_In in I. destruct I as [I _]. apply in_seq in I.
      rewrite (s_mass_of _ _ _ _ _ B) by lia. apply (mass_pos K model v p s PK PV B). lia. }
    assert (P3 : 0 < ion_mass K v). { rewrite M in P2. apply Rmult_lt_reg_r with (INR (List.length F)); lra. }
    assert (E : xmean (map (fun i => X (mass s i)) F) = X (ion_mass K v)).
    { rewrite <- (map_map (mass s) X). unfold xmean. destruct (map X (map (mass s) F)) as [|a b] eqn:Q.
      - destruct F; [congruence|discriminate Q].
      - rewrite <- Q, xsum_real, !map_length, xdiv_real by lra. rewrite M. f_equal. field. lra. }
    rewrite E, (b_const _ _ _ _ _ B). destruct PK as (_ & _ & Me & _). pose proof PI_RGT_0.
    assert (0 < 2 * PI * c_me K) by (apply Rmult_lt_0_compat; lra).
    assert (0 < ion_mass K v / (2 * PI * c_me K)) by (apply Rdiv_lt_0_compat; assumption).
    rewrite xdiv_real by lra. rewrite xsqrt_real by lra. rewrite xlog_real by (apply sqrt_lt_R0; assumption). reflexivity.
  Qed.

  Let te : R := electron_ev K v p n rho.
  Lemma te_is : get_electron_temperature s y None None = X te.
  Proof. apply (te_value _ _ _ _ _ _ _ B L). lra. Qed.

  Variables (ls rs ss : list R).
  Hypothesis AL : answers e (CLosses y None) (AVec (map X ls)).
  Hypothesis AR : answers e (CRates y None None None None) (AVec (map X rs)).
  Hypothesis AS : answers e (CSurface y None None) (AVec (map X ss)).

  Lemma vl : value (get_el_en_losses y None) s = map X ls.
  Proof. apply (inv_vec _ _ _ _ _ _ _ H). exact AL. Qed.
  Lemma vr : value (get_reaction_rates y None None None None) s = map X rs.
  Proof. apply (inv_vec _ _ _ _ _ _ _ H). exact AR. Qed.
  Lemma vs : value (get_diffusion_source_rates y None None) s = map X ss.
  Proof. apply (inv_vec _ _ _ _ _ _ _ H). exact AS. Qed.
  Lemma ll : List.length ls = List.length (v_a v).
  Proof.
    rewrite <- (map_length X), <- vl, value_def. unfold get_el_en_losses. cbn [st ca snd]. rewrite length_tab. unfold nr. apply (b_nr _ _ _ _ _ B).
  Qed.
  Lemma lr : List.length rs = List.length (v_a v).
  Proof.
    rewrite <- (map_length X), <- vr. unfold get_reaction_rates. vb. rewrite length_tab. unfold nr. apply (b_nr _ _ _ _ _ B).
  Qed.
  Lemma lss : List.length ss = List.length (v_names v).
  Proof.
    rewrite <- (map_length X), <- vs. unfold get_diffusion_source_rates. vb. rewrite length_tab. unfold ns. apply (b_ns _ _ _ _ _ B).
  Qed.

  Lemma inel_exact : value (get_drho_dt_el_inel y None None) s =
    X (Sum (List.length (v_a v)) (fun j => if Z.ltb 0 (nth j (v_e_lhs v) 0%Z) then el ls j * el rs j else 0)).
  Proof.
    unfold get_drho_dt_el_inel. vb. rewrite vl, vr. unfold reactions, nr. rewrite (b_nr _ _ _ _ _ B).
    rewrite (map_ext_in _ (fun j => X (el ls j * el rs j))).
    - rewrite <- (map_map (fun j => el ls j * el rs j) X), xsum_real. f_equal. rewrite rsum_filter, Sum_rsum. apply rsum_map_ext.
      intros j _. unfold elc, e_lhs, zat. rewrite (b_view _ _ _ _ _ B). reflexivity.
    - intros j I. apply filter_In in I. destruct I as [I _]. apply in_seq in I. rewrite !at_map by (rewrite ?ll, ?lr; lia). reflexivity.
  Qed.

  Lemma gain_exact : value (get_drho_dt_gain_loss y None None) s =
    X (3 / 2 * te * Sum (List.length (v_a v)) (fun j => IZR (nth j (v_e_net v) 0%Z) * el rs j)).
  Proof.
    unfold get_drho_dt_gain_loss. vb. rewrite vr. unfold opt. rewrite te_is. cbv zeta. unfold nr. rewrite (b_nr _ _ _ _ _ B).
    rewrite (tab_ext _ _ (fun j => X (IZR (nth j (v_e_net v) 0%Z) * el rs j))).
    - rewrite xsum_tab. reflexivity.
    - intros j Lj. rewrite at_map by (rewrite lr; exact Lj). unfold e_net, zat. rewrite (b_view _ _ _ _ _ B). reflexivity.
  Qed.

  Lemma el_walls_exact : value (get_drho_dt_el_walls y None None) s =
    X (-2 * te * Sum (List.length (v_names v)) (fun i => IZR (charge_of v i) * el ss i)).
  Proof.
    unfold get_drho_dt_el_walls. vb. rewrite vs. unfold opt. rewrite te_is. cbv zeta. unfold ns. rewrite (b_ns _ _ _ _ _ B).
    rewrite (tab_ext _ _ (fun i => X (IZR (charge_of v i) * el ss i))).
    - rewrite xsum_tab. reflexivity.
    - intros i Li. rewrite at_map by (rewrite lss; exact Li). rewrite (s_charge _ _ _ _ _ _ B). reflexivity.
  Qed.

  Lemma ions_exact : value (get_drho_dt_ions_walls y None None None) s =
    X (- (1 / 2) * te * Sum (List.length (v_names v)) (fun i => if Z.ltb 0 (charge_of v i) then el ss i else 0)
       - te * sheath_factor K v * Sum (List.length (v_names v)) (fun i => if Z.ltb 0 (charge_of v i) then IZR (charge_of v i) * el ss i else 0)).
  Proof.
    unfold get_drho_dt_ions_walls. vb. rewrite vs. unfold opt, get_sheath_voltage, opt. rewrite te_is, sheath_exact. cbv zeta.
    unfold species, ns. rewrite (b_ns _ _ _ _ _ B).
    assert (Lt : forall i, In i (filter (positive s) (seq 0 (List.length (v_names v)))) -> (i < List.length ss)%nat).
    { intros i I. apply filter_In in I. destruct I as [I _]. apply in_seq in I. rewrite lss. lia. }
    rewrite (map_ext_in (xat (map X ss)) (fun i => X (el ss i))) by (intros i I; apply at_map, Lt, I).
    rewrite (map_ext_in (fun i => xmul (X (IZR (charge s i))) (xat (map X ss) i)) (fun i => X (IZR (charge_of v i) * el ss i))).
    2:{ intros i I. rewrite at_map by (apply Lt, I). rewrite (s_charge _ _ _ _ _ _ B). reflexivity. }
    rewrite <- (map_map (el ss) X), <- (map_map (fun i => IZR (charge_of v i) * el ss i) X), !xsum_real.
    rewrite (sum_positive (el ss)), (sum_positive (fun i => IZR (charge_of v i) * el ss i)).
    cbn [xmul xopp xadd]. unfold xsub. cbn [xopp xadd]. reflexivity.
  Qed.

  Lemma drho_exact t q : answers e (CPower t) (APower (Ok q)) ->
    drho0 s y t = Ok (X (energy_balance K v p te rho (Q2R q) ls rs ss)).
  Proof.
    intros AP. unfold answers in AP. cbn [perform asks snd] in AP. injection AP as AP. fold s in AP.
    unfold drho0, get_drho_dt_ext. rewrite AP. cbn [bind]. f_equal.
    rewrite <- inel_default, <- gain_default, <- el_walls_default, <- ions_default, inel_exact, gain_exact, el_walls_exact, ions_exact.
    pose proof (volume_pos p PP). pose proof PK as (_ & ec & _).
    rewrite (s_volume _ _ _ _ _ B), (b_const _ _ _ _ _ B). rewrite !xdiv_real by lra.
    unfold cor_rho0, get_min_rho_correction, opt, y. rewrite state_rho, correction_exact.
    unfold xsub. cbn [xopp xadd]. f_equal. unfold energy_balance. ring.
  Qed.

  Theorem energy_exact t q : answers e (CPower t) (APower (Ok q)) ->
    answers e (CDrho t y None None None None None None) (ANumR (Ok (X (energy_balance K v p te rho (Q2R q) ls rs ss)))) /\
    exists dy, answers e (CObj t y) (AVecR (Ok dy)) /\
      nth (List.length (v_names v)) dy XNaN = X (energy_balance K v p te rho (Q2R q) ls rs ss).
  Proof.
    intros AP. pose proof (drho_exact t q AP) as D. split.
    - unfold answers. cbn [perform]. rewrite mapA_answer. f_equal. rewrite (fresh_value _ _ _ _ _ _ H), drho_value. exact D.
    - assert (A : answers e (CObj t y) (AVecR (Ok (dn0 s y ++ [X (energy_balance K v p te rho (Q2R q) ls rs ss)])%list))).
      { unfold answers. cbn [perform]. rewrite mapA_answer. f_equal. rewrite (fresh_value _ _ _ _ _ _ H), obj_value.
        unfold dy0. fold s. rewrite D. reflexivity. }
      exists (dn0 s y ++ [X (energy_balance K v p te rho (Q2R q) ls rs ss)])%list. split; [exact A|].
      pose proof (rhs_length _ _ _ _ _ _ _ _ H A) as Ln. rewrite app_length in Ln. cbn [List.length] in Ln.
      rewrite app_nth2 by lia. replace (List.length (v_names v) - List.length (dn0 s y))%nat with 0%nat by lia. reflexivity.
  Qed.

  (** Energy lost per collision. *)
  Theorem losses_exact j : (j < List.length (v_a v))%nat ->
    ((0 < nth j (v_e_lhs v) 0%Z)%Z -> nth j (v_elastic v) false = true ->
       exists i, (i < List.length (v_names v))%nat /\ (0 < nth i (nth j (v_lhs v) []) 0%Z)%Z /\
         (forall k, (k < i)%nat -> (nth k (nth j (v_lhs v) []) 0%Z <= 0)%Z) /\
         el ls j = 3 * c_me K / mass_of K v i * (te - gas_ev K p)) /\
    (((nth j (v_e_lhs v) 0%Z <= 0)%Z \/ nth j (v_elastic v) false = false) -> el ls j = el (v_loss v) j).
  Proof.
    intros Lj. assert (V : X (el ls j) = xat (value (get_el_en_losses y None) s) j) by (rewrite vl, at_map by (rewrite ll; exact Lj); reflexivity).
    rewrite value_def in V. unfold get_el_en_losses in V. cbn [st ca snd opt] in V. unfold nr in V. rewrite (b_nr _ _ _ _ _ B), xat_tab in V by exact Lj.
    split.
    - intros E1 E2. apply Z.ltb_lt in E1.
      assert (C1 : elc s j = true) by (unfold elc, e_lhs, zat; rewrite (b_view _ _ _ _ _ B); exact E1).
      assert (C2 : els s j = true) by (unfold els, bat; rewrite (b_view _ _ _ _ _ B); exact E2).
      pose proof (partner_pos _ _ _ _ _ _ PK PV B Lj C1 C2) as Pp. rewrite C1, C2 in V. cbn [andb] in V.
      unfold elastic_loss in V. rewrite te_is, (b_const _ _ _ _ _ B), (s_gas _ _ _ _ _ B), xdiv_real in V by lra.
      unfold xsub in V. cbn [xopp xadd xmul] in V. injection V as V.
      pose proof (b_partner _ _ _ _ _ B) as Pm. apply mapM_Ok_inv in Pm.
      assert (G : forall l ps, Forall2 (fun a b => partner_mass v (s_mass s) a = Ok b) l ps -> forall i, (i < List.length l)%nat ->
        partner_mass v (s_mass s) (nth i l 0%nat) = Ok (nth i ps 0)).
      { intros l ps FF. clear -FF. induction FF as [|a b l ps E F IH]; intros i Li; cbn [List.length] in Li; [lia|]. destruct i; [exact E|]. apply IH. lia. }
      specialize (G _ _ Pm j). rewrite seq_length in G. specialize (G Lj). rewrite seq_nth in G by exact Lj. cbn [Nat.add] in G.
      unfold partner_mass in G. unfold zat at 1, bat in G. rewrite E1, E2 in G. cbn [andb] in G.
      destruct (filter _ _) as [|i l] eqn:Fl; [discriminate G|]. injection G as G.
      assert (Ls : List.length (s_mass s) = List.length (v_names v)).
      { rewrite (b_mass _ _ _ _ _ B), map_length. apply (h_mass _ (shapes_iff _ (b_shapes _ _ _ _ _ B))). }
      rewrite Ls in Fl.
      assert (First : forall m a, filter (fun i => Z.ltb 0 (mat 0%Z (v_lhs v) j i)) (seq a m) = i :: l ->
        (a <= i < a + m)%nat /\ (0 < nth i (nth j (v_lhs v) []) 0%Z)%Z /\ forall k, (a <= k < i)%nat -> (nth k (nth j (v_lhs v) []) 0%Z <= 0)%Z).
      { clear. induction m as [|m IH]; intros a F; [discriminate F|]. cbn [seq filter] in F.
        destruct (Z.ltb 0 (mat 0%Z (v_lhs v) j a)) eqn:Q.
        - injection F as <- _. apply Z.ltb_lt in Q. split; [lia|]. split; [exact Q|]. intros; lia.
        - apply IH in F. destruct F as (F1 & F2 & F3). split; [lia|]. split; [exact F2|]. intros k Lk. apply Z.ltb_ge in Q.
          destruct (Nat.eq_dec k a) as [->|]; [exact Q|]. apply F3. lia. }
      destruct (First _ _ Fl) as (F1 & F2 & F3). exists i. split; [lia|]. split; [exact F2|]. split; [intros k Lk; apply F3; lia|].
      rewrite V. unfold at_ at 1. rewrite <- G. change (at_ (s_mass s) i) with (mass s i). rewrite (s_mass_of _ _ _ _ _ B) by lia. unfold te. ring.
    - intros Or. assert (C : elc s j && els s j = false).
      { unfold elc, els, e_lhs, zat, bat. rewrite (b_view _ _ _ _ _ B). destruct Or as [Q|Q]; [apply Z.ltb_ge in Q|]; rewrite Q; [reflexivity|apply Bool.andb_false_r]. }
      rewrite C in V. cbn [init_cache el_en_loss] in V. rewrite (b_view _ _ _ _ _ B), at_map in V by (rewrite (h_loss _ (shapes_iff _ (b_shapes _ _ _ _ _ B))); exact Lj).
      injection V as V. exact V.
  Qed.
End Energy.
