(** Gas flow. *)
From Coq Require Import Reals Qreals Lra.
From Verif Require Import Base BaseLemmas Morris Tables ExtReal Equations EqSpec EqPure EqDefaults EqReal.
Open Scope R_scope.

Lemma volume_pos p : proper_params p -> 0 < volume_of p.
Proof.
  intros (_ & R & L & _). unfold volume_of. apply Rmult_lt_0_compat; [|exact L].
  apply Rmult_lt_0_compat; [apply PI_RGT_0|]. apply pow_lt. exact R.
Qed.

Lemma s_volume K model v p s : built K model v p s -> volume s = volume_of p.
Proof. intros B. unfold volume, volume_of. rewrite (b_par _ _ _ _ _ B). reflexivity. Qed.

Lemma s_charge K model v p s i : built K model v p s -> charge s i = charge_of v i.
Proof. intros B. unfold charge, charge_of, zat. rewrite (b_view _ _ _ _ _ B). reflexivity. Qed.

Lemma s_neutral K model v p s i : built K model v p s -> neutral s i = Z.eqb (charge_of v i) 0.
Proof. intros B. unfold neutral. rewrite (s_charge _ _ _ _ _ _ B). reflexivity. Qed.

Lemma s_feed_of K model v p s i : built K model v p s -> (i < List.length (v_names v))%nat -> at_ (s_feed s) i = feed_of v p i.
Proof.
  intros B L. unfold at_, feed_of. rewrite (b_feed _ _ _ _ _ B).
  set (f := fun n : string => match sget n (p_feeds p) with Some f => f | None => 0 end).
  rewrite (nth_indep _ 0 (f ""%string)) by (rewrite map_length; exact L). rewrite map_nth. reflexivity.
Qed.

Lemma total_density K model v p s n rho : built K model v p s -> List.length n = List.length (v_names v) ->
  get_total_density (state n rho) None = X (Sum (List.length (v_names v)) (el n)).
Proof.
  intros B L. unfold get_total_density, opt. rewrite state_density, xsum_real, rsum_Sum, L. reflexivity.
Qed.

Lemma total_pressure K model v p s n rho : built K model v p s -> List.length n = List.length (v_names v) ->
  get_total_pressure s (state n rho) None = X (pressure_of K v p n).
Proof.
  intros B L. unfold get_total_pressure, opt. rewrite (total_density _ _ _ _ _ _ _ B L).
  cbn [xmul]. unfold pressure_of, temp_g. rewrite (b_const _ _ _ _ _ B), (b_par _ _ _ _ _ B). reflexivity.
Qed.

Section Flow.
  Variables (K : constants) (model : dmodel) (v : view) (p : mparams) (e : equations).
  Hypothesis PP : proper_params p.
  Hypothesis H : eq_init K model v p = Ok e.
  Variables (n : list R) (rho : R).
  Hypothesis L : List.length n = List.length (v_names v).
  Hypothesis NZ : neutral_density v n <> 0.
  Let N := List.length (v_names v).
  Let P := pressure_of K v p n.

  Definition flow_of (i : nat) : R :=
    if Z.eqb (charge_of v i) 0
    then inflow_of v p i - 1000 * el n i * (P - p_pressure p) / p_pressure p - Sum N (inflow_of v p) * el n i / neutral_density v n
    else inflow_of v p i.

  Lemma flow_value : get_flow_source_rates (st e) (state n rho) None None = map X (tab N flow_of).
  Proof.
    pose proof (init_built _ _ _ _ _ H) as B. pose proof (volume_pos p PP) as V.
    destruct PP as (_ & _ & _ & P0 & _).
    unfold get_flow_source_rates, opt. cbv zeta. rewrite state_density, (total_pressure _ _ _ _ _ _ _ B L). fold P.
    unfold ns. rewrite (b_ns _ _ _ _ _ B). fold N. rewrite <- tab_real. apply tab_ext. intros i Li.
    assert (In : forall j, (j < N)%nat -> xdiv (X (at_ (s_feed (st e)) j * (4485 * 10 ^ 14))) (X (volume (st e))) = X (inflow_of v p j)).
    { intros j Lj. rewrite (s_volume _ _ _ _ _ B), xdiv_real by lra. rewrite (s_feed_of _ _ _ _ _ _ B Lj). reflexivity. }
    rewrite (In i Li). rewrite (s_neutral _ _ _ _ _ _ B). unfold flow_of.
    destruct (Z.eqb (charge_of v i) 0); [|cbn [xadd]; f_equal; ring].
    unfold species, ns. rewrite (b_ns _ _ _ _ _ B). fold N.
    assert (SN : xsum (map (xat (map X n)) (filter (neutral (st e)) (seq 0 N))) = X (neutral_density v n)).
    { rewrite (map_ext_in _ (fun i => X (el n i))).
      2:{ intros j I. apply filter_In in I. destruct I as [I _]. apply in_seq in I. apply at_map. unfold N in I. lia. }
      rewrite <- map_map, xsum_real. f_equal. rewrite rsum_filter. unfold neutral_density. fold N. rewrite Sum_rsum.
      apply rsum_map_ext. intros j _. rewrite (s_neutral _ _ _ _ _ _ B). reflexivity. }
    assert (SI : xsum (map (fun i => xdiv (X (at_ (s_feed (st e)) i * (4485 * 10 ^ 14))) (X (volume (st e)))) (seq 0 N)) = X (Sum N (inflow_of v p))).
    { rewrite (map_ext_in _ (fun i => X (inflow_of v p i))).
      2:{ intros j I. apply in_seq in I. apply In. lia. }
      rewrite <- map_map, xsum_real. reflexivity. }
    rewrite SN, SI. rewrite at_map by (unfold N in Li; lia). rewrite (b_par _ _ _ _ _ B).
    cbn [xmul]. unfold xsub at 3. cbn [xopp xadd xmul]. rewrite xdiv_real by lra. rewrite xdiv_real by exact NZ.
    unfold xsub. cbn [xopp xadd]. f_equal. field; repeat split; try exact NZ; lra.
  Qed.

  Lemma flow_total : Sum N flow_of = - (1000 * neutral_density v n * (P - p_pressure p) / p_pressure p).
  Proof.
    destruct PP as (_ & _ & _ & P0 & _).
    set (c := 1000 * (P - p_pressure p) / p_pressure p + Sum N (inflow_of v p) / neutral_density v n).
    rewrite (Sum_ext _ _ (fun i => inflow_of v p i + (- c) * (if Z.eqb (charge_of v i) 0 then el n i else 0))).
    2:{ intros i _. unfold flow_of, c. destruct (Z.eqb (charge_of v i) 0); [|ring]. field; repeat split; try exact NZ; lra. }
    rewrite Sum_plus, Sum_scal. fold N. change (Sum N (fun i => if Z.eqb (charge_of v i) 0 then el n i else 0)) with (neutral_density v n).
    unfold c. field; repeat split; try exact NZ; lra.
  Qed.
End Flow.

(** The flow source terms, exactly. *)
Lemma flow_exact K model v p e n rho : proper_params p -> eq_init K model v p = Ok e ->
  List.length n = List.length (v_names v) -> neutral_density v n <> 0 ->
  exists fs, List.length fs = List.length (v_names v) /\
    answers e (CFlow (state n rho) None None) (AVec (map X fs)) /\
    (forall i, (i < List.length fs)%nat -> charge_of v i <> 0%Z -> el fs i = inflow_of v p i) /\
    (forall i, (i < List.length fs)%nat -> charge_of v i = 0%Z ->
       el fs i = inflow_of v p i - 1000 * el n i * (pressure_of K v p n - p_pressure p) / p_pressure p
                 - Sum (List.length fs) (inflow_of v p) * el n i / neutral_density v n) /\
    Sum (List.length fs) (el fs) = - (1000 * neutral_density v n * (pressure_of K v p n - p_pressure p) / p_pressure p).
Proof.
  intros PP H L NZ. exists (tab (List.length (v_names v)) (flow_of K v p n)). rewrite length_tab.
  split; [reflexivity|]. split.
  { unfold answers. cbn [perform asks snd]. f_equal. apply (flow_value K model v p e PP H n rho L NZ). }
  split; [|split].
  - intros i Li C. rewrite el_tab by exact Li. unfold flow_of. apply Z.eqb_neq in C. rewrite C. reflexivity.
  - intros i Li C. rewrite el_tab by exact Li. unfold flow_of. apply Z.eqb_eq in C. rewrite C. reflexivity.
  - rewrite (Sum_ext _ _ (flow_of K v p n)) by (intros i Li; apply el_tab; exact Li). apply flow_total; assumption.
Qed.

(** Without neutral density the balance is not a number. *)
Lemma flow_undefined K model v p e n rho i : proper_params p -> eq_init K model v p = Ok e ->
  List.length n = List.length (v_names v) -> neutral_density v n = 0 -> Sum (List.length (v_names v)) (inflow_of v p) * el n i = 0 ->
  (i < List.length (v_names v))%nat -> charge_of v i = 0%Z ->
  nth i (get_flow_source_rates (st e) (state n rho) None None) (X 0) = XNaN.
Proof.
  intros PP H L NZ Z Li C. pose proof (init_built _ _ _ _ _ H) as B. pose proof (volume_pos p PP) as V.
  destruct PP as (_ & _ & _ & P0 & _).
  unfold get_flow_source_rates, opt. cbv zeta. rewrite state_density, (total_pressure _ _ _ _ _ _ _ B L).
  unfold ns. rewrite (b_ns _ _ _ _ _ B). rewrite nth_tab by exact Li.
  rewrite (s_neutral _ _ _ _ _ _ B), C. cbn [Z.eqb]. unfold species, ns. rewrite (b_ns _ _ _ _ _ B).
  assert (SN : xsum (map (xat (map X n)) (filter (neutral (st e)) (seq 0 (List.length (v_names v))))) = X (neutral_density v n)).
  { rewrite (map_ext_in _ (fun i => X (el n i))).
    2:{ intros j I. apply filter_In in I. destruct I as [I _]. apply in_seq in I. apply at_map. lia. }
    rewrite <- map_map, xsum_real. f_equal. rewrite rsum_filter. unfold neutral_density. rewrite Sum_rsum.
    apply rsum_map_ext. intros j _. rewrite (s_neutral _ _ _ _ _ _ B). reflexivity. }
  assert (SI : xsum (map (fun i => xdiv (X (at_ (s_feed (st e)) i * (4485 * 10 ^ 14))) (X (volume (st e)))) (seq 0 (List.length (v_names v)))) = X (Sum (List.length (v_names v)) (inflow_of v p))).
  { rewrite (map_ext_in _ (fun i => X (inflow_of v p i))).
    2:{ intros j I. apply in_seq in I. rewrite (s_volume _ _ _ _ _ B), xdiv_real by lra. rewrite (s_feed_of _ _ _ _ _ _ B) by lia. reflexivity. }
    rewrite <- map_map, xsum_real. reflexivity. }
  rewrite SN, SI, NZ, at_map by lia. cbn [xmul]. rewrite Z, xdiv_zero.
  match goal with |- xsub ?a XNaN = _ => destruct a; reflexivity end.
Qed.
