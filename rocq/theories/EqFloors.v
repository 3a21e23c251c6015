(** Temperatures, rates and corrections. *)
From Coq Require Import Reals Qreals Lra.
From Verif Require Import Base BaseLemmas Morris Tables ExtReal Equations EqSpec EqPure EqDefaults EqReal EqFlow.
Open Scope R_scope.

Lemma s_gas K model v p s : built K model v p s -> gas_temp_ev s = gas_ev K p.
Proof. intros B. unfold gas_temp_ev, gas_ev, temp_g. rewrite (b_const _ _ _ _ _ B), (b_par _ _ _ _ _ B). reflexivity. Qed.

(** ** Electron temperature *)

Lemma te_floor K model v p e y n_e rho t : eq_init K model v p = Ok e ->
  answers e (CElTemp y n_e rho) (ANum t) -> t = XNaN \/ at_least (gas_ev K p) t.
Proof.
  intros H A. pose proof (init_built _ _ _ _ _ H) as B. unfold answers in A. cbn [perform asks snd] in A. injection A as <-.
  unfold get_electron_temperature. cbv zeta. rewrite (s_gas _ _ _ _ _ B).
  match goal with |- context [xltb ?x _] => set (t := x) end.
  destruct (xltb t (X (gas_ev K p))) eqn:E; [right; right; eexists; split; [reflexivity|lra]|].
  destruct t as [a| | |]; cbn in E; try discriminate E; [|right; left; reflexivity|left; reflexivity].
  right. right. exists a. split; [reflexivity|]. destruct (Rlt_dec a (gas_ev K p)); [discriminate E|lra].
Qed.

Lemma electron_density K model v p s n rho : built K model v p s -> List.length n = List.length (v_names v) ->
  get_electron_density s (state n rho) None = X (electrons v n).
Proof.
  intros B L. unfold get_electron_density, opt. rewrite state_density. unfold ns. rewrite (b_ns _ _ _ _ _ B).
  unfold electrons. rewrite <- xsum_tab. f_equal. apply tab_ext. intros i Li.
  rewrite at_map by lia. rewrite (s_charge _ _ _ _ _ _ B). reflexivity.
Qed.

Lemma te_value K model v p s n rho : built K model v p s -> List.length n = List.length (v_names v) -> electrons v n <> 0 ->
  get_electron_temperature s (state n rho) None None = X (electron_ev K v p n rho).
Proof.
  intros B L NZ. unfold get_electron_temperature, opt. rewrite (electron_density _ _ _ _ _ _ _ B L), state_rho.
  cbv zeta. rewrite (s_gas _ _ _ _ _ B), xdiv_real by exact NZ. cbn [xmul]. rewrite xdiv_real by lra.
  unfold electron_ev, Rmax. set (a := rho / electrons v n * 2 / 3).
  destruct (Rle_dec a (gas_ev K p)) as [Le|Le]; cbn [xltb]; destruct (Rlt_dec a (gas_ev K p)) as [Lt|Lt]; try reflexivity; [|lra].
  f_equal. lra.
Qed.

Lemma te_exact K model v p e n rho : eq_init K model v p = Ok e -> List.length n = List.length (v_names v) ->
  electrons v n <> 0 -> answers e (CElTemp (state n rho) None None) (ANum (X (electron_ev K v p n rho))).
Proof.
  intros H L NZ. unfold answers. cbn [perform asks snd]. f_equal. eapply te_value; [apply (init_built _ _ _ _ _ H)|exact L|exact NZ].
Qed.

Lemma te_nan K model v p e n : eq_init K model v p = Ok e -> List.length n = List.length (v_names v) ->
  electrons v n = 0 -> answers e (CElTemp (state n 0) None None) (ANum XNaN).
Proof.
  intros H L Z. pose proof (init_built _ _ _ _ _ H) as B. unfold answers. cbn [perform asks snd]. f_equal.
  unfold get_electron_temperature, opt. rewrite (electron_density _ _ _ _ _ _ _ B L), state_rho, Z. cbv zeta.
  rewrite xdiv_zero. reflexivity.
Qed.

Lemma gas_ev_pos K p : physical K -> proper_params p -> 0 < gas_ev K p.
Proof.
  intros (k & e & _) (T & _). unfold gas_ev. apply Rdiv_lt_0_compat; [|exact e]. apply Rmult_lt_0_compat; assumption.
Qed.
Lemma electron_ev_pos K v p n rho : physical K -> proper_params p -> 0 < electron_ev K v p n rho.
Proof.
  intros P Q. pose proof (gas_ev_pos K p P Q). pose proof (Rmax_r (rho / electrons v n * 2 / 3) (gas_ev K p)). unfold electron_ev. lra.
Qed.

(** ** Rates *)

Lemma Prod_app a b : Prod (a ++ b)%list = Prod a * Prod b.
Proof. unfold Prod. induction a as [|x a IH]; cbn [app fold_right]; [ring|]. rewrite IH. ring. Qed.
Lemma Prod_nonneg l : Forall (fun x => 0 <= x) l -> 0 <= Prod l.
Proof. unfold Prod. induction 1 as [|a l H F IH]; cbn [fold_right]; [lra|]. apply Rmult_le_pos; assumption. Qed.

Lemma coef_value K model v p s n rho j : physical K -> proper_params p -> built K model v p s ->
  List.length n = List.length (v_names v) -> electrons v n <> 0 -> (j < List.length (v_a v))%nat ->
  xat (value (get_reaction_rate_coefficients (state n rho) None) s) j = X (coefficient v p (electron_ev K v p n rho) j).
Proof.
  intros PK PP B L NZ Lj. pose proof (electron_ev_pos K v p n rho PK PP) as T.
  assert (Tg : 0 < p_temp p) by apply PP.
  rewrite value_def. unfold get_reaction_rate_coefficients. cbn [st ca snd opt].
  rewrite (te_value _ _ _ _ _ _ _ B L NZ). unfold nr. rewrite (b_nr _ _ _ _ _ B), xat_tab by exact Lj.
  unfold elc, e_lhs, zat, coefficient. rewrite (b_view _ _ _ _ _ B).
  destruct (Z.ltb 0 (nth j (v_e_lhs v) 0%Z)) eqn:E.
  - unfold electron_coefficient, at_. rewrite (b_view _ _ _ _ _ B), xpow_pos by exact T. rewrite xdiv_real by lra. reflexivity.
  - assert (G : elc s j = false) by (unfold elc, e_lhs, zat; rewrite (b_view _ _ _ _ _ B); exact E).
    cbn [init_cache k_r]. rewrite (b_nr _ _ _ _ _ B), xat_tab by exact Lj. rewrite G.
    unfold heavy_coefficient, temp_g, at_. rewrite (b_view _ _ _ _ _ B), (b_par _ _ _ _ _ B).
    rewrite xpow_pos by lra. reflexivity.
Qed.

Lemma rates_exact K model v p e n rho : physical K -> proper_params p -> eq_init K model v p = Ok e ->
  List.length n = List.length (v_names v) -> electrons v n <> 0 ->
  exists rs, List.length rs = List.length (v_a v) /\
    answers e (CRates (state n rho) None None None None) (AVec (map X rs)) /\
    forall j, (j < List.length rs)%nat ->
      el rs j = coefficient v p (electron_ev K v p n rho) j * law_of_mass_action v n j.
Proof.
  intros PK PP H L NZ. pose proof (init_built _ _ _ _ _ H) as B.
  exists (tab (List.length (v_a v)) (fun j => coefficient v p (electron_ev K v p n rho) j * law_of_mass_action v n j)).
  rewrite length_tab. split; [reflexivity|]. split; [|intros j Lj; apply el_tab; exact Lj].
  unfold answers. cbn [perform]. rewrite mapA_answer. f_equal. rewrite (fresh_value _ _ _ _ _ _ H).
  unfold get_reaction_rates. vb. unfold opt, nr. rewrite (b_nr _ _ _ _ _ B), <- tab_real. apply tab_ext. intros j Lj.
  rewrite (coef_value K model v p _ n rho j PK PP B L NZ Lj).
  assert (R : reactant_product (st e) (get_density_vector (state n rho))
      (get_electron_density (st e) (state n rho) (Some (get_density_vector (state n rho))))
      (get_total_density (state n rho) (Some (get_density_vector (state n rho)))) j = X (law_of_mass_action v n j)).
  { change (get_electron_density (st e) (state n rho) (Some (get_density_vector (state n rho)))) with (get_electron_density (st e) (state n rho) None).
    change (get_total_density (state n rho) (Some (get_density_vector (state n rho)))) with (get_total_density (state n rho) None).
    rewrite (electron_density _ _ _ _ _ _ _ B L), (total_density _ _ _ _ _ _ _ B L), state_density.
    unfold reactant_product, ns. rewrite (b_ns _ _ _ _ _ B), !xpown_real.
    rewrite (tab_ext _ _ (fun i => X (el n i ^ Z.to_nat (lhs (st e) j i)))).
    2:{ intros i Li. rewrite at_map by lia. apply xpown_real. }
    rewrite tab_real. match goal with |- xprod (X ?a :: map X ?l ++ [X ?b]) = _ => change (X a :: map X l ++ [X b])%list with (map X (a :: l) ++ map X [b])%list end.
    rewrite <- map_app, xprod_real. f_equal. cbn [app fold_right]. change (fold_right Rmult 1) with Prod. rewrite Prod_app.
    unfold law_of_mass_action, e_lhs, m_lhs, lhs, mat, zat, tab. rewrite (b_view _ _ _ _ _ B).
    unfold Prod at 2. cbn [fold_right]. ring. }
  rewrite R. reflexivity.
Qed.

Lemma coefficient_nonneg v p te j : proper_view v -> (j < List.length (v_a v))%nat -> 0 <= coefficient v p te j.
Proof.
  intros (_ & _ & _ & A) Lj. pose proof (Forall_el _ _ _ A Lj) as Aj.
  unfold coefficient. destruct (Z.ltb 0 _); (apply Rmult_le_pos; [apply Rmult_le_pos; [exact Aj|]|]; left; try apply Rpower_pos; apply exp_pos).
Qed.

Lemma mass_action_nonneg v n j : all_nonneg n -> List.length n = List.length (v_names v) -> 0 <= electrons v n -> 0 <= law_of_mass_action v n j.
Proof.
  intros N L E. unfold law_of_mass_action. apply Rmult_le_pos; [apply Rmult_le_pos|].
  - apply pow_le. exact E.
  - apply Prod_nonneg. apply Forall_forall. intros x I. apply in_map_iff in I. destruct I as (i & <- & I).
    apply in_seq in I. apply pow_le. apply (Forall_el _ _ _ N). lia.
  - apply pow_le. apply Sum_nonneg. intros i Li. apply (Forall_el _ _ _ N). lia.
Qed.

Lemma rates_nonneg K model v p e n rho : physical K -> proper_params p -> proper_view v -> eq_init K model v p = Ok e ->
  List.length n = List.length (v_names v) -> all_nonneg n -> 0 < electrons v n ->
  exists rs, answers e (CRates (state n rho) None None None None) (AVec (map X rs)) /\
    List.length rs = List.length (v_a v) /\ all_nonneg rs.
Proof.
  intros PK PP PV H L N E. destruct (rates_exact K model v p e n rho PK PP H L) as (rs & Lr & A & F); [lra|].
  exists rs. split; [exact A|]. split; [exact Lr|]. apply Forall_forall. intros x I.
  destruct (In_nth _ _ 0 I) as (j & Lj & <-). change (nth j rs 0) with (el rs j). rewrite (F j Lj).
  apply Rmult_le_pos; [apply coefficient_nonneg; [exact PV|lia]|apply mass_action_nonneg; [exact N|exact L|lra]].
Qed.

(** ** Corrections *)

Lemma correction_exact a : correction (X a) = X (if Rlt_dec a 1 then (1 - a) * 10 ^ 10 else 0).
Proof.
  unfold correction. cbn [xltb]. destruct (Rlt_dec a 1); [|reflexivity].
  unfold xsub. cbn [xopp xadd]. rewrite xdiv_real by (apply Rinv_neq_0_compat, pow_nonzero; lra).
  f_equal. unfold Rdiv. rewrite Rinv_inv. ring.
Qed.

Lemma min_n_exact K model v p e n rho : eq_init K model v p = Ok e -> List.length n = List.length (v_names v) ->
  exists cs, List.length cs = List.length n /\ answers e (CMinN (state n rho) None) (AVec (map X cs)) /\
    forall i, (i < List.length n)%nat ->
      (el n i < 1 -> el cs i = (1 - el n i) * 10 ^ 10 /\ 0 < el cs i) /\ (1 <= el n i -> el cs i = 0).
Proof.
  intros H L. pose proof (init_built _ _ _ _ _ H) as B.
  exists (tab (List.length n) (fun i => if Rlt_dec (el n i) 1 then (1 - el n i) * 10 ^ 10 else 0)).
  rewrite length_tab. split; [reflexivity|]. split.
  - unfold answers. cbn [perform asks snd]. f_equal. unfold get_min_n_correction, opt. rewrite state_density.
    unfold ns. rewrite (b_ns _ _ _ _ _ B), <- L, <- tab_real. apply tab_ext. intros i Li. rewrite at_map by exact Li. apply correction_exact.
  - intros i Li. rewrite el_tab by exact Li. split; intros C; destruct (Rlt_dec (el n i) 1); try lra.
Qed.
