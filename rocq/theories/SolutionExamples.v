(** Concrete runs for the neutral equations and for the reported solution. *)
From Coq Require Import Reals Qreals Lra.
From Verif Require Import Base BaseLemmas Species Reactions Chemistry ChemSpec ChemHist ChemLoad ChemExamples MolSpec MolExamples
  Morris MorrisStats InitialGuess InitialSpec InitialProofs InitialMain Tables ExtReal Equations EqSpec EqPure EqDefaults EqReal EqFlow EqFloors EqExamples
  Views ConserveSpec LinkSpec BalanceExamples Neutral NeutralProofs Solution SolutionProofs SolutionMore.
From Verif Require Conserve.
Open Scope R_scope.

Lemma neutral_no_electrons E objs c v : c_kind c = Chemistry.Neutral -> view_of E objs c = Ok v -> no_electrons v.
Proof.
  unfold view_of. intros K H.
  repeat match type of H with
  | bind ?m _ = _ => let Q := fresh "Q" in destruct m eqn:Q; [cbn [bind] in H|discriminate]
  end.
  injection H as <-. unfold no_electrons. cbn [v_e_lhs].
  match goal with Q : get_stoich_electron _ _ Lhs = Ok ?l |- context [map snd ?l] => unfold get_stoich_electron in Q; rewrite K in Q; injection Q as <- end.
  rewrite map_map. apply Forall_forall. intros z I. apply in_map_iff in I as (? & <- & _). reflexivity.
Qed.

(** C117 for chemistries. *)
Lemma neutral_chemistry E objs c v K model p e t y : c_kind c = Chemistry.Neutral -> view_of E objs c = Ok v -> neutral_init K model v p = Ok e ->
  exists dn, n_obj_function t y e = (e, Ok (dn ++ [X 0])%list) /\
    forall d, snd (obj_function t y e) = Ok d -> exists drho, d = (dn ++ [drho])%list.
Proof. intros KD V I. apply (neutral_refines K model v p); [exact I|]. exact (neutral_no_electrons E objs c v KD V). Qed.

(** ** Oxygen: association and dissociation with a third body *)
Definition objsN : list rp := [sp_M; sp_O; sp_O2].
Definition ratesN := [("arrh_a", VFlt (Fin 3)); ("arrh_c", VInt 2)]%string.
Definition rx_as := MolExamples.mkr 1 [sp_O; sp_O; sp_M] [sp_O2; sp_M] ratesN [("arrh_a", Some "cm6.s-1"); ("arrh_c", Some "K")]%string.
Definition rx_di := MolExamples.mkr 2 [sp_O2; sp_M] [sp_O; sp_O; sp_M] ratesN [("arrh_a", Some "cm3.s-1"); ("arrh_c", Some "K")]%string.
Definition rxsN : list reaction := [rx_as; rx_di].
Definition spsN : list sp := match mapM (view_rp E1) objsN with Ok l => l | Err _ => [] end.
Definition rsN : list rx := match mapM (view_reaction E1) rxsN with Ok l => l | Err _ => [] end.
Definition cN : chem := match init Chemistry.Neutral spsN rsN None with Ok c => c | Err _ => fresh Chemistry.Neutral spsN rsN None end.
Lemma cN_init : init Chemistry.Neutral spsN rsN None = Ok cN.
Proof. vm_compute. reflexivity. Qed.
Lemma cN_reachable : reachable E1 cN.
Proof.
  eapply reach_init; [|exact cN_init]. apply same_heap.
  - intros r s Hr Hs. vm_compute in Hr. cases Hr; subst r; unfold takes_part in Hs; cbn in Hs; cases Hs; subst s; vm_compute; tauto.
  - vm_compute. repeat (constructor; [cbn; intuition discriminate|]). constructor.
Qed.
Definition vN : view := {|
  v_names := ["O"; "O2"]%string; v_charge := [0; 0]%Z; v_mass := [Q2R 16; Q2R 32]; v_sigma := [Q2R 3; Q2R 3]; v_stick := [Q2R 0; Q2R 0];
  v_a := [Q2R (3 # 1000000000000); Q2R (3 # 1000000)]; v_b := [Q2R 0; Q2R 0]; v_c := [Q2R 2; Q2R 2]; v_loss := [Q2R 0; Q2R 0];
  v_elastic := [false; false]; v_e_net := [0; 0]%Z; v_e_lhs := [0; 0]%Z; v_m_lhs := [1; 1]%Z;
  v_ret := [[Q2R 0; Q2R 0]; [Q2R 0; Q2R 0]]; v_net := [[-2; 1]; [2; -1]]%Z; v_lhs := [[2; 0]; [0; 1]]%Z |}.
Lemma vN_ok : view_of E1 objsN cN = Ok vN.
Proof. vm_compute. reflexivity. Qed.
Definition parN : mparams := {|
  p_feeds := [("O2"%string, 100)]; p_temp := 300; p_radius := 1; p_length := 2; p_pressure := 100;
  p_t_end := 2; p_power := [500; 500]%Q; p_times := [0; 2]%Q; p_int := false |}.
Lemma initN model : exists e, neutral_init K1 model vN parN = Ok e.
Proof. eexists. reflexivity. Qed.

(** ** A neutral chemistry with the electron *)
Definition objsE : list rp := [sp_e; sp_O; sp_Ox].
Definition rx_ex := MolExamples.mkr 3 [sp_e; sp_O] [sp_e; sp_Ox] ratesN [("arrh_a", Some "cm3.s-1"); ("arrh_c", Some "eV")]%string.
Definition rx_qu := MolExamples.mkr 4 [sp_O; sp_Ox] [sp_O; sp_O] ratesN [("arrh_a", Some "cm3.s-1"); ("arrh_c", Some "K")]%string.
Definition rxsE : list reaction := [rx_ex; rx_qu].
Definition spsE : list sp := match mapM (view_rp E1) objsE with Ok l => l | Err _ => [] end.
Definition rsE : list rx := match mapM (view_reaction E1) rxsE with Ok l => l | Err _ => [] end.
Definition cE : chem := match init Chemistry.Neutral spsE rsE None with Ok c => c | Err _ => fresh Chemistry.Neutral spsE rsE None end.
Lemma cE_init : init Chemistry.Neutral spsE rsE None = Ok cE.
Proof. vm_compute. reflexivity. Qed.
Lemma cE_reachable : reachable E1 cE.
Proof.
  eapply reach_init; [|exact cE_init]. apply same_heap.
  - intros r s Hr Hs. vm_compute in Hr. cases Hr; subst r; unfold takes_part in Hs; cbn in Hs; cases Hs; subst s; vm_compute; tauto.
  - vm_compute. repeat (constructor; [cbn; intuition discriminate|]). constructor.
Qed.
Lemma cE_objects : objects E1 objsE rxsE cE.
Proof.
  split; [vm_compute; reflexivity|]. split; [vm_compute; reflexivity|]. apply same_uid.
  - intros r p Hr Hp. vm_compute in Hr. cases Hr; subst r; cbn in Hp; cases Hp; subst p; vm_compute; tauto.
  - vm_compute. repeat (constructor; [cbn; intuition discriminate|]). constructor.
Qed.
Definition vE : view := {|
  v_names := ["O"; "O*"]%string; v_charge := [0; 0]%Z; v_mass := [Q2R 16; Q2R 16]; v_sigma := [Q2R 3; Q2R 3]; v_stick := [Q2R 0; Q2R 1];
  v_a := [Q2R (3 # 1000000); Q2R (3 # 1000000)]; v_b := [Q2R 0; Q2R 0]; v_c := [Q2R 2; Q2R 2]; v_loss := [Q2R 0; Q2R 0];
  v_elastic := [false; false]; v_e_net := [0; 0]%Z; v_e_lhs := [0; 0]%Z; v_m_lhs := [0; 0]%Z;
  v_ret := [[Q2R 0; Q2R 1]; [Q2R 0; Q2R 0]]; v_net := [[-1; 1]; [1; -1]]%Z; v_lhs := [[1; 0]; [1; 1]]%Z |}.
Lemma vE_ok : view_of E1 objsE cE = Ok vE.
Proof. vm_compute. reflexivity. Qed.
Lemma electron_runs model : exists r0 r1 e, reachable E1 cE /\ objects E1 objsE rxsE cE /\ c_kind cE = Chemistry.Neutral /\
  get_reactions cE false = [r0; r1] /\ occurrences "e" (rx_lhs r0) = 1%Z /\
  view_of E1 objsE cE = Ok vE /\ neutral_init K1 model vE parB = Ok e.
Proof.
  do 3 eexists. split; [exact cE_reachable|]. split; [exact cE_objects|]. split; [vm_compute; reflexivity|].
  split; [vm_compute; reflexivity|]. split; [vm_compute; reflexivity|]. split; [exact vE_ok|]. reflexivity.
Qed.

(** Its rate does not depend on the electrons and is not zero. *)
Lemma electron_rate model n rho e : neutral_init K1 model vE parB = Ok e -> List.length n = 2%nat -> 0 < el n 0 -> 0 < el n 1 ->
  exists rs, n_rates (state n rho) None None None None e = (e, map X rs) /\ List.length rs = 2%nat /\ 0 < el rs 0 /\
    report_density NeutralOnly (st e) (state n rho) = X 0.
Proof.
  intros I L P0 P1. assert (T : 0 < p_temp parB) by (cbn; lra).
  assert (N : no_electrons vE) by (repeat constructor).
  exists (tab 2 (gas_rate vE parB n)). split; [exact (neutral_rates_real K1 model vE parB e n rho I N T L)|]. split; [reflexivity|]. split; [|reflexivity].
  unfold tab, el. cbn [seq map nth]. unfold gas_rate. apply Rmult_lt_0_compat; [apply Rmult_lt_0_compat; [apply Rmult_lt_0_compat|]|].
  - unfold el. cbn [v_a vE nth]. unfold Q2R. cbn [Qnum Qden]. lra.
  - apply exp_pos.
  - apply exp_pos.
  - unfold Prod. cbn [v_names v_lhs v_m_lhs vE List.length seq map nth fold_right].
    change (Z.to_nat 1) with 1%nat. change (Z.to_nat 0) with 0%nat. cbn [pow]. lra.
Qed.

(** ** Tellurium *)
Definition ET : env := {|
  fparse := fparse E1; iparse := iparse E1; fshow := fshow E1; ishow := ishow E1;
  formula_atoms := fun s => if String.eqb s "Te" then Ok [("Te"%string, 1%Z)] else Err EValue |}.
Definition mkT (id : Z) (lhs rhs : list rp) (attrs : list (string * pyval)) units : reaction :=
  match reaction_init ET (VInt id) lhs rhs attrs [] units with Ok r => r | Err _ => MkReaction id [] [] [] [] end.
Definition sp_Te := mk 2 1 [("name", VStr "Te"); ("mass", VInt 128)]%string.
Definition sp_Tep := mk 3 2 [("name", VStr "Te+"); ("mass", VInt 128); ("charge", VStr "1")]%string.
Definition objsT : list rp := [sp_e; sp_Te; sp_Tep].
Definition unitsT : list (string * option string) := [("arrh_a", Some "cm3.s-1"); ("arrh_c", Some "eV")]%string.
Definition rxsT : list reaction := [mkT 1 [sp_e; sp_Te] [sp_e; sp_Tep; sp_e] ratesN unitsT; mkT 2 [sp_e; sp_Te] [sp_e; sp_Te] ratesN unitsT].
Definition spsT : list sp := match mapM (view_rp ET) objsT with Ok l => l | Err _ => [] end.
Definition rsT : list rx := match mapM (view_reaction ET) rxsT with Ok l => l | Err _ => [] end.
Definition cT : chem := match init Plain spsT rsT None with Ok c => c | Err _ => fresh Plain spsT rsT None end.
Lemma cT_init : init Plain spsT rsT None = Ok cT.
Proof. vm_compute. reflexivity. Qed.
Lemma cT_reachable : reachable ET cT.
Proof.
  eapply reach_init; [|exact cT_init]. apply same_heap.
  - intros r s Hr Hs. vm_compute in Hr. cases Hr; subst r; unfold takes_part in Hs; cbn in Hs; cases Hs; subst s; vm_compute; tauto.
  - vm_compute. repeat (constructor; [cbn; intuition discriminate|]). constructor.
Qed.
Definition vT : view := {|
  v_names := ["Te"; "Te+"]%string; v_charge := [0; 1]%Z; v_mass := [Q2R 128; Q2R 128]; v_sigma := [Q2R 3; Q2R 3]; v_stick := [Q2R 0; Q2R 1];
  v_a := [Q2R (3 # 1000000); Q2R (3 # 1000000)]; v_b := [Q2R 0; Q2R 0]; v_c := [Q2R 2; Q2R 2]; v_loss := [Q2R 0; Q2R 0];
  v_elastic := [false; true]; v_e_net := [1; 0]%Z; v_e_lhs := [1; 1]%Z; v_m_lhs := [0; 0]%Z;
  v_ret := [[Q2R 0; Q2R 1]; [Q2R 0; Q2R 0]]; v_net := [[-1; 1]; [0; 0]]%Z; v_lhs := [[1; 0]; [1; 0]]%Z |}.
Lemma vT_ok : view_of ET objsT cT = Ok vT.
Proof. vm_compute. reflexivity. Qed.
Definition parT : mparams := {|
  p_feeds := [("Te"%string, 100)]; p_temp := 300; p_radius := 1; p_length := 2; p_pressure := 100;
  p_t_end := 2; p_power := [500; 500]%Q; p_times := [0; 2]%Q; p_int := false |}.

Lemma gas_small : gas_ev K1 parT < 1.
Proof.
  unfold gas_ev, K1, parT. cbn [c_k c_e p_temp].
  apply Rmult_lt_reg_r with (1602176634 / 10 ^ 28); [pow_pos|]. unfold Rdiv at 1. rewrite Rmult_assoc, Rinv_l by (apply Rgt_not_eq; pow_pos).
  rewrite Rmult_1_r, Rmult_1_l. lra.
Qed.

Lemma tellurium : exists E objs c K v p e row n, reachable E c /\ view_of E objs c = Ok v /\ physical K /\ proper_params p /\ eq_init K Combined v p = Ok e /\
  NoDup (v_names v) /\ electrons v n = 2 /\ nth_error (v_names v) 0 = Some "Te"%string /\ nth_error n 0 = Some 7 /\
  rearrange (frame_row General (st e) (v_names v) (X 0) (state n 300)) = Ok row /\
  sget "Te"%string row = Some (X 100) /\
  exists d y, densities_of (v_names v) row = Ok d /\ restart (v_names v) (v_charge v) (X 100) d = Ok y /\
    validate (v_names v) (v_charge v) y = Ok tt /\ nth_error y 0 = Some (X 100).
Proof.
  assert (IN : exists e, eq_init K1 Combined vT parT = Ok e) by (eexists; reflexivity). destruct IN as (e & I).
  pose proof (init_built _ _ _ _ _ I) as B.
  assert (NE : electrons vT n1 = 2) by (unfold electrons, Sum, el, charge_of; cbn; lra).
  assert (L : List.length n1 = List.length (v_names vT)) by reflexivity.
  assert (TE : get_electron_temperature (st e) (state n1 300) None None = X 100).
  { rewrite (te_value _ _ _ _ _ n1 300 B L) by (rewrite NE; lra). f_equal. unfold electron_ev. rewrite NE.
    pose proof gas_small. rewrite Rmax_left; lra. }
  assert (ED : get_electron_density (st e) (state n1 300) None = X 2) by (rewrite (electron_density _ _ _ _ _ _ _ B L), NE; reflexivity).
  assert (FR : frame_row General (st e) (v_names vT) (X 0) (state n1 300) =
    [("Te", X 100); ("Te+", X 2); ("e", X 2); ("Tg", X (temp_g (st e))); ("p", get_total_pressure (st e) (state n1 300) None); ("t", X 0)]%string).
  { unfold frame_row. rewrite state_density. unfold report_density, report_temperature. rewrite TE, ED. reflexivity. }
  assert (ND : NoDup (v_names vT)) by (cbn [v_names vT]; repeat (constructor; [cbn; intuition discriminate|]); constructor).
  exists ET, objsT, cT, K1, vT, parT, e. eexists. exists n1.
  split; [exact cT_reachable|]. split; [exact vT_ok|]. split; [exact K1_physical|].
  split; [unfold proper_params, parT; cbn [p_temp p_radius p_length p_pressure p_t_end]; repeat split; lra|].
  split; [exact I|]. split; [exact ND|]. split; [exact NE|]. split; [reflexivity|]. split; [reflexivity|].
  rewrite FR. split; [reflexivity|]. split; [reflexivity|].
  exists (combine (v_names vT) (map X [100; 2])). exists (state [100; 2] (3 / 2 * electrons vT [100; 2] * 100)).
  split; [reflexivity|]. split; [apply restart_is; [exact ND|reflexivity|reflexivity]|]. split; [|reflexivity].
  rewrite validate_is by reflexivity. destruct (Rlt_dec 0 _) as [|G]; [reflexivity|]. exfalso. apply G. unfold electrons, Sum, el, charge_of. cbn. lra.
Qed.
