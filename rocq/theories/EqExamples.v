(** Concrete chemistries, parameters and states for the model equations. *)
From Coq Require Import Reals Qreals Lra.
From Verif Require Import Base BaseLemmas Morris Tables ExtReal Equations EqSpec EqPure EqDefaults EqPower EqReal EqFlow EqFloors EqWall EqMore.
Open Scope R_scope.

Definition K1 : constants := MkConst (1380649 / 10 ^ 29) (1602176634 / 10 ^ 28) (9109 / 10 ^ 34) (8854 / 10 ^ 15) (16605 / 10 ^ 31).

Ltac pow_pos := apply Rdiv_lt_0_compat; [lra|apply pow_lt; lra].
Lemma K1_physical : physical K1.
Proof. unfold physical, K1. cbn [c_k c_e c_me c_eps c_amu]. repeat split; pow_pos. Qed.

(** Ar and its ion, an elastic collision and the ionisation; the ion is
    neutralised at the wall. *)
Definition view1 : view := {|
  v_names := ["Ar"; "Ar+"]%string; v_charge := [0; 1]%Z; v_mass := [40; 40]; v_sigma := [3; 3]; v_stick := [0; 1];
  v_a := [2; 5]; v_b := [1; 0]; v_c := [0; 15]; v_loss := [0; 15]; v_elastic := [true; false];
  v_e_net := [0; 1]%Z; v_e_lhs := [1; 1]%Z; v_m_lhs := [0; 0]%Z;
  v_ret := [[0; 1]; [0; 0]]; v_net := [[0; 0]; [-1; 1]]%Z; v_lhs := [[1; 0]; [1; 0]]%Z |}.

Definition params1 (int : bool) (times : list Q) (t_end : Q) : mparams := {|
  p_feeds := [("Ar"%string, 100)]; p_temp := 300; p_radius := 1; p_length := 2; p_pressure := 100;
  p_t_end := t_end; p_power := map (fun _ => 500%Q) times; p_times := times; p_int := int |}.
Definition par1 : mparams := params1 false [0; 1; 1; 2]%Q 2%Q.

Lemma par_proper int times t_end : (0 < t_end)%Q -> proper_params (params1 int times t_end).
Proof. intros T. unfold proper_params, params1. cbn [p_temp p_radius p_length p_pressure p_t_end]. repeat split; try lra. exact T. Qed.
Lemma par1_proper : proper_params par1.
Proof. apply par_proper. reflexivity. Qed.

Lemma view1_proper : proper_view view1.
Proof. unfold proper_view, view1. cbn [v_mass v_sigma v_stick v_a]. repeat split; repeat constructor; lra. Qed.

Lemma init1 model : exists e, eq_init K1 model view1 par1 = Ok e.
Proof. eexists. reflexivity. Qed.

Definition n1 : list R := [7; 2].
Lemma n1_nonneg : all_nonneg n1.
Proof. unfold all_nonneg, n1. repeat constructor; lra. Qed.
Lemma n1_electrons : electrons view1 n1 = 2.
Proof. unfold electrons, Sum, el, charge_of. cbn. lra. Qed.
Lemma n1_neutral : neutral_density view1 n1 = 7.
Proof. unfold neutral_density, Sum, el, charge_of. cbn. lra. Qed.

Lemma n1_collisional rho : collisional K1 view1 par1 n1 rho.
Proof.
  intros i Li. assert (P : 0 < ((3 + 3) / 10 ^ 10) ^ 2) by (apply pow_lt; apply Rdiv_lt_0_compat; [lra|apply pow_lt; lra]).
  destruct i as [|[|i]]; [| |cbn in Li; lia]; unfold Sum, cross_section; cbn [v_names view1 List.length seq map fold_right Nat.eqb charge_of v_charge nth Z.eqb negb andb el n1 v_sigma];
    unfold el, n1; cbn [nth]; lra.
Qed.

Lemma n1_no_anion : Combined = Combined -> forall i, (i < List.length n1)%nat -> (charge_of view1 i < 0)%Z -> el (v_stick view1) i <> 0.
Proof. intros _ i Li C. destruct i as [|[|i]]; [| |cbn in Li; lia]; cbn in C; lia. Qed.

Lemma n1_returns k : (k < 2)%nat -> el (v_stick view1) k <> 0 -> Sum 2 (fun i => returned view1 i k) = 1.
Proof. intros Lk C. destruct k as [|[|k]]; [| |lia]; unfold el in C; cbn in C; [lra|]. unfold Sum, returned, el. cbn. lra. Qed.

(** A negative ion that does not stick: O2, O2+, O- *)
Definition view2 : view := {|
  v_names := ["O2"; "O2+"; "O-"]%string; v_charge := [0; 1; -1]%Z; v_mass := [32; 32; 16]; v_sigma := [3; 3; 3]; v_stick := [0; 1; 0];
  v_a := [2]; v_b := [1]; v_c := [0]; v_loss := [0]; v_elastic := [false];
  v_e_net := [-1]%Z; v_e_lhs := [1]%Z; v_m_lhs := [0]%Z;
  v_ret := [[0; 1; 0]; [0; 0; 0]; [0; 0; 0]]; v_net := [[-1; 0; 1]]%Z; v_lhs := [[1; 0; 0]]%Z |}.
Definition par2 : mparams := {|
  p_feeds := [("O2"%string, 100)]; p_temp := 300; p_radius := 1; p_length := 2; p_pressure := 100;
  p_t_end := 2; p_power := [500; 500]%Q; p_times := [0; 2]%Q; p_int := false |}.
Lemma view2_proper : proper_view view2.
Proof. unfold proper_view, view2. cbn [v_mass v_sigma v_stick v_a]. repeat split; repeat constructor; lra. Qed.
Lemma par2_proper : proper_params par2.
Proof. unfold proper_params, par2. cbn [p_temp p_radius p_length p_pressure p_t_end]. repeat split; try lra. Qed.
Lemma init2 model : exists e, eq_init K1 model view2 par2 = Ok e.
Proof. eexists. reflexivity. Qed.

Lemma anion_example : exists K v p e i, physical K /\ proper_params p /\ proper_view v /\ eq_init K Combined v p = Ok e /\
  (i < List.length (v_names v))%nat /\ el (v_stick v) i = 0 /\
  forall t y, (0 <= t <= p_t_end p)%Q -> exists dy, answers e (CObj t y) (AVecR (Ok dy)) /\
    forall k, (k < List.length (v_names v))%nat -> nth k dy (X 0) = XNaN.
Proof.
  destruct (init2 Combined) as (e & H). exists K1, view2, par2, e, 2%nat.
  split; [exact K1_physical|]. split; [exact par2_proper|]. split; [exact view2_proper|]. split; [exact H|].
  split; [cbn; lia|]. split; [reflexivity|]. intros t y T.
  destruct (rhs_answers K1 Combined view2 par2 e t y H) as (dy & A); [reflexivity|reflexivity|exact T|].
  exists dy. split; [exact A|]. apply (anion_nan K1 view2 par2 e 2 H) with (t := t) (y := y); try assumption; try reflexivity. cbn; lia.
Qed.

(** More negative than positive ions: the electron density is negative. *)
Definition n2 : list R := [1; 0; 1].
Lemma negative_rate : exists K model v p e n rho rs, physical K /\ proper_params p /\ proper_view v /\ eq_init K model v p = Ok e /\
  List.length n = List.length (v_names v) /\ all_nonneg n /\
  answers e (CRates (state n rho) None None None None) (AVec (map X rs)) /\ el rs 0 < 0.
Proof.
  destruct (init2 Combined) as (e & H).
  assert (E : electrons view2 n2 = -1) by (unfold electrons, Sum, el, charge_of; cbn; lra).
  destruct (rates_exact K1 Combined view2 par2 e n2 0 K1_physical par2_proper H) as (rs & Lr & A & F); [reflexivity|lra|].
  exists K1, Combined, view2, par2, e, n2, 0, rs.
  split; [exact K1_physical|]. split; [exact par2_proper|]. split; [exact view2_proper|]. split; [exact H|]. split; [reflexivity|].
  split; [unfold all_nonneg, n2; repeat constructor; lra|]. split; [exact A|].
  rewrite F by (rewrite Lr; cbn; lia).
  assert (LM : law_of_mass_action view2 n2 0 = -1).
  { unfold law_of_mass_action. rewrite E. unfold Prod, Sum, el. cbn. change (Pos.to_nat 1) with 1%nat. ring. }
  rewrite LM.
  assert (C : 0 < coefficient view2 par2 (electron_ev K1 view2 par2 n2 0) 0).
  { unfold coefficient. cbn [v_e_lhs view2 nth Z.ltb Z.compare]. apply Rmult_lt_0_compat; [apply Rmult_lt_0_compat|].
    - unfold el. cbn. lra.
    - apply Rpower_pos.
    - apply exp_pos. }
  lra.
Qed.

(** A single neutral species. *)
Definition view3 : view := {|
  v_names := ["Ar"]%string; v_charge := [0]%Z; v_mass := [40]; v_sigma := [3]; v_stick := [1];
  v_a := []; v_b := []; v_c := []; v_loss := []; v_elastic := []; v_e_net := []; v_e_lhs := []; v_m_lhs := [];
  v_ret := [[1]]; v_net := []; v_lhs := [] |}.
Lemma view3_proper : proper_view view3.
Proof. unfold proper_view, view3. cbn [v_mass v_sigma v_stick v_a]. repeat split; repeat constructor; lra. Qed.
Lemma single_example : exists K v p e, physical K /\ proper_params p /\ proper_view v /\ eq_init K Combined v p = Ok e /\
  List.length (v_names v) = 1%nat /\
  forall t n0 rho, (0 <= t <= p_t_end p)%Q -> exists dy, answers e (CObj t (state [n0] rho)) (AVecR (Ok dy)) /\ nth 0 dy (X 0) = XNaN.
Proof.
  assert (I : exists e, eq_init K1 Combined view3 par1 = Ok e) by (eexists; reflexivity). destruct I as (e & H).
  exists K1, view3, par1, e. split; [exact K1_physical|]. split; [exact par1_proper|]. split; [exact view3_proper|]. split; [exact H|].
  split; [reflexivity|]. intros t n0 rho T.
  destruct (rhs_answers K1 Combined view3 par1 e t (state [n0] rho) H) as (dy & A); [reflexivity|reflexivity|exact T|].
  exists dy. split; [exact A|].
  apply (single_nan K1 view3 par1 e n0 rho K1_physical par1_proper view3_proper H) with (t := t); [reflexivity|reflexivity|exact A].
Qed.

(** States without electrons or without neutrals. *)
Lemma no_electrons : exists K model v p e n, physical K /\ proper_params p /\ proper_view v /\ eq_init K model v p = Ok e /\
  List.length n = List.length (v_names v) /\ all_nonneg n /\ answers e (CElTemp (state n 0) None None) (ANum XNaN).
Proof.
  destruct (init1 Combined) as (e & H). exists K1, Combined, view1, par1, e, [5; 0].
  split; [exact K1_physical|]. split; [exact par1_proper|]. split; [exact view1_proper|]. split; [exact H|]. split; [reflexivity|].
  split; [unfold all_nonneg; repeat constructor; lra|]. apply (te_nan K1 Combined view1 par1 e [5; 0] H); [reflexivity|].
  unfold electrons, Sum, el, charge_of. cbn. lra.
Qed.

Lemma no_neutrals : exists K model v p e n fs, physical K /\ proper_params p /\ proper_view v /\ eq_init K model v p = Ok e /\
  List.length n = List.length (v_names v) /\ all_nonneg n /\
  answers e (CFlow (state n 3) None None) (AVec fs) /\ nth 0 fs (X 0) = XNaN.
Proof.
  destruct (init1 Combined) as (e & H). exists K1, Combined, view1, par1, e, [0; 2], (get_flow_source_rates (st e) (state [0; 2] 3) None None).
  split; [exact K1_physical|]. split; [exact par1_proper|]. split; [exact view1_proper|]. split; [exact H|]. split; [reflexivity|].
  split; [unfold all_nonneg; repeat constructor; lra|]. split; [reflexivity|].
  apply (flow_undefined K1 Combined view1 par1 e [0; 2] 3 0 par1_proper H).
  - reflexivity.
  - unfold neutral_density, Sum, el, charge_of. cbn. lra.
  - unfold el. cbn [nth]. ring.
  - cbn; lia.
  - reflexivity.
Qed.

(** Times given as integers. *)
Lemma int_rejected : exists K model v times t_end,
  (exists e, eq_init K model v (params1 false times t_end) = Ok e) /\
  eq_init K model v (params1 true times t_end) = Err EAssertion.
Proof. exists K1, Combined, view1, [0; 1; 1; 2]%Q, 2%Q. split; [eexists; reflexivity|reflexivity]. Qed.
Lemma int_moved : exists K model v times t_end e,
  eq_init K model v (params1 true times t_end) = Ok e /\
  ~ Forall2 (moved_by ((1 # 100000) * t_end)) times (s_tpow (st e)) /\
  exists i, (i < List.length times)%nat /\ (nth i (s_tpow (st e)) 0 == nth i times 0 - 1)%Q.
Proof.
  assert (I : exists e, eq_init K1 Combined view1 (params1 true [0; 5; 5; 10]%Q 10%Q) = Ok e /\
    s_tpow (st e) = adjust true ((1 # 100000) * 10) [0; 5; 5; 10]%Q) by (eexists; split; reflexivity).
  destruct I as (e & H & T). exists K1, Combined, view1, [0; 5; 5; 10]%Q, 10%Q, e. split; [exact H|]. rewrite T. clear.
  assert (A : exists a b c d, adjust true ((1 # 100000) * 10) [0; 5; 5; 10]%Q = [a; b; c; d] /\ (b == 4)%Q) by
    (do 4 eexists; split; [vm_compute; reflexivity|reflexivity]).
  destruct A as (a & b & c & d & -> & B). split.
  - intros F. inversion F as [|? ? ? ? _ F1]; subst. inversion F1 as [|? ? ? ? M _]; subst. unfold moved_by in M.
    rewrite B in M. destruct M as [M|[M|M]]; revert M; vm_compute; discriminate.
  - exists 1%nat. split; [cbn; lia|]. cbn [nth]. rewrite B. reflexivity.
Qed.

(** Three equal times. *)
Lemma triple_rejected : exists K model v times t_end, nth 0 times 0%Q = 0%Q /\
  (forall i, (Datatypes.S i < List.length times)%nat -> (nth i times 0 <= nth (Datatypes.S i) times 0)%Q) /\
  eq_init K model v (params1 false times t_end) = Err EAssertion.
Proof.
  exists K1, Combined, view1, [0; 1; 1; 1; 2]%Q, 2%Q. split; [reflexivity|]. split; [|reflexivity].
  intros i Li. cbn [List.length] in Li.
  do 4 (destruct i as [|i]; [cbn [nth]; discriminate|]). lia.
Qed.

Lemma par1_spaced : well_spaced ((1 # 100000) * p_t_end par1)%Q (p_times par1).
Proof.
  cbn [par1 params1 p_t_end p_times well_spaced]. split; [left; reflexivity|]. split; [right; split; reflexivity|].
  split; [left; reflexivity|exact I].
Qed.

Lemma finite_example : exists e ds, eq_init K1 Combined view1 par1 = Ok e /\
  answers e (CObj 1 (state n1 9)) (AVecR (Ok (map X ds))).
Proof.
  destruct (init1 Combined) as (e & H).
  destruct (rhs_finite K1 Combined view1 par1 e n1 9 1%Q K1_physical par1_proper view1_proper H) as (ds & _ & A).
  - reflexivity.
  - exact n1_nonneg.
  - rewrite n1_electrons. lra.
  - apply n1_collisional.
  - exact n1_no_anion.
  - rewrite n1_neutral. lra.
  - reflexivity.
  - split; discriminate.
  - exists e, ds. split; [exact H|exact A].
Qed.
