(** What cannot be diagnosed. *)
From Coq Require Import Reals Qreals Lra.
From Verif Require Import Base BaseLemmas Chemistry Morris MorrisStats InitialGuess Tables ExtReal Equations Neutral Solution EqSpec EqPure EqReal EqExamples Diagnose DiagnoseSpec DiagnoseProofs.
Open Scope R_scope.

(** Pressure of a state of real numbers. *)
Lemma real_pressure s n rho : get_total_pressure s (state n rho) None = X (c_k (s_const s) * temp_g s * fold_right Rplus 0 n).
Proof.
  unfold get_total_pressure, get_total_density, get_density_vector, state, opt. rewrite removelast_last.
  rewrite xsum_real. reflexivity.
Qed.

Lemma same_backend b sol : bk_primary b = Some sol -> MkBackend (bk_eq b) (bk_success b) (Some sol) (bk_secondary b) = b.
Proof. destruct b. cbn. intros ->. reflexivity. Qed.

Section More.
  Variable power_at : static -> ext -> ext.

  Lemma ion_evaluations e ys : exists r, evaluations power_at "ion_temperature" ys e = (e, r) /\
    ((exists y, In y ys /\ xltb (X mtorr) (get_total_pressure (st e) y None) = false) -> r = Err EAttribute).
  Proof.
    induction ys as [|y ys (r & IH1 & IH2)].
    - exists (Ok []). split; [reflexivity|]. intros (y & [] & _).
    - cbn [evaluations]. unfold bindM at 1.
      assert (EV : evaluate power_at "ion_temperature" y e = (e, Ok (ion_value (st e) y))) by reflexivity.
      rewrite EV. unfold ion_value. destruct (xltb (X mtorr) (get_total_pressure (st e) y None)) eqn:B.
      + unfold bindM. rewrite IH1. eexists. split; [reflexivity|].
        intros (z & [<-|I] & Z); [congruence|]. rewrite (IH2 (ex_intro _ z (conj I Z))). reflexivity.
      + eexists. split; reflexivity.
  Qed.

  (** One state at low pressure spoils the whole table. *)
  Lemma ion_fails K model v p e calls names ids totals b sol :
    eq_init K model v p = Ok e -> bk_eq b = after calls e -> bk_primary b = Some sol ->
    (exists t n rho, In (t, state n rho) sol /\ c_k K * p_temp p * fold_right Rplus 0 n <= 133322 / 1000000) ->
    diagnose power_at names ids "ion_temperature" None totals b = (b, Err EAttribute).
  Proof.
    intros H B S (t & n & rho & I & L). unfold diagnose. rewrite S. cbn [option_map].
    assert (SE : st (bk_eq b) = st e) by (rewrite B; exact (proj2 (history_free K model v p e calls (CDensity []) H))).
    assert (PK : s_const (st e) = K /\ temp_g (st e) = p_temp p).
    { clear - H. revert H. unfold eq_init. intros H.
      repeat match type of H with bind ?r _ = _ => destruct r; cbn [bind] in H; [|discriminate H] end.
      injection H as <-. split; reflexivity. }
    destruct (ion_evaluations (bk_eq b) (map snd sol)) as (r & -> & E2). rewrite E2.
    - rewrite (same_backend b sol S). reflexivity.
    - exists (state n rho). split; [exact (in_map snd _ _ I)|]. rewrite SE, real_pressure. destruct PK as [-> ->].
      unfold xltb, mtorr. destruct (Rlt_dec _ _) as [Q|Q]; [|reflexivity]. lra.
  Qed.

  (** Quantities that never work. *)
  Lemma never names ids totals b t y sol : bk_primary b = Some ((t, y) :: sol) ->
    snd (diagnose power_at names ids "ambipolar_diffusivity_neg" None totals b) = Err EAttribute /\
    snd (diagnose power_at names ids "drho_dt" None totals b) = Err EType /\
    snd (diagnose power_at names ids "dy_dt" None totals b) = Err EType.
  Proof. intros S. unfold diagnose. rewrite S. split; [|split]; reflexivity. Qed.

  Lemma evaluations_sigma e ys : match snd (evaluations power_at "sigma_sc" ys e) with
    | Ok vs => Forall (fun v => exists m, v = DMat m) vs /\ List.length vs = List.length ys | Err _ => False end.
  Proof.
    revert e. induction ys as [|y ys IH]; intros e; [split; [constructor|reflexivity]|].
    cbn [evaluations]. unfold bindM at 1.
    assert (EV : exists e1 m, evaluate power_at "sigma_sc" y e = (e1, Ok (DMat m))).
    { unfold evaluate. cbn [methods aget String.eqb Ascii.eqb Bool.eqb]. unfold bindM.
      destruct (get_sigma_sc y None None e) as [e1 m]. exists e1, m. reflexivity. }
    destruct EV as (e1 & m & ->). unfold bindM. specialize (IH e1).
    destruct (evaluations power_at "sigma_sc" ys e1) as [e2 [vs|x]]; cbn [snd] in *; [|contradiction].
    unfold ret_. cbn [snd bind]. destruct IH as [F L]. split; [constructor; [exists m; reflexivity|exact F]|cbn; congruence].
  Qed.

  Lemma sigma_fails names ids totals b t y sol : bk_primary b = Some ((t, y) :: sol) ->
    snd (diagnose power_at names ids "sigma_sc" None totals b) = Err EValue.
  Proof.
    intros S. unfold diagnose. rewrite S. cbn [option_map].
    pose proof (evaluations_sigma (bk_eq b) (map snd ((t, y) :: sol))) as F.
    destruct (evaluations power_at "sigma_sc" (map snd ((t, y) :: sol)) (bk_eq b)) as [e' [vs|x]]; cbn [snd] in *; [|contradiction].
    destruct F as [F L]. cbn [bind]. destruct vs as [|v vs]; [discriminate L|].
    inversion F as [|? ? (m & ->) ?]; subst. reflexivity.
  Qed.

  Lemma names_known x : In x (map fst (methods power_at)) -> In x known.
  Proof.
    intros I. assert (F : forallb (fun x => existsb (String.eqb x) known) (map fst (methods power_at)) = true) by reflexivity.
    rewrite forallb_forall in F. specialize (F x I). apply existsb_exists in F. destruct F as (z & Z & Q).
    apply String.eqb_eq in Q. subst z. exact Z.
  Qed.

  (** Unknown names; no solution; times of another solution. *)
  Lemma unknown names ids totals b t y sol q : bk_primary b = Some ((t, y) :: sol) ->
    ~ In q known -> diagnose power_at names ids q None totals b = (b, Err EAttribute).
  Proof.
    intros S N. unfold diagnose. rewrite S. cbn [option_map map evaluations snd]. unfold bindM at 1, evaluate.
    assert (G : sget q (methods power_at) = None).
    { destruct (sget q (methods power_at)) eqn:G; [|reflexivity]. exfalso. apply N.
      apply (aget_In String.eqb String.eqb_eq) in G. apply (in_map fst) in G. exact (names_known q G). }
    rewrite G. cbn [ret_]. rewrite (same_backend b _ S). reflexivity.
  Qed.

  Lemma nothing_stored names ids totals b q : bk_primary b = None ->
    diagnose power_at names ids q None totals b = (b, Err EType).
  Proof. intros S. unfold diagnose. rewrite S. reflexivity. Qed.

  (** The power is looked up at the numbers of the state. *)
  Lemma power_row names ids b t y sol : bk_primary b = Some ((t, y) :: sol) ->
    List.length y = S (List.length names) -> Forall (fun ty => List.length (snd ty) = List.length y) sol ->
    s_ns (st (bk_eq b)) = List.length names -> s_nr (st (bk_eq b)) <> List.length y ->
    NoDup (names ++ ["rho"]%string) -> ~ In "t"%string names /\ ~ In "total"%string names ->
    exists rows, diagnose power_at names ids "power_ext" None false b = (b, Ok rows) /\
      rows = map (fun ty => (LText "t"%string, fst ty) ::
               combine (map LText (names ++ ["rho"]%string)) (map (power_at (st (bk_eq b))) (snd ty))) ((t, y) :: sol).
  Proof.
    intros S Ly F Sn Sr ND T. unfold diagnose. rewrite S. cbn [option_map].
    assert (EV : forall ys, evaluations power_at "power_ext" ys (bk_eq b) =
              (bk_eq b, Ok (map (fun y => DVec (map (power_at (st (bk_eq b))) y)) ys))).
    { induction ys as [|z ys IH]; [reflexivity|]. cbn [evaluations map]. unfold bindM at 1.
      change (evaluate power_at "power_ext" z (bk_eq b)) with (bk_eq b, Ok (DVec (map (power_at (st (bk_eq b))) z))).
      unfold bindM. rewrite IH. reflexivity. }
    rewrite EV. cbn [bind].
    assert (MC : forall ys, mapM cells (map (fun y => DVec (map (power_at (st (bk_eq b))) y)) ys) =
              Ok (map (map (power_at (st (bk_eq b)))) ys)).
    { induction ys as [|z ys IH]; [reflexivity|]. cbn [map mapM cells bind]. rewrite IH. reflexivity. }
    rewrite MC. cbn [bind].
    assert (WD : match map (map (power_at (st (bk_eq b)))) (map snd ((t, y) :: sol)) with [] => O | l :: _ => List.length l end =
                 Datatypes.S (List.length names)) by (cbn [map snd]; rewrite map_length; exact Ly).
    rewrite WD.
    assert (LB : dlabels (st (bk_eq b)) names ids (Datatypes.S (List.length names)) = map LText (names ++ ["rho"]%string)).
    { unfold dlabels. rewrite Sn. rewrite (proj2 (Nat.eqb_neq _ _)) by lia.
      rewrite (proj2 (Nat.eqb_neq _ _)) by (rewrite <- Ly; intros Q; apply Sr; symmetry; exact Q).
      rewrite (proj2 (Nat.eqb_eq _ _)) by lia. rewrite map_app. reflexivity. }
    rewrite LB. rewrite !map_length, app_length. change (List.length ["rho"%string]) with 1%nat. rewrite Nat.add_1_r, !Nat.eqb_refl.
    cbn [negb raise_if bind].
    rewrite (same_backend b _ S). eexists. split; [|reflexivity].
    transitivity (b, mapM (fun tr : ext * list ext => finish_row false (fst tr) (combine (map LText (names ++ ["rho"%string])) (snd tr)))
        (combine (map fst ((t, y) :: sol)) (map (map (power_at (st (bk_eq b)))) (map snd ((t, y) :: sol))))); [reflexivity|].
    f_equal.
    assert (F2 : Forall (fun ty => List.length (snd ty) = Datatypes.S (List.length names)) ((t, y) :: sol)).
    { constructor; [exact Ly|]. rewrite <- Ly. exact F. }
    clear - F2 ND T. induction F2 as [|[t' y'] l L F2 IH]; [reflexivity|]. cbn [map combine mapM fst snd] in *.
    assert (LL : List.length (map LText (names ++ ["rho"%string])) = List.length (map (power_at (st (bk_eq b))) y')).
    { rewrite !map_length, app_length. cbn [List.length]. lia. }
    assert (FC := fst_combine _ _ LL).
    rewrite (finish_spec false t' (combine (map LText (names ++ ["rho"%string])) (map (power_at (st (bk_eq b))) y'))).
    - cbn [bind]. rewrite IH. rewrite app_nil_r. reflexivity.
    - rewrite FC. apply FinFun.Injective_map_NoDup; [intros x z [= ->]; reflexivity|exact ND].
    - rewrite FC. intros H. apply in_map_iff in H. destruct H as (x & [= ->] & H). apply in_app_or in H.
      destruct H as [H|[H|[]]]; [exact (proj1 T H)|discriminate H].
    - rewrite FC. intros H. apply in_map_iff in H. destruct H as (x & [= ->] & H). apply in_app_or in H.
      destruct H as [H|[H|[]]]; [exact (proj2 T H)|discriminate H].
  Qed.

  Lemma power_misread K model v p e calls ids b t y sol :
    eq_init K model v p = Ok e -> bk_eq b = after calls e -> bk_primary b = Some ((t, y) :: sol) ->
    Forall (fun ty => List.length (snd ty) = S (List.length (v_names v))) ((t, y) :: sol) ->
    List.length (v_a v) <> S (List.length (v_names v)) -> own_names (v_names v) -> ~ In "rho"%string (v_names v) ->
    diagnose power_at (v_names v) ids "power_ext" None false b =
      (b, Ok (map (fun ty => (LText "t"%string, fst ty) ::
               combine (map LText (v_names v ++ ["rho"%string])) (map (power_at (st e)) (snd ty))) ((t, y) :: sol))).
  Proof.
    intros H B S F D (N & T) R.
    assert (SE : st (bk_eq b) = st e) by (rewrite B; exact (proj2 (history_free K model v p e calls (CDensity []) H))).
    destruct (init_sizes K model v p e H) as (_ & Sn & Sr). inversion F as [|? ? Ly F']; subst. cbn [snd] in Ly.
    destruct (power_row (v_names v) ids b t y sol S Ly) as (rows & E & ->).
    - rewrite Ly. exact F'.
    - rewrite SE. exact Sn.
    - rewrite SE. fold (nr (st e)). rewrite Sr, Ly. exact D.
    - apply NoDup_Add with (a := "rho"%string) (l := v_names v); [|split; assumption].
      rewrite <- (app_nil_r (v_names v)) at 1. apply Add_app.
    - exact T.
    - rewrite E. rewrite SE. reflexivity.
  Qed.

  (** A missing value does not show in the total. *)
  Lemma hidden_nan e b t r rho : bk_eq b = e -> s_ns (st e) = 2%nat -> bk_primary b = Some [(t, [XNaN; X r; rho])] ->
    snd (diagnose power_at ["A"; "B"]%string [] "density_vector" None true b) =
      Ok [[(LText "t", t); (LText "A", XNaN); (LText "B", X r); (LText "total", xadd (X 0) (X r))]]%string.
  Proof. intros B N S. unfold diagnose. rewrite S, B. cbn. unfold dlabels. rewrite N. reflexivity. Qed.
End More.

(** ** An example: argon with three reactions *)
Definition view3 : view := {|
  v_names := ["Ar"; "Ar+"]%string; v_charge := [0; 1]%Z; v_mass := [40; 40]; v_sigma := [3; 3]; v_stick := [0; 1];
  v_a := [2; 5; 1]; v_b := [1; 0; 0]; v_c := [0; 15; 0]; v_loss := [0; 15; 0]; v_elastic := [true; false; false];
  v_e_net := [0; 1; -1]%Z; v_e_lhs := [1; 1; 1]%Z; v_m_lhs := [0; 0; 1]%Z;
  v_ret := [[0; 1]; [0; 0]]; v_net := [[0; 0]; [-1; 1]; [1; -1]]%Z; v_lhs := [[1; 0]; [1; 0]; [0; 1]]%Z |}.
Definition sol3 : list (ext * list ext) := [(X 0, state [7; 2] 3); (X 1, state [6; 3] 4)].

Lemma init3 model : exists e, eq_init K1 model view3 par1 = Ok e.
Proof. eexists. reflexivity. Qed.

Lemma setting3 : own_names (v_names view3) /\ (forall sh, distinguishable view3 sh) /\ NoDup [1; 2; 3]%Z /\
  Forall (fun ty => List.length (snd ty) = S (List.length (v_names view3))) sol3 /\ sol3 <> [].
Proof.
  split; [|split; [|split; [|split]]].
  - split; [repeat constructor; cbn; intuition discriminate|]. split; cbn; intuition discriminate.
  - intros []; cbn; lia || (split; lia).
  - repeat constructor; cbn; intuition discriminate.
  - repeat constructor.
  - discriminate.
Qed.

Lemma low3 : c_k K1 * p_temp par1 * fold_right Rplus 0 [7; 2] <= 133322 / 1000000.
Proof.
  unfold K1, par1, params1. cbn [c_k p_temp fold_right].
  assert (P : 1380649 / 10 ^ 29 <= 1 / 10 ^ 6).
  { replace (1380649 / 10 ^ 29) with (1380649 / 10 ^ 23 * (1 / 10 ^ 6)) by (field; split; apply pow_nonzero; lra).
    assert (Q : 0 < 1 / 10 ^ 6) by (apply Rdiv_lt_0_compat; [lra|apply pow_lt; lra]).
    assert (1380649 / 10 ^ 23 <= 1).
    { apply Rmult_le_reg_r with (10 ^ 23); [apply pow_lt; lra|]. unfold Rdiv. rewrite Rmult_assoc, Rinv_l by (apply pow_nonzero; lra). lra. }
    nra. }
  lra.
Qed.

Lemma in_rates : In ("reaction_rates"%string, PerReaction, fun y => CRates y None None None None) quantities.
Proof. unfold quantities. do 8 right. left. reflexivity. Qed.

Lemma setting1 : Forall (fun ty => List.length (snd ty) = S (List.length (v_names view1))) sol3 /\
  List.length (v_a view1) <> S (List.length (v_names view1)) /\ own_names (v_names view1) /\ ~ In "rho"%string (v_names view1).
Proof.
  split; [repeat constructor|]. split; [discriminate|]. split; [exact (proj1 setting3)|]. cbn. intuition discriminate.
Qed.
