(** Reported rows, restarts and the results a Model keeps. *)
From Coq Require Import Reals Qreals Lra.
From Verif Require Import Base BaseLemmas Chemistry Morris MorrisStats InitialGuess InitialMain Tables ExtReal Equations EqSpec EqPure EqDefaults EqReal EqFlow EqFloors Neutral NeutralProofs Solution.
Open Scope R_scope.

Definition reserved : list string := ["t"; "e"; "Te"; "Tg"; "p"]%string.

Lemma sset_new {V} k (x : V) d : ~ In k (map fst d) -> sset k x d = (d ++ [(k, x)])%list.
Proof.
  induction d as [|[k' x'] d IH]; cbn; intros N; [reflexivity|].
  destruct (String.eqb_spec k k') as [->|_]; [exfalso; apply N; left; reflexivity|]. rewrite IH; [reflexivity|tauto].
Qed.

Lemma map_fst_combine {A B} (a : list A) (b : list B) : List.length a = List.length b -> map fst (combine a b) = a.
Proof. revert b. induction a as [|x a IH]; intros [|y b] L; try discriminate L; [reflexivity|]. cbn. now rewrite IH by (cbn in L; lia). Qed.

Lemma frame_parts cl s names t y : List.length names = List.length (get_density_vector y) ->
  (forall x, In x names -> ~ In x reserved) ->
  frame_row cl s names t y = (combine names (get_density_vector y) ++
    [("e", report_density cl s y); ("Te", report_temperature cl s y); ("Tg", X (temp_g s)); ("p", get_total_pressure s y None); ("t", t)]%string)%list.
Proof.
  intros L D. unfold frame_row. cbv zeta.
  assert (N : forall k, In k reserved -> ~ In k names) by (intros k K I; exact (D k I K)).
  assert (S : forall k x suf, In k reserved -> ~ In k (map fst suf) ->
    sset k x (combine names (get_density_vector y) ++ suf)%list = (combine names (get_density_vector y) ++ suf ++ [(k, x)])%list).
  { intros k x suf K M. rewrite sset_new, <- app_assoc; [reflexivity|]. rewrite map_app, map_fst_combine by exact L.
    rewrite in_app_iff. intros [I|I]; [exact (N k K I)|exact (M I)]. }
  pose proof (S "e"%string (report_density cl s y) []) as S0. rewrite app_nil_r in S0. rewrite S0 by (cbn; tauto). clear S0.
  repeat (rewrite S; [|cbn; tauto|cbn; intuition discriminate]). reflexivity.
Qed.

Lemma sget_app {V} k (a b : list (string * V)) : sget k (a ++ b)%list = match sget k a with Some x => Some x | None => sget k b end.
Proof. induction a as [|[k' x'] a IH]; cbn; [reflexivity|]. destruct (String.eqb k k'); [reflexivity|exact IH]. Qed.

Lemma sget_absent {V} k (d : list (string * V)) : ~ In k (map fst d) -> sget k d = None.
Proof.
  induction d as [|[k' x'] d IH]; cbn; intros N; [reflexivity|].
  destruct (String.eqb_spec k k') as [->|_]; [exfalso; apply N; left; reflexivity|]. apply IH. tauto.
Qed.

Lemma pick_all {V} (r : list (string * V)) : NoDup (map fst r) -> forall d, incl d r ->
  mapM (fun c => match sget c r with Some x => Ok (c, x) | None => Err EKey end) (map fst d) = Ok d.
Proof.
  intros N d. induction d as [|[k x] d IH]; intros I; [reflexivity|]. cbn [map fst mapM].
  rewrite (In_aget String.eqb String.eqb_eq k r x N (I _ (or_introl eq_refl))). cbn [bind].
  rewrite IH by (intros z Z; apply I; right; exact Z). reflexivity.
Qed.

Lemma row_is cl s names t y : NoDup names -> List.length names = List.length (get_density_vector y) ->
  (forall x, In x names -> ~ In x reserved) ->
  rearrange (frame_row cl s names t y) = Ok (("t"%string, t) :: combine names (get_density_vector y) ++
    [("e", report_density cl s y); ("Te", report_temperature cl s y); ("Tg", X (temp_g s)); ("p", get_total_pressure s y None)]%string)%list.
Proof.
  intros ND L D. rewrite frame_parts by assumption. unfold rearrange.
  set (core := (combine names (get_density_vector y) ++
    [("e", report_density cl s y); ("Te", report_temperature cl s y); ("Tg", X (temp_g s)); ("p", get_total_pressure s y None)]%string)%list).
  match goal with |- context [mapM (fun c => match sget c ?z with _ => _ end)] => set (r := z) end.
  assert (Er : r = (core ++ [("t"%string, t)])%list) by (unfold r, core; rewrite <- app_assoc; reflexivity).
  assert (Ec : map fst core = (names ++ ["e"; "Te"; "Tg"; "p"]%string)%list).
  { unfold core. rewrite map_app, map_fst_combine by exact L. reflexivity. }
  assert (Nt : ~ In "t"%string (map fst core)).
  { rewrite Ec, in_app_iff. intros [I|I]; [apply (D _ I); cbn; tauto|cbn in I; intuition discriminate]. }
  assert (Nr : NoDup (map fst r)).
  { rewrite Er, map_app, Ec. cbn [map fst]. rewrite <- app_assoc.
    assert (forall l, NoDup l -> (forall x, In x l -> In x reserved) -> NoDup (names ++ l)%list).
    { clear -ND D. induction names as [|a l IH]; intros m Nm Hm; [exact Nm|]. cbn. inversion ND; subst. constructor.
      - rewrite in_app_iff. intros [I|I]; [contradiction|]. exact (D a (or_introl eq_refl) (Hm _ I)).
      - apply IH; [assumption|intros x I; apply D; right; exact I|exact Nm|exact Hm]. }
    apply H; [|cbn; tauto]. repeat constructor; cbn; intuition discriminate. }
  assert (E : ("t"%string :: removelast (map fst r)) = map fst (("t"%string, t) :: core)).
  { cbn [map fst]. rewrite Er, map_app. cbn [map fst]. rewrite removelast_last. reflexivity. }
  rewrite E. apply pick_all; [exact Nr|]. rewrite Er. intros z [Z|Z]; apply in_app_iff; [right; left; exact Z|left; exact Z].
Qed.

(** ** C118 *)

(** The row of the table for the state ([n], [rho]) at time [t]. *)
Definition reported (K : constants) (v : view) (p : mparams) (t : R) (n : list R) (rho : R) : list (string * ext) :=
  (("t"%string, X t) :: combine (v_names v) (map X n) ++
   [("e", X (electrons v n)); ("Te", X (electron_ev K v p n rho)); ("Tg", X (p_temp p)); ("p", X (pressure_of K v p n))]%string)%list.

Lemma row_reported K model v p e t n rho : eq_init K model v p = Ok e -> NoDup (v_names v) ->
  (forall x, In x (v_names v) -> ~ In x reserved) -> List.length n = List.length (v_names v) -> electrons v n <> 0 ->
  rearrange (frame_row General (st e) (v_names v) (X t) (state n rho)) = Ok (reported K v p t n rho).
Proof.
  intros I ND D L NZ. pose proof (init_built _ _ _ _ _ I) as B.
  rewrite row_is; [|exact ND|rewrite state_density, map_length; symmetry; exact L|exact D].
  unfold report_density, report_temperature, reported. rewrite state_density.
  rewrite (electron_density _ _ _ _ _ _ _ B L), (te_value _ _ _ _ _ _ _ B L NZ), (total_pressure _ _ _ _ _ _ _ B L).
  unfold temp_g. rewrite (b_par _ _ _ _ _ B). reflexivity.
Qed.

Lemma solution_reported K model v p e (sol : list (R * (list R * R))) : eq_init K model v p = Ok e -> NoDup (v_names v) ->
  (forall x, In x (v_names v) -> ~ In x reserved) ->
  List.length (v_names v) <> 1%nat -> List.length (v_names v) <> 0%nat -> List.length (v_a v) <> 1%nat ->
  (forall t n rho, In (t, (n, rho)) sol -> List.length n = List.length (v_names v) /\ electrons v n <> 0) ->
  post_process General (st e) (v_names v) (map (fun x => (X (fst x), state (fst (snd x)) (snd (snd x)))) sol) =
  Ok (map (fun x => reported K v p (fst x) (fst (snd x)) (snd (snd x))) sol).
Proof.
  intros I ND D N1 N0 R1 F. pose proof (init_built _ _ _ _ _ I) as B. unfold post_process, labelled_value.
  rewrite (b_ns _ _ _ _ _ B), (b_nr _ _ _ _ _ B).
  rewrite (proj2 (Nat.eqb_neq _ _) N1), (proj2 (Nat.eqb_neq _ _) R1), (proj2 (Nat.eqb_neq (List.length (v_names v) + 1) 1)) by lia.
  cbn [negb andb raise_if bind]. induction sol as [|[t [n rho]] sol IH]; [reflexivity|].
  cbn [map mapM fst snd]. destruct (F t n rho (or_introl eq_refl)) as [L NZ].
  rewrite (row_reported K model v p e t n rho) by assumption. cbn [bind].
  rewrite IH by (intros; apply (F t0 n0 rho0); right; assumption). reflexivity.
Qed.

(** Restart from a row: the densities under the species' names and the
    electron temperature. *)
Definition densities_of (names : list string) (row : list (string * ext)) : res (list (string * ext)) :=
  mapM (fun n => match sget n row with Some x => Ok (n, x) | None => Err EKey end) names.

Lemma reported_densities K v p t n rho : NoDup (v_names v) -> (forall x, In x (v_names v) -> ~ In x reserved) ->
  List.length n = List.length (v_names v) ->
  densities_of (v_names v) (reported K v p t n rho) = Ok (combine (v_names v) (map X n)) /\
  sget "Te"%string (reported K v p t n rho) = Some (X (electron_ev K v p n rho)).
Proof.
  intros ND D L. assert (L' : List.length (v_names v) = List.length (map X n)) by (rewrite map_length; symmetry; exact L). split.
  - unfold densities_of, reported. rewrite <- (map_fst_combine (v_names v) (map X n) L') at 1.
    set (core := combine (v_names v) (map X n)). assert (Nc : NoDup (map fst core)) by (unfold core; rewrite map_fst_combine; assumption).
    refine (eq_trans _ (pick_all core Nc core (incl_refl _))). apply mapM_ext. intros k Hk.
    cbn [aget]. assert (Hk' : In k (v_names v)) by (unfold core in Hk; rewrite map_fst_combine in Hk; assumption).
    destruct (String.eqb_spec k "t"%string) as [->|_]; [exfalso; apply (D _ Hk'); cbn; tauto|]. rewrite sget_app.
    apply in_map_iff in Hk as ([k' x] & <- & Hk). cbn [fst]. rewrite (In_aget String.eqb String.eqb_eq k' core x Nc Hk). reflexivity.
  - unfold reported. cbn [aget String.eqb Ascii.eqb Bool.eqb]. rewrite sget_app, sget_absent; [reflexivity|].
    rewrite map_fst_combine by exact L'. intros I. apply (D _ I). cbn. tauto.
Qed.

Lemma electrons_sum v n : List.length n = List.length (v_names v) -> List.length (v_charge v) = List.length (v_names v) ->
  xsum (map (fun p => xmul (fst p) (X (IZR (snd p)))) (combine (map X n) (v_charge v))) = X (electrons v n).
Proof.
  intros L Lc. unfold electrons. rewrite <- xsum_tab. f_equal. unfold charge_of, tab, el. rewrite <- L. rewrite <- Lc in L. clear Lc. revert L.
  generalize (v_charge v). induction n as [|a n IH]; intros [|z l] L; try discriminate L; [reflexivity|].
  cbn [List.length seq map combine fst snd xmul nth]. f_equal. rewrite <- seq_shift, map_map. rewrite IH by (cbn in L; lia). reflexivity.
Qed.

Lemma restart_is v n te : NoDup (v_names v) -> List.length n = List.length (v_names v) -> List.length (v_charge v) = List.length (v_names v) ->
  restart (v_names v) (v_charge v) (X te) (combine (v_names v) (map X n)) = Ok (state n (3 / 2 * electrons v n * te)).
Proof.
  intros ND L Lc. assert (L' : List.length (v_names v) = List.length (map X n)) by (rewrite map_length; symmetry; exact L).
  unfold restart. rewrite map_fst_combine by exact L'. rewrite same_names_refl. cbn [negb raise_if bind].
  assert (E : mapM (fun n0 => match sget n0 (combine (v_names v) (map X n)) with Some x => Ok x | None => Err EKey end) (v_names v) = Ok (map X n)).
  { clear L Lc. revert ND L'. generalize (v_names v) as l, (map X n) as m.
    assert (G : forall (m : list ext) (l : list string) (d : list (string * ext)), NoDup (map fst d) -> incl (combine l m) d -> List.length l = List.length m ->
      mapM (fun n0 => match sget n0 d with Some x => Ok x | None => Err EKey end) l = Ok m).
    { induction m as [|x m IH]; intros [|k l] d N I L; try discriminate L; [reflexivity|]. cbn [mapM].
      rewrite (In_aget String.eqb String.eqb_eq k d x N (I _ (or_introl eq_refl))). cbn [bind].
      rewrite (IH l d N); [reflexivity|intros z Z; apply I; right; exact Z|cbn in L; lia]. }
    intros l m ND L'. apply G; [rewrite map_fst_combine by exact L'; exact ND|apply incl_refl|exact L']. }
  rewrite E. cbn [bind]. rewrite electrons_sum by assumption. reflexivity.
Qed.

(** The energy density after a restart. *)
Lemma restart_energy K v p n rho : 0 < electrons v n ->
  3 / 2 * electrons v n * electron_ev K v p n rho = Rmax rho (3 / 2 * electrons v n * gas_ev K p).
Proof.
  intros P. unfold electron_ev. rewrite <- RmaxRmult by lra. f_equal. field. lra.
Qed.
Lemma restart_energy_neg K v p n rho : electrons v n < 0 ->
  3 / 2 * electrons v n * electron_ev K v p n rho = Rmin rho (3 / 2 * electrons v n * gas_ev K p).
Proof.
  intros P. unfold electron_ev. set (g := 3 / 2 * electrons v n * gas_ev K p).
  assert (E : 3 / 2 * electrons v n * (rho / electrons v n * 2 / 3) = rho) by (field; lra).
  unfold Rmax. destruct (Rle_dec (rho / electrons v n * 2 / 3) (gas_ev K p)) as [H|H].
  - assert (g <= rho) by (rewrite <- E; apply Rmult_le_compat_neg_l; lra). unfold Rmin. destruct (Rle_dec rho g); unfold g in *; lra.
  - assert (rho <= g) by (rewrite <- E; apply Rmult_le_compat_neg_l; lra). unfold Rmin. destruct (Rle_dec rho g); unfold g in *; lra.
Qed.

Lemma xleb_real a b : xleb (X a) (X b) = true <-> a <= b.
Proof. unfold xleb. destruct (xltb (X b) (X a)) eqn:E; cbn; [rewrite xltb_real in E|rewrite xltb_real_false in E]; split; try discriminate; intros; try reflexivity; lra. Qed.

Lemma validate_is v n rho : List.length n = List.length (v_names v) -> List.length (v_charge v) = List.length (v_names v) ->
  validate (v_names v) (v_charge v) (state n rho) = if Rlt_dec 0 (electrons v n) then Ok tt else Err EInitialSolution.
Proof.
  intros L Lc. unfold validate.
  assert (E : List.length (state n rho) = (List.length (v_names v) + 1)%nat) by (unfold state; rewrite app_length, map_length, L; reflexivity).
  rewrite E, Nat.eqb_refl. cbn [negb raise_if bind]. unfold state at 1. rewrite removelast_last, electrons_sum by assumption.
  unfold raise_if. destruct (xleb (X (electrons v n)) (X 0)) eqn:Q.
  - apply xleb_real in Q. destruct (Rlt_dec 0 (electrons v n)); [lra|reflexivity].
  - destruct (Rlt_dec 0 (electrons v n)) as [_|G]; [reflexivity|]. exfalso. assert (xleb (X (electrons v n)) (X 0) = true) by (apply xleb_real; lra). congruence.
Qed.

Lemma restart_round_trip K model v p e t n rho : eq_init K model v p = Ok e -> NoDup (v_names v) ->
  (forall x, In x (v_names v) -> ~ In x reserved) -> List.length n = List.length (v_names v) -> 0 < electrons v n ->
  exists row d te, rearrange (frame_row General (st e) (v_names v) (X t) (state n rho)) = Ok row /\
    densities_of (v_names v) row = Ok d /\ sget "Te"%string row = Some te /\
    restart (v_names v) (v_charge v) te d = Ok (state n (Rmax rho (3 / 2 * electrons v n * gas_ev K p))) /\
    validate (v_names v) (v_charge v) (state n (Rmax rho (3 / 2 * electrons v n * gas_ev K p))) = Ok tt.
Proof.
  intros I ND D L P. assert (NZ : electrons v n <> 0) by lra.
  assert (Lc : List.length (v_charge v) = List.length (v_names v)) by (apply h_charge, shapes_iff; exact (b_shapes _ _ _ _ _ (init_built _ _ _ _ _ I))).
  destruct (reported_densities K v p t n rho ND D L) as [E1 E2].
  exists (reported K v p t n rho), (combine (v_names v) (map X n)), (X (electron_ev K v p n rho)).
  split; [apply (row_reported K model); assumption|]. split; [exact E1|]. split; [exact E2|]. split.
  - rewrite restart_is by assumption. rewrite restart_energy by exact P. reflexivity.
  - rewrite validate_is by assumption. destruct (Rlt_dec 0 (electrons v n)); [reflexivity|contradiction].
Qed.
