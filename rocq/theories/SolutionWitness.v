(** Further concrete runs: restarts, first rows, stale results. *)
From Coq Require Import Reals Qreals Lra.
From Verif Require Import Base BaseLemmas Species Reactions Chemistry ChemSpec ChemHist ChemLoad ChemExamples MolSpec MolExamples
  Morris MorrisStats InitialGuess InitialSpec InitialProofs InitialMain Tables ExtReal Equations EqSpec EqPure EqDefaults EqReal EqFlow EqFloors EqExamples
  Views ConserveSpec LinkSpec BalanceExamples Neutral NeutralProofs Solution SolutionProofs SolutionMore SolutionExamples.
From Verif Require Conserve.
Open Scope R_scope.

Lemma vB_NoDup : NoDup (v_names vB).
Proof. cbn [v_names vB]. repeat (constructor; [cbn; intuition discriminate|]); constructor. Qed.
Lemma vB_free x : In x (v_names vB) -> ~ In x reserved.
Proof. cbn [v_names vB In]. intros I. cases I; subst x; cbn; intuition discriminate. Qed.

(** ** The table of a run *)
Lemma table_witness : exists e, eq_init K1 Combined vB parB = Ok e /\ NoDup (v_names vB) /\ (forall x, In x (v_names vB) -> ~ In x reserved) /\
  List.length (v_names vB) <> 1%nat /\ List.length (v_names vB) <> 0%nat /\ List.length (v_a vB) <> 1%nat /\
  forall t n rho, In (t, (n, rho)) [(0, (n1, 3)); (1, (n1, 300))] -> List.length n = List.length (v_names vB) /\ electrons vB n <> 0.
Proof.
  destruct (initB Combined) as (e & I). exists e. split; [exact I|]. split; [exact vB_NoDup|]. split; [exact vB_free|].
  split; [discriminate|]. split; [discriminate|]. split; [discriminate|].
  intros t n rho H. cbn [In] in H. cases H; injection H as <- <- <-; (split; [reflexivity|]); rewrite nB_electrons; lra.
Qed.

(** ** A restart heats cold electrons *)
Lemma cold_restart : exists K model v p e n rho d te y, physical K /\ proper_params p /\ eq_init K model v p = Ok e /\
  NoDup (v_names v) /\ (forall x, In x (v_names v) -> ~ In x reserved) /\ List.length n = List.length (v_names v) /\ 0 < electrons v n /\ 0 <= rho /\
  (exists row, rearrange (frame_row General (st e) (v_names v) (X 1) (state n rho)) = Ok row /\
    densities_of (v_names v) row = Ok d /\ sget "Te"%string row = Some te) /\
  restart (v_names v) (v_charge v) te d = Ok y /\ y <> state n rho.
Proof.
  destruct (initB Combined) as (e & I). assert (P : 0 < electrons vB n1) by (rewrite nB_electrons; lra).
  destruct (restart_round_trip K1 Combined vB parB e 1 n1 0 I vB_NoDup vB_free eq_refl P) as (row & d & te & A & B & C & D & _).
  exists K1, Combined, vB, parB, e, n1, 0, d, te. eexists.
  split; [exact K1_physical|]. split; [exact parB_proper|]. split; [exact I|]. split; [exact vB_NoDup|]. split; [exact vB_free|].
  split; [reflexivity|]. split; [exact P|]. split; [lra|]. split; [exists row; auto|]. split; [exact D|].
  unfold state. intros Q. apply app_inj_tail in Q as [_ Q]. injection Q as Q.
  pose proof (gas_ev_pos K1 parB K1_physical parB_proper) as G. rewrite nB_electrons in Q.
  assert (0 < 3 / 2 * 2 * gas_ev K1 parB) by lra. pose proof (Rmax_r 0 (3 / 2 * 2 * gas_ev K1 parB)). lra.
Qed.

(** ** The first row *)
Definition lB : list (string * Z) := [("O", 0%Z); ("O+", 1%Z)]%string.
Lemma lB_heavy : heavy cB = Ok lB.
Proof. vm_compute. reflexivity. Qed.
Definition pB : gparams := MkGp 300 100 [("O"%string, 100%Q)] 1.
Definition KB : constants := MkConst (Q2R boltzmann) (c_e K1) (c_me K1) (c_eps K1) (c_amu K1).
Lemma feedsB : neutral_feeds lB (gp_feeds pB).
Proof.
  intros n q I. cbn in I.
  repeat match type of I with _ \/ _ => destruct I as [I|I] | False => destruct I end; injection I as <- <-;
    split; try (intros X; reflexivity); vm_compute; try discriminate; now intros X.
Qed.
Lemma neutralB : exists s, In s lB /\ snd s = 0%Z.
Proof. exists ("O"%string, 0%Z). split; [cbn; tauto|reflexivity]. Qed.
Lemma first_witness : exists d e, reachable E1 cB /\ c_kind cB = Plain /\ heavy cB = Ok lB /\ neutral_feeds lB (gp_feeds pB) /\
  generate_initial_n cB pB default_fractions = Ok d /\ view_of E1 objsB cB = Ok vB /\ eq_init KB Combined vB parB = Ok e /\
  c_k KB = Q2R boltzmann /\ p_temp parB = Q2R (gp_temp pB) /\ (forall x, In x (v_names vB) -> ~ In x reserved).
Proof.
  destruct (initial_ok E1 cB pB default_fractions lB cB_reachable eq_refl lB_heavy eq_refl eq_refl eq_refl feedsB neutralB) as (ns & A & _).
  assert (I : exists e, eq_init KB Combined vB parB = Ok e) by (eexists; reflexivity). destruct I as (e & I).
  exists (combine (map fst lB) ns), e. split; [exact cB_reachable|]. split; [vm_compute; reflexivity|]. split; [exact lB_heavy|]. split; [exact feedsB|].
  split; [exact A|]. split; [exact vB_ok|]. split; [exact I|]. split; [reflexivity|].
  split; [unfold Q2R; cbn; lra|]. exact vB_free.
Qed.

(** ** The start of a neutral run *)
Lemma neutral_short : exists names p, NoDup names /\ (forall n, In n names -> (0 <= InitialGuess.feed_of (gp_feeds p) n)%Q) /\ (0 < gp_temp p)%Q /\ (0 < gp_press p)%Q /\
  n_validate_y0 names (n_build_y0 names p) = Ok tt /\ ~ (qsum (fst (n_build_y0 names p)) == gas_density p)%Q.
Proof.
  exists ["O"; "O2"]%string, (MkGp 300 100 [("O2"%string, 100%Q)] 1).
  split; [repeat (constructor; [cbn; intuition discriminate|]); constructor|]. split; [intros n I; cbn in I; cases I; subst n; vm_compute; discriminate|].
  split; [reflexivity|]. split; [reflexivity|]. split; [reflexivity|].
  intros H. vm_compute in H. discriminate H.
Qed.
Lemma neutral_negative : exists names p init_n y, NoDup names /\ n_y0_from_init_params names p (Some init_n) = Ok y /\ n_validate_y0 names y = Ok tt /\
  exists q, In q (fst y) /\ (q < 0)%Q.
Proof.
  exists ["O"; "O2"]%string, (MkGp 300 100 [] 1), [("O", (-1)%Q); ("O2", 2%Q)]%string. eexists.
  split; [repeat (constructor; [cbn; intuition discriminate|]); constructor|]. split; [reflexivity|]. split; [reflexivity|].
  exists (-1)%Q. split; [cbn; tauto|reflexivity].
Qed.

(** ** Densities that are not numbers are accepted *)
Lemma nan_accepted : exists names charges te d y, NoDup names /\ restart names charges te d = Ok y /\ validate names charges y = Ok tt /\ In XNaN y.
Proof.
  exists ["O"; "O+"]%string, [0; 1]%Z, (X 1), [("O", X 7); ("O+", XNaN)]%string. eexists.
  split; [repeat (constructor; [cbn; intuition discriminate|]); constructor|]. split; [reflexivity|]. split; [reflexivity|].
  cbn. auto.
Qed.

(** ** Results of an earlier run *)

(** The same chemistry with the second reaction disabled. *)
Definition cB1 : chem := fst (disable cB [] [2%Z]).
Lemma cB1_reachable : reachable E1 cB1.
Proof. exact (reach_step E1 cB (ODisable [] [2%Z]) cB_reachable). Qed.
Definition vB1 : view := {|
  v_names := ["O"; "O+"]%string; v_charge := [0; 1]%Z; v_mass := [Q2R 16; Q2R 16]; v_sigma := [Q2R 3; Q2R 3]; v_stick := [Q2R 0; Q2R 1];
  v_a := [Q2R (3 # 1000000)]; v_b := [Q2R 0]; v_c := [Q2R 2]; v_loss := [Q2R 0];
  v_elastic := [false]; v_e_net := [1]%Z; v_e_lhs := [1]%Z; v_m_lhs := [0]%Z;
  v_ret := [[Q2R 0; Q2R 1]; [Q2R 0; Q2R 0]]; v_net := [[-1; 1]]%Z; v_lhs := [[1; 0]]%Z |}.
Lemma vB1_ok : view_of E1 objsB cB1 = Ok vB1.
Proof. vm_compute. reflexivity. Qed.

Definition dB : list (string * ext) := combine (v_names vB) (map X n1).
Definition y0B : list ext := state n1 (3 / 2 * electrons vB n1 * 100).
Definition w1 (e : equations) : setting := MkSetting (Ok e) (v_names vB) (v_charge vB) (SolverDone true [(X 0, state n1 300)]).
Definition w2 (e : equations) (o : outcome) : setting := MkSetting (Ok e) (v_names vB1) (v_charge vB1) o.

Lemma started w : se_names w = v_names vB -> se_charges w = v_charge vB ->
  forall cl b, run cl w (X 100) dB b =
    (let (b', r) := solve cl w y0B b in
     match r with Err x => (b', Err x) | Ok _ => match bk_success b' with Some true => (b', Ok tt) | _ => (b', Err EModelSolution) end end).
Proof. intros A B cl b. unfold run. rewrite A, B. unfold dB. rewrite restart_is by (try exact vB_NoDup; reflexivity). reflexivity. Qed.
Lemma valid0 : validate (v_names vB) (v_charge vB) y0B = Ok tt.
Proof.
  unfold y0B. rewrite validate_is by reflexivity. destruct (Rlt_dec 0 _) as [|G]; [reflexivity|].
  exfalso. apply G. rewrite nB_electrons. lra.
Qed.

Lemma first_run e : eq_init K1 Combined vB parB = Ok e ->
  run General (w1 e) (X 100) dB (unsolved e) =
    (MkBackend e (Some true) (Some [(X 0, state n1 300)]) (Some [reported K1 vB parB 0 n1 300]), Ok tt).
Proof.
  intros I. rewrite started by reflexivity. unfold solve, w1. cbn [se_eq se_names se_charges se_out]. rewrite valid0.
  assert (P : post_process General (st e) (v_names vB) [(X 0, state n1 300)] = Ok [reported K1 vB parB 0 n1 300]).
  { refine (solution_reported K1 Combined vB parB e [(0, (n1, 300))] I vB_NoDup vB_free _ _ _ _); [discriminate|discriminate|discriminate|].
    intros t n rho H. cbn [In] in H. cases H; injection H as <- <- <-; (split; [reflexivity|]); rewrite nB_electrons; lra. }
  rewrite P. reflexivity.
Qed.

Lemma second_run e1 e2 o : eq_init K1 Combined vB1 parB = Ok e2 -> o = SolverValueError \/ (exists sol, o = SolverDone true sol) ->
  let b1 := MkBackend e1 (Some true) (Some [(X 0, state n1 300)]) (Some [reported K1 vB parB 0 n1 300]) in
  let (b2, r) := run General (w2 e2 o) (X 100) dB b1 in
  r = Err (match o with SolverValueError => EModelSolution | SolverDone _ _ => EKey end) /\
  bk_succeeded b2 = Ok true /\ bk_solution b2 = Ok [reported K1 vB parB 0 n1 300] /\ bk_eq b2 = e2 /\
  bk_primary b2 = Some (match o with SolverValueError => [(X 0, state n1 300)] | SolverDone _ sol => sol end).
Proof.
  intros I O b1. rewrite started by reflexivity. unfold solve, w2. cbn [se_eq se_names se_charges se_out].
  change (v_names vB1) with (v_names vB). change (v_charge vB1) with (v_charge vB). rewrite valid0.
  destruct O as [->|(sol & ->)]; [repeat split|].
  unfold post_process. replace (labelled_value (st e2)) with false.
  - cbn [negb raise_if bind]. repeat split.
  - unfold labelled_value. rewrite (b_nr _ _ _ _ _ (init_built _ _ _ _ _ I)). symmetry. rewrite Bool.andb_false_r. reflexivity.
Qed.

Lemma stale o : o = SolverValueError \/ (exists t n rho, o = SolverDone true [(t, state n rho)]) ->
  exists E objs c c' K v v' p e e' te d b b' rows x r r',
  reachable E c /\ c' = fst (disable c [] [2%Z]) /\ view_of E objs c = Ok v /\ view_of E objs c' = Ok v' /\ physical K /\ proper_params p /\
  eq_init K Combined v p = Ok e /\ eq_init K Combined v' p = Ok e' /\
  (exists sol, run General (MkSetting (Ok e) (v_names v) (v_charge v) (SolverDone true sol)) te d (unsolved e) = (b, Ok tt)) /\
  bk_solution b = Ok rows /\ bk_rates General b = Ok [r] /\ List.length r = 2%nat /\
  run General (MkSetting (Ok e') (v_names v') (v_charge v') o) te d b = (b', Err x) /\
  bk_succeeded b' = Ok true /\ bk_solution b' = Ok rows /\ bk_rates General b' = Ok [r'] /\ List.length r' = 1%nat.
Proof.
  intros O. assert (J : exists e, eq_init K1 Combined vB parB = Ok e) by apply initB. destruct J as (e & I).
  assert (J : exists e, eq_init K1 Combined vB1 parB = Ok e) by (eexists; reflexivity). destruct J as (e' & I').
  assert (O' : o = SolverValueError \/ (exists sol, o = SolverDone true sol)) by (destruct O as [->|(t & n & rho & ->)]; eauto).
  pose proof (second_run e e' o I' O') as S. cbv zeta in S.
  set (b1 := MkBackend e (Some true) (Some [(X 0, state n1 300)]) (Some [reported K1 vB parB 0 n1 300])) in *.
  destruct (run General (w2 e' o) (X 100) dB b1) as [b2 rr] eqn:R. destruct S as (-> & Su & So & Eq & Pr).
  assert (LR : forall v e y, eq_init K1 Combined v parB = Ok e -> List.length (snd (get_reaction_rates y None None None None e)) = List.length (v_a v)).
  { intros v e0 y I0. rewrite (fresh_value _ _ _ _ _ _ I0). unfold get_reaction_rates. vb. rewrite length_tab. unfold nr.
    apply (b_nr _ _ _ _ _ (init_built _ _ _ _ _ I0)). }
  exists E1, objsB, cB, cB1, K1, vB, vB1, parB, e, e', (X 100), dB, b1, b2, [reported K1 vB parB 0 n1 300]. eexists.
  exists (snd (get_reaction_rates (state n1 300) None None None None e)).
  exists (snd (get_reaction_rates (match o with SolverDone _ ((_, y) :: _) => y | _ => state n1 300 end) None None None None e')).
  split; [exact cB_reachable|]. split; [reflexivity|]. split; [exact vB_ok|]. split; [exact vB1_ok|]. split; [exact K1_physical|]. split; [exact parB_proper|].
  split; [exact I|]. split; [exact I'|]. split; [exists [(X 0, state n1 300)]; exact (first_run e I)|]. split; [reflexivity|].
  assert (BR : forall v e0 b t y, eq_init K1 Combined v parB = Ok e0 -> bk_eq b = e0 -> bk_primary b = Some [(t, y)] ->
    bk_rates General b = Ok [snd (get_reaction_rates y None None None None e0)]).
  { intros v e0 b t y I0 Eb Pb. unfold bk_rates. rewrite Pb, Eb. reflexivity. }
  split; [apply (BR vB e b1 (X 0)); [exact I|reflexivity|reflexivity]|]. split; [apply (LR vB); exact I|].
  split; [exact R|]. split; [exact Su|]. split; [exact So|].
  destruct O as [->|(t & n & rho & ->)].
  - split; [apply (BR vB1 e' b2 (X 0)); [exact I'|exact Eq|exact Pr]|]. apply (LR vB1). exact I'.
  - split; [apply (BR vB1 e' b2 t); [exact I'|exact Eq|exact Pr]|]. apply (LR vB1). exact I'.
Qed.
