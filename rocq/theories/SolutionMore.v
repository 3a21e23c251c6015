(** The first row of a run, the start of a neutral run and the results a
    Model keeps. *)
From Coq Require Import Reals Qreals Lra.
From Verif Require Import Base BaseLemmas Chemistry ChemSpec ChemHist ChemLoad Morris MorrisStats InitialGuess InitialSpec InitialProofs InitialMain Tables ExtReal
  Equations EqSpec EqPure EqDefaults EqReal EqFlow EqFloors Views Neutral NeutralProofs Solution SolutionProofs.
From Verif Require Conserve TablesProofs.
Import TablesProofs.
Open Scope R_scope.

(** ** The first row *)

Lemma Q2R_qsum l : Q2R (qsum l) = rsum (map Q2R l).
Proof. induction l as [|a l IH]; [unfold Q2R; cbn; lra|]. cbn [qsum fold_right map]. change (fold_right Qplus 0%Q l) with (qsum l). rewrite Q2R_plus, IH. reflexivity. Qed.

Lemma Q2R_inject z : Q2R (inject_Z z) = IZR z.
Proof. unfold Q2R. cbn. lra. Qed.

Lemma electrons_Q v l ns : v_names v = map fst l -> v_charge v = map snd l -> List.length ns = List.length l ->
  electrons v (map Q2R ns) = Q2R (charge_density l ns).
Proof.
  intros EN EC L. unfold charge_density. rewrite Q2R_qsum, map_map. unfold electrons, charge_of. rewrite EN, EC, map_length, Sum_rsum. f_equal.
  clear EN EC. revert ns L. induction l as [|[s z] l IH]; intros [|q ns] L; try discriminate L; [reflexivity|].
  cbn [List.length seq map combine nth el fst snd]. rewrite <- seq_shift, map_map. rewrite <- IH by (cbn in L; lia).
  f_equal. unfold el. cbn [nth map]. rewrite Q2R_mult, Q2R_inject. lra.
Qed.

Lemma heavy_view E objs c v l : view_of E objs c = Ok v -> heavy c = Ok l -> v_names v = map fst l /\ v_charge v = map snd l.
Proof.
  intros V H. destruct (Conserve.view_inv E objs c v V) as (N & _ & C & _). rewrite N, (heavy_names c l H). split; [reflexivity|].
  unfold heavy in H. unfold Conserve.heavy in C. clear N V. revert l H. induction C as [|s q ss qs E1 C IH]; intros l H.
  - cbn in H. injection H as <-. reflexivity.
  - cbn [mapM] in H. rewrite E1 in H. cbn [bind] in H. destruct (mapM _ ss) as [l'|] eqn:M; [|discriminate]. cbn [bind] in H.
    injection H as <-. cbn [map snd]. f_equal. apply IH. reflexivity.
Qed.

Lemma total_gas p : InitialGuess.total_density p = gas_density p.
Proof. reflexivity. Qed.

Lemma first_row E objs c p fr l d te K model v mp e t :
  reachable E c -> c_kind c = Plain -> heavy c = Ok l -> (0 < gp_temp p)%Q -> (0 < gp_press p)%Q -> (0 < fr_ion fr)%Q ->
  neutral_feeds l (gp_feeds p) -> (exists s, In s l /\ snd s = 0%Z) -> generate_initial_n c p fr = Ok d ->
  view_of E objs c = Ok v -> eq_init K model v mp = Ok e -> c_k K = Q2R boltzmann -> p_temp mp = Q2R (gp_temp p) ->
  (forall x, In x (v_names v) -> ~ In x reserved) ->
  exists ns rho row, y0_from_init_params c p te (Some d) = Ok (ns, rho) /\
    rearrange (frame_row General (st e) (v_names v) (X t) (state (map Q2R ns) (Q2R rho))) = Ok row /\
    densities_of (v_names v) row = Ok (map (fun nx => (fst nx, X (Q2R (snd nx)))) d) /\
    sget "p"%string row = Some (X (Q2R (gp_press p))) /\
    sget "e"%string row = Some (X (Q2R (gas_density p * fr_ion fr))) /\
    sget "Te"%string row = Some (X (Rmax (Q2R te) (gas_ev K mp))).
Proof.
  intros R KD H T P F NF NE G V I CK TP D.
  destruct (same_start E c p fr l d te R KD H T P F NF G) as (ns & rho & rho' & Y & _ & _ & Ens & Rho & _).
  destruct (initial_ok E c p fr l R KD H T P F NF NE) as (ns' & G' & L' & S' & C' & _).
  rewrite G in G'. injection G' as Ed.
  assert (Lc : List.length (map fst l) = List.length ns') by (rewrite map_length; symmetry; exact L').
  assert (Ens' : ns = ns') by (rewrite Ens, Ed; apply map_snd_combine; exact Lc). subst ns'. clear Ens.
  destruct (heavy_view E objs c v l V H) as [EN EC].
  assert (Lv : List.length (map Q2R ns) = List.length (v_names v)) by (rewrite EN, !map_length; exact L').
  assert (Ee : electrons v (map Q2R ns) = Q2R (gas_density p * fr_ion fr)).
  { rewrite (electrons_Q v l ns EN EC L'). apply Qeq_eqR. rewrite C'. rewrite total_gas. reflexivity. }
  assert (ND : NoDup (v_names v)) by (rewrite EN; exact (heavy_NoDup c l (i_wf c (reachable_Inv E c R)) H)).
  assert (PG : (0 < gas_density p)%Q) by (rewrite <- total_gas; exact (total_pos p T P)).
  assert (PE : 0 < electrons v (map Q2R ns)).
  { rewrite Ee. replace 0 with (Q2R 0) by (unfold Q2R; cbn; lra). apply Qlt_Rlt. apply Qmult_lt_0_compat; assumption. }
  exists ns, rho, (reported K v mp t (map Q2R ns) (Q2R rho)). split; [exact Y|].
  split; [apply (row_reported K model); try assumption; lra|].
  destruct (reported_densities K v mp t (map Q2R ns) (Q2R rho) ND D Lv) as [E1 E2]. split; [|split; [|split]].
  - rewrite E1. f_equal. rewrite EN, Ed. clear -L'. revert ns L'. induction l as [|s l IH]; intros [|q ns] L; try discriminate L; [reflexivity|].
    cbn [map combine fst snd]. f_equal. apply IH. cbn in L. lia.
  - unfold reported. cbn [aget String.eqb Ascii.eqb Bool.eqb]. rewrite sget_app, sget_absent; [cbn|].
    + f_equal. f_equal. unfold pressure_of. rewrite CK, TP. rewrite <- Lv, <- rsum_Sum, <- Q2R_qsum, <- !Q2R_mult. apply Qeq_eqR.
      rewrite S'. rewrite total_gas. unfold gas_density. field. split; [intros Z; rewrite Z in T; inversion T|]. intros Z. discriminate Z.
    + rewrite map_fst_combine by (rewrite map_length; symmetry; exact Lv). intros Hx. apply (D _ Hx). cbn. tauto.
  - unfold reported. cbn [aget String.eqb Ascii.eqb Bool.eqb]. rewrite sget_app, sget_absent; [cbn; rewrite Ee; reflexivity|].
    rewrite map_fst_combine by (rewrite map_length; symmetry; exact Lv). intros Hx. apply (D _ Hx). cbn. tauto.
  - rewrite E2. f_equal. f_equal. unfold electron_ev. f_equal. apply Qeq_eqR in Rho. rewrite Rho, Ee, !Q2R_mult.
    rewrite total_gas.
    rewrite Ee, Q2R_mult in PE. replace (Q2R (3 # 2)) with (3 / 2) by (unfold Q2R; cbn; lra). field.
    apply Rmult_neq_0_reg. lra.
Qed.

(** ** The start of a neutral run *)
Section NeutralStart.
  Local Open Scope Q_scope.
  Variables (names : list string) (feeds : list (string * Q)) (n_tot : Q).
  Let fed_names := filter (fun n => Qltb 0 (InitialGuess.feed_of feeds n)) names.
  Hypothesis FN : forall n, In n names -> 0 <= InitialGuess.feed_of feeds n.

  Lemma qsum_const (c : Q) (l : list string) : qsum (map (fun _ => c) l) == zlen l * c.
  Proof.
    unfold zlen. induction l as [|a l IH]; [cbn; ring|]. cbn [map qsum fold_right]. change (fold_right Qplus 0 (map (fun _ : string => c) l)) with (qsum (map (fun _ : string => c) l)).
    rewrite IH. cbn [List.length]. rewrite Nat2Z.inj_succ. unfold Z.succ. rewrite inject_Z_plus. ring.
  Qed.

  Lemma split_sum (f g : string -> Q) (b : string -> bool) l :
    qsum (map (fun n => if b n then f n else g n) l) == qsum (map f (filter b l)) + qsum (map g (filter (fun n => negb (b n)) l)).
  Proof.
    induction l as [|a l IH]; [cbn; ring|]. cbn [map filter]. change (qsum ((if b a then f a else g a) :: map (fun n => if b n then f n else g n) l))
      with ((if b a then f a else g a) + qsum (map (fun n => if b n then f n else g n) l)). rewrite IH.
    destruct (b a); cbn [negb map qsum fold_right]; unfold qsum; ring.
  Qed.
  Lemma zlen_split (b : string -> bool) l : zlen l == zlen (filter b l) + zlen (filter (fun n => negb (b n)) l).
  Proof.
    unfold zlen. rewrite <- inject_Z_plus, <- Nat2Z.inj_add.
    replace (List.length (filter b l) + List.length (filter (fun n => negb (b n)) l))%nat with (List.length l); [reflexivity|].
    induction l as [|a l IH]; [reflexivity|]. cbn [filter]. destruct (b a); cbn [negb List.length]; lia.
  Qed.

  Lemma fed_total : qsum (map (InitialGuess.feed_of feeds) fed_names) == qsum (map (InitialGuess.feed_of feeds) names).
  Proof.
    unfold fed_names. clear fed_names. revert FN. induction names as [|a l IH]; intros FN'; [reflexivity|]. cbn [filter map].
    change (qsum (InitialGuess.feed_of feeds a :: map (InitialGuess.feed_of feeds) l)) with (InitialGuess.feed_of feeds a + qsum (map (InitialGuess.feed_of feeds) l)).
    destruct (Qltb 0 (InitialGuess.feed_of feeds a)) eqn:B.
    - cbn [map]. change (qsum (InitialGuess.feed_of feeds a :: ?m)) with (InitialGuess.feed_of feeds a + qsum m).
      rewrite IH by (intros n I; apply FN'; right; exact I). reflexivity.
    - rewrite IH by (intros n I; apply FN'; right; exact I).
      assert (Z : InitialGuess.feed_of feeds a == 0).
      { apply Qle_antisym; [|apply FN'; left; reflexivity]. apply Qnot_lt_le. intros Lt. apply Qltb_iff in Lt. congruence. }
      rewrite Z. ring.
  Qed.

  Lemma qsum_scale (f : string -> Q) c l : qsum (map (fun n => f n * c) l) == qsum (map f l) * c.
  Proof. induction l as [|a l IH]; [cbn; ring|]. cbn [map]. unfold qsum in *. cbn [fold_right]. rewrite IH. ring. Qed.

  Lemma qsum_map_ext (f g : string -> Q) l : (forall n, In n l -> f n == g n) -> qsum (map f l) == qsum (map g l).
  Proof. induction l as [|a l IH]; intros H; [reflexivity|]. cbn [map]. unfold qsum in *. cbn [fold_right]. rewrite (H a (or_introl eq_refl)), IH; [reflexivity|]. intros n I. apply H. right. exact I. Qed.

  Lemma neutral_total_fed : (exists n, In n names /\ 0 < InitialGuess.feed_of feeds n) ->
    qsum (map (n_density names feeds n_tot) names) == n_tot * (1 - zlen fed_names * (1 # 1000000000000000)).
  Proof.
    intros (a & Ia & Fa).
    assert (TP : 0 < qsum (map (InitialGuess.feed_of feeds) names)).
    { clear fed_names. revert Ia FN. induction names as [|b l IH]; intros Ia FN'; [destruct Ia|]. cbn [map].
      change (qsum (InitialGuess.feed_of feeds b :: map (InitialGuess.feed_of feeds) l)) with (InitialGuess.feed_of feeds b + qsum (map (InitialGuess.feed_of feeds) l)).
      assert (N : 0 <= qsum (map (InitialGuess.feed_of feeds) l)).
      { assert (FL : forall n, In n l -> 0 <= InitialGuess.feed_of feeds n) by (intros; apply FN'; right; assumption). clear -FL.
        induction l as [|c l IH]; [apply Qle_refl|]. cbn [map qsum fold_right].
        replace 0 with (0 + 0) by reflexivity. apply Qplus_le_compat; [apply FL; left; reflexivity|apply IH; intros; apply FL; right; assumption]. }
      destruct Ia as [->|Ia].
      - rewrite <- (Qplus_0_r 0). apply Qlt_le_trans with (InitialGuess.feed_of feeds a + 0); [rewrite Qplus_lt_l; exact Fa|]. apply Qplus_le_r. exact N.
      - specialize (IH Ia (fun n I => FN' n (or_intror I))). rewrite <- (Qplus_0_r 0).
        apply Qlt_le_trans with (0 + qsum (map (InitialGuess.feed_of feeds) l)); [apply Qplus_lt_r; exact IH|]. apply Qplus_le_l. apply FN'. left. reflexivity. }
    assert (NZ : ~ qsum (map (InitialGuess.feed_of feeds) names) == 0) by (intros Z; rewrite Z in TP; inversion TP).
    unfold n_density. rewrite (proj2 (Qltb_iff _ _) TP). rewrite split_sum. fold fed_names.
    rewrite (qsum_map_ext _ (fun n => InitialGuess.feed_of feeds n * ((n_tot - qsum (map (fun _ : string => 1 * n_tot * seed_fraction) names)) / qsum (map (InitialGuess.feed_of feeds) names))));
      [|intros n _; field; exact NZ].
    rewrite qsum_scale, fed_total, !qsum_const. rewrite (zlen_split (fun n => Qltb 0 (InitialGuess.feed_of feeds n)) names). fold fed_names.
    unfold seed_fraction. field. exact NZ.
  Qed.

  Lemma neutral_total_unfed : names <> [] -> (forall n, In n names -> InitialGuess.feed_of feeds n == 0) ->
    qsum (map (n_density names feeds n_tot) names) == n_tot /\
    forall n, In n names -> n_density names feeds n_tot n * zlen names == n_tot.
  Proof.
    intros NE Z. assert (TZ : qsum (map (InitialGuess.feed_of feeds) names) == 0).
    { rewrite (qsum_map_ext _ (fun _ => 0)) by exact Z. rewrite qsum_const. ring. }
    assert (LZ : ~ zlen names == 0).
    { unfold zlen. destruct names; [contradiction|]. cbn [List.length]. intros Q. rewrite Nat2Z.inj_succ in Q. unfold inject_Z, Qeq in Q. cbn [Qnum Qden] in Q. lia. }
    assert (B : Qltb 0 (qsum (map (InitialGuess.feed_of feeds) names)) = false).
    { destruct (Qltb 0 _) eqn:B; [|reflexivity]. apply Qltb_iff in B. rewrite TZ in B. inversion B. }
    unfold n_density. rewrite B. split; [rewrite qsum_const; field; exact LZ|]. intros n _. field. exact LZ.
  Qed.
End NeutralStart.

(** ** The results a Model keeps *)

(** A model on which nothing was run; a series of runs. *)
Definition unsolved (e : equations) : backend := MkBackend e None None None.
Definition attempt : Type := setting * (ext * list (string * ext)).
Definition attempts (cl : eqclass) (b : backend) (l : list attempt) : backend :=
  fold_left (fun b a => fst (run cl (fst a) (fst (snd a)) (snd (snd a)) b)) l b.

(** The run got as far as [rows]. *)
Definition processed (cl : eqclass) (w : setting) (rows : list (list (string * ext))) : Prop :=
  exists e ok sol, se_eq w = Ok e /\ se_out w = SolverDone ok sol /\ post_process cl (st e) (se_names w) sol = Ok rows.

Lemma run_cases cl w te d b : 
  (bk_secondary (fst (run cl w te d b)) = bk_secondary b \/
   exists rows, processed cl w rows /\ bk_secondary (fst (run cl w te d b)) = Some rows).
Proof.
  unfold run. destruct (restart _ _ _ _) as [y0|x]; [|left; reflexivity]. unfold solve.
  destruct (se_eq w) as [e|x] eqn:SE; [|left; reflexivity].
  destruct (validate _ _ _) as [[]|x]; [|left; reflexivity].
  destruct (se_out w) as [|ok sol] eqn:SO; [left; reflexivity|].
  destruct (post_process _ _ _ _) as [rows|x] eqn:PP; [|left; reflexivity].
  right. exists rows. split; [exists e, ok, sol; auto|]. cbn [bk_success]. destruct ok; reflexivity.
Qed.

Lemma attempts_app cl b l m : attempts cl b (l ++ m) = attempts cl (attempts cl b l) m.
Proof. unfold attempts. apply fold_left_app. Qed.

Lemma run_ok cl w te d b b' : run cl w te d b = (b', Ok tt) ->
  exists e sol rows, se_eq w = Ok e /\ se_out w = SolverDone true sol /\ post_process cl (st e) (se_names w) sol = Ok rows /\
    b' = MkBackend e (Some true) (Some sol) (Some rows).
Proof.
  unfold run. destruct (restart _ _ _ _) as [y0|x]; [|discriminate]. unfold solve.
  destruct (se_eq w) as [e|x]; [|discriminate].
  destruct (validate _ _ _) as [[]|x]; [|discriminate].
  destruct (se_out w) as [|ok sol]; [discriminate|].
  destruct (post_process _ _ _ _) as [rows|x] eqn:PP; [|discriminate].
  cbn [bk_success]. destruct ok; [|discriminate]. intros H. injection H as <-. exists e, sol, rows. auto.
Qed.

Lemma rows_from cl l : forall e0, forall rows, bk_secondary (attempts cl (unsolved e0) l) = Some rows ->
  exists pre a post, l = (pre ++ a :: post)%list /\ processed cl (fst a) rows.
Proof.
  induction l as [|a l IH] using rev_ind; intros e0 rows H; [discriminate H|].
  rewrite attempts_app in H. cbn [attempts fold_left] in H.
  destruct (run_cases cl (fst a) (fst (snd a)) (snd (snd a)) (attempts cl (unsolved e0) l)) as [E|(rows' & P & E)].
  - rewrite E in H. destruct (IH e0 rows H) as (pre & a' & post & -> & P). exists pre, a', (post ++ [a])%list.
    split; [rewrite <- app_assoc; reflexivity|exact P].
  - rewrite E in H. injection H as <-. exists l, a, []. split; [reflexivity|exact P].
Qed.

(** The rates served are those of the last equations at the last solution. *)
Lemma mapMM_stable {A B} (f : A -> M B) l : (forall a, stable (f a)) -> stable (mapMM f l).
Proof. intros S. induction l as [|a l IH]; cbn [mapMM]; [apply stable_ret|]. apply stable_bind; [apply S|]. intros b. apply stable_bind; [exact IH|]. intros. apply stable_ret. Qed.
Lemma mapMM_value {A B} (f : A -> M B) l s : (forall a, stable (f a)) -> value (mapMM f l) s = map (fun a => value (f a) s) l.
Proof.
  intros S. induction l as [|a l IH]; [reflexivity|]. cbn [mapMM map]. rewrite value_bind; [|apply S|].
  - rewrite value_bind; [|apply mapMM_stable, S|intros; apply stable_ret]. rewrite IH. reflexivity.
  - intros b. apply stable_bind; [apply mapMM_stable, S|]. intros. apply stable_ret.
Qed.

Lemma served_rates K model v p w te d b b' e : se_eq w = Ok e -> eq_init K model v p = Ok e -> run General w te d b = (b', Ok tt) ->
  exists sol, se_out w = SolverDone true sol /\
    bk_rates General b' = Ok (map (fun ty => snd (get_reaction_rates (snd ty) None None None None e)) sol).
Proof.
  intros SE I R. destruct (run_ok _ _ _ _ _ _ R) as (e' & sol & rows & SE' & SO & PP & ->). rewrite SE in SE'. injection SE' as <-.
  exists sol. split; [exact SO|]. unfold bk_rates. cbn [bk_primary bk_eq]. f_equal. rewrite (fresh_value _ K model v p e I).
  rewrite mapMM_value by (intros; apply rates_stable). apply map_ext. intros ty. symmetry. apply (fresh_value _ K model v p e I).
Qed.

(** A run in which the solver does not finish keeps what the object serves. *)
Lemma run_unsolved cl w te d b b' r : (forall ok sol, se_out w <> SolverDone ok sol) -> run cl w te d b = (b', r) ->
  r <> Ok tt /\ bk_succeeded b' = bk_succeeded b /\ bk_solution b' = bk_solution b.
Proof.
  intros N. unfold run. destruct (restart _ _ te d) as [y0|x]; [|intros H; inversion H; subst; repeat split; discriminate].
  unfold solve. destruct (se_eq w) as [e|x]; [|intros H; inversion H; subst; repeat split; discriminate].
  destruct (validate _ _ y0) as [u|x]; [|intros H; inversion H; subst; repeat split; discriminate].
  destruct (se_out w) as [|ok sol]; [|exfalso; eapply N; reflexivity].
  intros H; inversion H; subst; repeat split; discriminate.
Qed.
