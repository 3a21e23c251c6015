(** Reductions try the first species left of the current ranking. *)
From Coq Require Import Permutation Lqa Lia.
From Verif Require Import Base BaseLemmas Species Reactions Chemistry ChemSpec ChemDisable ChemInv ChemHist ChemLoad ChemMain ChemGetters ChemMore
  Morris MorrisStats Tables InitialGuess GlobalModel GlobalSpec GlobalFiles GlobalLog GlobalProofs GlobalMore
  Reduction ReductionSpec ReductionChem ReductionRun ReductionProofs ReductionMain ReductionScores DynamicSpec.
Open Scope list_scope.

Lemma ascending_app l m : ascendingb (l ++ m) = true -> ascendingb m = true.
Proof. induction l as [|a l IH]; [auto|]. cbn [app]. intros H. apply ascending_tail in H. apply IH, H. Qed.

Section R.
  Variables (E : env) (fhash : string -> option string) (default_dir : string -> res path) (scan : list path -> list path).
  Variable backend : nat -> solving.
  Variable k : rconf.
  Hypothesis scan_perm : forall l, Permutation (scan l) l.
  Variable c0 : chem.
  Hypothesis c0_reachable : reachable E c0.
  Hypothesis c0_declared : declared_exist c0.
  Hypothesis max_nonneg : (0 <= rc_max k)%Q.
  Variables (r : ranking) (g : gmodel) (s : gfs).
  Let driven := driven E fhash default_dir scan backend k r g s.

  Lemma good_iff row : negb (fnan (h_base row)) && negb (over k (h_base row)) = true <-> good_row k row.
  Proof.
    unfold good_row. rewrite andb_true_iff, !negb_true_iff. pose proof (over_iff k (h_base row)) as O.
    split.
    - intros [H1 H2]. split; [intros X; rewrite X in H1; discriminate|]. intros X. apply O in X. congruence.
    - intros [H1 H2]. split; [destruct (h_base row); try reflexivity; now elim H1|].
      destruct (over k (h_base row)); [elim H2; now apply O|reflexivity].
  Qed.

  Lemma done_step st st1 sp score row x : inv E fhash k c0 true st ->
    remove_one E fhash default_dir scan backend k st sp score true = (st1, Ok row) -> done_with st x -> done_with st1 x.
  Proof using scan_perm c0_declared.
    intros I RM. destruct (step_facts E fhash default_dir scan backend k scan_perm c0 c0_declared st sp score st1 row I RM) as (_ & _ & _ & S3 & _ & S5).
    intros [H|H]; [left; rewrite S3; apply in_or_app; now left|]. right. intros X. apply H, S5, X.
  Qed.

  Lemma loop_driven max : forall m st l streak st' R p, inv E fhash k c0 true st -> driven st R ->
    reduction_loop E fhash default_dir scan backend k m r max st l streak = Some (st', Ok tt) ->
    R = p ++ l -> (forall x, In x (map fst p) -> done_with st x) -> streak = streak_of k (r_hist st) ->
    exists R', driven st' R' /\ inv E fhash k c0 true st' /\
      ((max < streak_of k (r_hist st'))%Z \/ r_eligible st' = [] \/ forall x, In x (map fst R') -> done_with st' x).
  Proof using scan_perm c0_declared.
    induction m as [|m IH]; intros st l streak st' R p I DR; [discriminate|]. cbn [Reduction.reduction_loop].
    destruct l as [|y l1] eqn:HL.
    { intros H -> PP ST. injection H as <-. exists (p ++ []). split; [exact DR|]. split; [exact I|]. right; right. now rewrite app_nil_r. }
    rewrite <- HL in *. destruct (ascendingb (map snd l)) eqn:ASC; [|discriminate]. cbn [negb].
    destruct (next_species (r_tried st) l) as [[[sp score] l']|] eqn:NX.
    2: { intros H -> PP ST. injection H as <-. exists (p ++ l). split; [exact DR|]. split; [exact I|]. right; right.
         intros x. rewrite map_app, in_app_iff. intros [X|X]; [auto|left; now apply (next_none _ _ NX)]. }
    destruct (next_inv _ _ _ _ _ NX) as (pre & LE & NT & PT).
    assert (PP0 : (forall x, In x (map fst p) -> done_with st x) -> forall x, In x (map fst (p ++ pre)) -> done_with st x).
    { intros PP x. rewrite map_app, in_app_iff. intros [X|X]; [auto|left; auto]. }
    destruct (memS sp (r_eligible st)) eqn:EL.
    2: { intros H L0 PP ST. apply (IH st l' streak st' R (p ++ pre ++ [(sp, score)])) in H; [exact H|exact I|exact DR| | |exact ST].
         - rewrite L0, LE, <- !app_assoc. reflexivity.
         - intros x. rewrite !map_app, !in_app_iff. intros [X|[X|[<-|[]]]]; [auto|left; auto|right]. now apply memS_false. }
    destruct (Reduction.remove_one E fhash default_dir scan backend k st sp score true) as [st1 [row|e]] eqn:RM; [|discriminate].
    destruct (step_facts E fhash default_dir scan backend k scan_perm c0 c0_declared st sp score st1 row I RM) as (I1 & S1 & S2 & S3 & S4 & S5).
    cbv zeta. fold (next_streak k streak row). intros H L0 PP ST.
    assert (RR : R = (p ++ pre) ++ (sp, score) :: l') by (rewrite L0, LE, <- !app_assoc; reflexivity).
    assert (ND : ~ done_with st sp) by (intros [X|X]; [exact (NT X)|exact (X S1)]).
    assert (LEAST : forall x v, In (x, v) l' -> (score <= v)%Q).
    { rewrite LE, map_app in ASC. apply ascending_app in ASC. cbn [map snd] in ASC. apply ascending_tail in ASC. destruct ASC as [_ ASC].
      intros x v X. apply ASC. apply in_map_iff. exists (x, v). auto. }
    assert (ST1 : next_streak k streak row = streak_of k (r_hist st1)) by (rewrite S4, streak_snoc, ST; reflexivity).
    assert (PP1 : forall x, In x (map fst ((p ++ pre) ++ [(sp, score)])) -> done_with st1 x).
    { intros x. rewrite map_app, in_app_iff. intros [X|[<-|[]]]; [|left; rewrite S3; apply in_or_app; right; now left].
      apply (done_step st st1 sp score row x I RM). now apply PP0. }
    assert (UPD : exists R' l'' p',
              match r with
              | Static _ => R' = R
              | Dynamic f => (good_row k row -> f (r_gm st1) (r_runs st1) = Ok R') /\ (~ good_row k row -> R' = R)
              end /\ R' = p' ++ l'' /\ (forall x, In x (map fst p') -> done_with st1 x) /\
              match r with
              | Dynamic f => if negb (fnan (h_base row)) && negb (over k (h_base row)) then f (r_gm st1) (r_runs st1) else Ok l'
              | Static _ => Ok l'
              end = Ok l'').
    { assert (RR' : R = ((p ++ pre) ++ [(sp, score)]) ++ l') by (rewrite RR, <- (app_assoc (p ++ pre)); reflexivity).
      clear IH DR. destruct r as [l0|f].
      - exists R, l', ((p ++ pre) ++ [(sp, score)]). auto.
      - destruct (negb (fnan (h_base row)) && negb (over k (h_base row))) eqn:GD.
        + apply good_iff in GD. destruct (f (r_gm st1) (r_runs st1)) as [l''|] eqn:F; [|discriminate].
          exists l'', l'', []. split; [split; [auto|intros X; now elim X]|]. split; [reflexivity|]. split; [intros x []|reflexivity].
        + assert (NG : ~ good_row k row) by (intros X; apply good_iff in X; congruence).
          exists R, l', ((p ++ pre) ++ [(sp, score)]). split; [split; [intros X; now elim NG|reflexivity]|]. auto. }
    destruct UPD as (R' & l'' & p' & N0 & N2 & N3 & N4).
    assert (N1 : driven st1 R') by (eapply dr_next; [exact DR|exact RR|now apply PP0|exact ND|exact LEAST|exact RM|exact N0]). rewrite N4 in H.
    destruct (Z.ltb max (next_streak k streak row) || match r_eligible st1 with [] => true | _ => false end) eqn:STOP.
    - injection H as <-. exists R'. split; [exact N1|]. split; [exact I1|]. rewrite <- ST1. apply orb_prop in STOP.
      destruct STOP as [X|X]; [left; now apply Z.ltb_lt|right; left]. now destruct (r_eligible st1).
    - apply (IH st1 l'' _ st' R' p') in H; [exact H|exact I1|exact N1|exact N2|exact N3|exact ST1].
  Qed.

  Theorem reduction_driven s1 st max m st' : fs_ok s -> gm_chem g = Some c0 -> r_init k g s = (s1, Ok st) ->
    run_reduction E fhash default_dir scan backend k m st r max = Some (st', Ok tt) ->
    exists st2 R, driven st2 R /\ r_hist st' = r_hist st2 /\ r_tried st' = r_tried st2 /\ r_eligible st' = r_eligible st2 /\ r_fs st' = r_fs st2 /\
      ((exists h1 h2 n, r_hist st' = h1 ++ h2 /\ all_over k n h2 /\ (max < Z.of_nat n)%Z) \/ r_eligible st' = [] \/
       forall x, In x (map fst R) -> done_with st' x).
  Proof using scan_perm c0_reachable c0_declared max_nonneg.
    intros O C H. unfold run_reduction.
    destruct (gm_chem (r_gm st)) as [c|]; [|discriminate].
    destruct (get_disabled_species c); [|discriminate].
    destruct (get_disabled_reactions c); [|discriminate].
    destruct (Reduction.run_base_case E fhash default_dir scan backend k st) as [st1 [[]|]] eqn:B; [|discriminate].
    destruct (rank r st1) as [l|] eqn:RK; [|discriminate].
    destruct (Reduction.reduction_loop E fhash default_dir scan backend k m r max st1 l 0%Z) as [[st2 [[]|]]|] eqn:L; [|discriminate|discriminate].
    destruct (base_case E fhash default_dir scan backend k scan_perm c0 c0_reachable max_nonneg true g s s1 st st1 O C H B) as (I & CH & _ & _ & LEN).
    assert (DR : driven st1 l).
    { eapply dr_base; [exact H|exact B|]. unfold rank in RK. destruct r; [congruence|exact RK]. }
    assert (ST : 0%Z = streak_of k (r_hist st1)).
    { assert (B0 : exists x, r_hist st1 = [x]) by (destruct (r_hist st1) as [|x [|]]; try discriminate; eauto). destruct B0 as (x & H0).
      assert (E0 : h_base x = Fin 0).
      { revert B H0. clear. unfold run_base_case. destruct (r_hist st); [|discriminate]. destruct (r_tried st); [|discriminate].
        destruct (r_base st); [discriminate|]. destruct (r_last st); [discriminate|].
        destruct (run_model _ _ _ _ _ _ _ _) as [st2 [[]|]]; [|discriminate]. unfold log_history.
        destruct (put _ _ _) as [s2 [[]|]]; [|discriminate]. destruct (get_solution _) as [t|]; [|discriminate].
        intros H H0. injection H as <-. cbn in H0. injection H0 as <-. reflexivity. }
      rewrite H0. unfold streak_of, next_streak. cbn [fold_left]. rewrite E0. cbn [fnan].
      assert (V0 : over k (Fin 0) = false).
      { apply within_not_over; [discriminate|]. unfold within_limit, Qdiv. apply Qmult_le_0_compat; [exact max_nonneg|discriminate]. }
      now rewrite V0. }
    destruct (gm_chem (r_gm st2)) as [c2|]; [|discriminate]. intros X. injection X as <-. cbn [with_gm r_hist r_tried r_eligible r_fs].
    destruct (loop_driven max m st1 l 0%Z st2 l [] I DR L eq_refl) as (R' & D1 & _ & D2); [intros x []|exact ST|].
    exists st2, R'. split; [exact D1|]. repeat (split; [reflexivity|]).
    destruct D2 as [D2|[D2|D2]]; [left|right; left; exact D2|right; right; exact D2].
    destruct (streak_attained k (r_hist st2)) as (h1 & h2 & n & HH & A & S). exists h1, h2, n. split; [exact HH|]. split; [exact A|]. lia.
  Qed.
End R.
