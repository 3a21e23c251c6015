(** Whole reductions. *)
From Coq Require Import Permutation Lqa.
From Verif Require Import Base BaseLemmas Species Reactions Chemistry ChemSpec ChemDisable ChemInv ChemHist ChemLoad ChemMain ChemGetters ChemMore
  Morris MorrisStats Tables InitialGuess GlobalModel GlobalSpec GlobalFiles GlobalLog GlobalProofs GlobalMore
  Reduction ReductionSpec ReductionChem ReductionRun ReductionProofs.
Open Scope list_scope.

Lemma sp_by_name c s t : wf c -> In s (c_species c) -> In t (c_species c) -> sp_name s = sp_name t -> s = t.
Proof. intros W. apply (NoDup_map_inj sp_name). apply W. Qed.

(** What [__init__] accepts. *)
Theorem r_init_spec E k g s s1 st c : reachable E c -> fs_ok s -> gm_chem g = Some c -> r_init k g s = (s1, Ok st) ->
  fs_ok s1 /\ kept s s1 /\ r_gm st = g /\ r_fs st = s1 /\ r_all st = names_of c /\ r_tried st = [] /\ r_hist st = [] /\
  r_base st = None /\ r_last st = None /\ (forall x, In x (r_eligible st) <-> removable k c x) /\ r_eligible st <> [].
Proof.
  intros R O C. unfold r_init. rewrite C.
  assert (D : forall dd : gfs * outcome, fs_ok (fst dd) /\ kept s (fst dd) ->
     match dd with
     | (s', Finished) => match minus (map sp_name (get_species c false false false)) (rc_outs k) with
         | [] => (s', Err EReductionInit)
         | _ => if negb (Nat.eqb (List.length (odedupS (names_of c))) (List.length (get_species c false false true))) then (s', Err EAssertion)
                else (s', Ok (MkR g s' (names_of c) [] (minus (map sp_name (get_species c false false false)) (rc_outs k)) [] None None 0))
         end
     | (s', Failed e) => (s', Err e) | (s', Crashed) => (s', Err EFuel) end = (s1, Ok st) ->
     fs_ok s1 /\ kept s s1 /\ r_gm st = g /\ r_fs st = s1 /\ r_all st = names_of c /\ r_tried st = [] /\ r_hist st = [] /\
     r_base st = None /\ r_last st = None /\ (forall x, In x (r_eligible st) <-> removable k c x) /\ r_eligible st <> []).
  { intros [s' [|e|]] [F1 F2]; cbn [fst] in *; [|discriminate|discriminate].
    destruct (minus (map sp_name (get_species c false false false)) (rc_outs k)) as [|x0 l0] eqn:EL; [discriminate|]. rewrite <- EL.
    destruct (negb _); [discriminate|]. intros H. injection H as <- <-. cbn [r_gm r_fs r_all r_tried r_hist r_base r_last r_eligible].
    repeat (split; [first [assumption|reflexivity]|]). split; [|now rewrite EL].
    intros x. rewrite minus_In, in_map_iff. pose proof (i_wf _ (reachable_Inv E c R)) as W. unfold removable, present, get_species. split.
    - intros [(q & <- & I) NO]. apply filter_In in I. destruct I as [I M]. unfold sp_mask in M. cbn [orb] in M.
      apply andb_true_iff in M. destruct M as [M M3]. apply andb_true_iff in M. destruct M as [M1 M2].
      split; [|split; [|exact NO]].
      + exists q. repeat split; auto. unfold sp_special in M2. apply negb_true_iff in M2. now apply memS_false in M2.
      + intros q' I' N. rewrite (sp_by_name c q' q W I' I N). apply negb_true_iff, orb_false_iff in M3. destruct M3. intros [X|X]; congruence.
    - intros [(q & I & <- & En & NS) [P NO]]. split; [|exact NO]. exists q. split; [reflexivity|]. apply filter_In. split; [exact I|].
      unfold sp_mask. cbn [orb]. rewrite En. cbn [andb]. apply andb_true_iff. split.
      + apply negb_true_iff. now apply memS_false.
      + apply negb_true_iff, orb_false_iff. specialize (P q I eq_refl). unfold protected in P.
        destruct (c_prot c (sp_id q)), (c_adprot c (sp_id q)); split; auto; exfalso; apply P; auto. }
  intros H. apply (D _) in H; [exact H|]. clear H D.
  destruct (isdir s (rc_parent k)); cbn [negb fst]; [|split; [exact O|apply kept_refl]].
  destruct (isdir s (rc_dir k)); cbn [negb].
  - destruct (has_entries s (rc_dir k)); cbn [fst]; (split; [exact O|apply kept_refl]).
  - cbn [exec]. pose proof (mkdir_ok (rc_dir k) s O) as MO. pose proof (mkdir_kept (rc_dir k) s) as MK.
    destruct (mkdir_inv (rc_dir k) s) as [M|(M & M1 & M2 & M3)]; rewrite M in *; cbn [fst] in *; [now split|].
    set (s2 := MkGfs _ _) in *. pose proof (put_ok (meta_path k) (meta_of k) s2 MO) as PO.
    destruct (put_inv (meta_path k) (meta_of k) s2) as [P|(P & _)]; rewrite P in *; cbn [fst] in *; [now split|].
    split; [exact PO|]. apply (kept_trans _ s2); [exact MK|]. split; [auto|].
    intros p q F. cbn [fs_files fst option_map] in *. rewrite fget_other; [exact F|]. intros ->. destruct O as [O1 _].
    destruct (O1 _ _ F) as [X _]. unfold meta_path in X. rewrite removelast_last in X. congruence.
Qed.

Section R.
  Variables (E : env) (fhash : string -> option string) (default_dir : string -> res path) (scan : list path -> list path).
  Variable backend : nat -> solving.
  Variable k : rconf.
  Hypothesis scan_perm : forall l, Permutation (scan l) l.
  Variable c0 : chem.
  Hypothesis c0_reachable : reachable E c0.
  Hypothesis c0_declared : declared_exist c0.
  Hypothesis max_nonneg : (0 <= rc_max k)%Q.
  Let remove_one := remove_one E fhash default_dir scan backend k.
  Let run_base_case := run_base_case E fhash default_dir scan backend k.
  Let inv := inv E fhash k c0.
  Let iterated := iterated E fhash default_dir scan backend k.

  Lemma base_case bt g s s1 st st1 : fs_ok s -> gm_chem g = Some c0 -> r_init k g s = (s1, Ok st) -> run_base_case st = (st1, Ok tt) ->
    inv bt st1 /\ consistent_history E fhash k bt c0 st1 /\ (forall x, In x (r_eligible st1) <-> removable k c0 x) /\ r_tried st1 = [] /\
    List.length (r_hist st1) = 1%nat.
  Proof using scan_perm c0_reachable max_nonneg.
    intros O C H. destruct (r_init_spec E k g s s1 st c0 c0_reachable O C H) as (I1 & I2 & I3 & I4 & I5 & I6 & I7 & I8 & I9 & I10 & I11).
    unfold run_base_case, Reduction.run_base_case. rewrite I6, I7, I8, I9.
    destruct (run_model E fhash default_dir scan backend k st base_id) as [st2 o] eqn:RM.
    assert (O1 : fs_ok (r_fs st)) by (rewrite I4; exact I1).
    destruct (run_model_spec E fhash default_dir scan backend k scan_perm st base_id st2 o O1 base_id_ne RM)
      as (UN & GC & E1 & E2 & E3 & E4 & E5 & E6 & FIN). destruct o as [[]|]; [|discriminate].
    destruct (FIN eq_refl) as (c & r & a & t & X1 & X2 & _ & X4 & X5 & X6 & X7). rewrite I3 in X1, GC. rewrite C in X1, GC. injection X1 as <-.
    set (st3 := with_hist st2 _). destruct (log_history k st3) as [st4 [[]|]] eqn:L; [|discriminate].
    apply log_history_spec in L; [|apply UN]. destruct L as (fs & -> & KS & FS).
    cbn [with_fs r_gm st3 with_hist] in *. rewrite X4. intros Hst. injection Hst as <-.
    assert (G0 : good E c0 c0) by (split; [repeat split|exact c0_reachable]).
    assert (A' : fget (attrs_path k base_id) (fs_files fs) = Some (CAttrs a)) by (apply KS; [exact base_id_ne|exact X5]).
    assert (T' : fget (run_path (rc_dir k) base_id ++ ["solution.csv"%string]) (fs_files fs) = Some (CTable t)) by (apply KS; [exact base_id_ne|exact X7]).
    split; [|split; [|split; [|split]]].
    - constructor; cbn [with_sols r_fs r_all r_gm r_eligible r_hist r_base r_tried with_fs with_hist st3].
      + apply KS.
      + congruence.
      + exists c0. auto.
      + intros x. rewrite E3. apply I10.
      + intros q [<-|[]] _. exists base_id, c0, a. cbn [h_run]. split; [reflexivity|]. split; [exact base_id_ne|]. auto.
      + intros q [<-|[]]. discriminate.
      + intros NU. exists c0, base_id, c0, a. split; [exact GC|]. split.
        { unfold restore_id. cbn [with_sols with_fs with_hist r_hist st3]. cbn [existsb h_success orb filter]. unfold restorable. cbn [h_success h_base].
          destruct bt; [|reflexivity].
          assert (F : fleb (Fin 0) (Fin (rc_max k / 100)) = true).
          { apply within_iff. unfold within_limit. unfold Qdiv. pose proof max_nonneg. apply Qmult_le_0_compat; [assumption|discriminate]. }
          now rewrite F. }
        split; [exact base_id_ne|]. repeat (split; [assumption|]). apply same_chem_refl.
      + eauto.
      + discriminate.
    - constructor; cbn [with_sols r_fs r_all r_gm r_eligible r_hist r_base r_tried with_fs with_hist st3].
      + rewrite E2, I6. reflexivity.
      + rewrite E2, I6. constructor.
      + rewrite E2, I6. intros x [].
      + intros q x [<-|[]] [].
      + exact FS.
      + intros q [<-|[]]. discriminate.
      + exists (rw_sol r). split; [reflexivity|]. intros h1 q h2 HH _.
        assert (HQ : h1 = [] /\ q = MkRow (Some base_id) None None (Some true) [] 0 (Z.of_nat (List.length (r_all st2))) (Fin 0) (Fin 0)).
        { destruct h1 as [|y [|z h1]]; [injection HH as <- _; auto|discriminate|discriminate]. }
        destruct HQ as [-> ->]. exists base_id, c0, (rw_sol r). cbn [h_run h_left h_removed h_base].
        split; [reflexivity|]. split; [apply G0|]. split; [exact c0_reachable|]. split; [exists a, t; auto|].
        rewrite E1, I5. split; [reflexivity|]. split; [lia|]. split; [auto|].
        intros _ x. unfold removed_by. cbn [h_species h_more]. split; [|tauto]. intros P. split; [exact P|].
        split; [intros [X|[]]; discriminate|]. intros (q & [] & _).
      + exists c0. split; [exact GC|]. split; [apply G0|]. split; [exact c0_reachable|]. intros _ x. split; [|tauto].
        intros P. split; [exact P|]. intros (q & [<-|[]] & _ & [X|[]]). discriminate.
    - intros x. cbn [with_sols r_eligible with_fs with_hist st3]. rewrite E3. apply I10.
    - cbn [with_sols r_tried with_fs with_hist st3]. congruence.
    - reflexivity.
  Qed.

  Theorem iterated_inv bt g s st : fs_ok s -> gm_chem g = Some c0 -> iterated bt g s st ->
    inv bt st /\ consistent_history E fhash k bt c0 st.
  Proof using scan_perm c0_reachable c0_declared max_nonneg.
    intros O C. induction 1 as [s1 st st1 H1 H2|st sp score st1 row H [I CH] R].
    - destruct (base_case bt g s s1 st st1 O C H1 H2) as (A & B & _). auto.
    - split; [apply (inv_step E fhash default_dir scan backend k scan_perm c0 c0_declared bt st sp score st1 row I R)|].
      apply (history_step E fhash default_dir scan backend k scan_perm c0 c0_declared bt st sp score st1 row I CH R).
  Qed.

  (** ** One removal *)
  Theorem removal bt g s st sp score st' row : fs_ok s -> gm_chem g = Some c0 -> iterated bt g s st ->
    remove_one st sp score bt = (st', Ok row) ->
    removable k c0 sp /\ ~ In sp (r_tried st) /\ r_tried st' = r_tried st ++ [sp] /\ r_hist st' = r_hist st ++ [row] /\
    h_species row = Some sp /\ h_score row = Some score /\
    exists c c', gm_chem (r_gm st) = Some c /\ gm_chem (r_gm st') = Some c' /\
      (* not removed: nothing has changed *)
      (h_success row = Some false -> numbers bt (r_hist st) -> same_chem E c c') /\
      (* removed *)
      (h_success row = Some true ->
         exists c1, disable c [RName sp] [] = (c1, Ok tt) /\ (forall q, In q (c_species c) -> sp_name q = sp -> ~ protected c q) /\
           (forall x, removed_by row x <-> present c x /\ ~ present c1 x) /\
           (bt = true -> over_limit k (h_base row) -> numbers bt (r_hist st) -> same_chem E c c') /\
           (~ (bt = true /\ over_limit k (h_base row)) -> c' = c1)).
  Proof using scan_perm c0_reachable c0_declared max_nonneg.
    intros O C IT R. destruct (iterated_inv bt g s st O C IT) as [I _].
    destruct (remove_one_step E fhash default_dir scan backend k scan_perm c0 c0_declared bt st sp score st' row I R)
      as (H1 & H2 & H3 & H4 & H5 & H6 & H7 & H8 & H9 & H10 & H11 & c & c' & C1 & C2 & G & S).
    split; [now apply (v_eligible _ _ _ _ _ _ I)|]. repeat (split; [assumption|]). exists c, c'. split; [exact C1|]. split; [exact C2|].
    destruct S as [S1 S2 S3 S4 S5|rid c1 base sol S1 S2 S3 S4 S5 S5' S6 S7 S8 S9 S10 S11 S12].
    - split; [auto|]. intros X. congruence.
    - split; [intros X; congruence|]. intros _. exists c1. split; [exact S4|]. split.
      { destruct (v_chem _ _ _ _ _ _ I) as (c2 & C2' & [_ RC]). rewrite C1 in C2'. injection C2' as <-.
        intros q Iq Nq P. pose proof (i_wf _ (reachable_Inv E c RC)) as W.
        destruct (disable_frame c _ _ _ _ W S4) as (_ & _ & _ & _ & _ & KP).
        destruct (disable_closed_r E c RC _ _ _ S4) as (DS & _).
        assert (PR : present c sp) by (apply present_names; apply S10; now left). destruct PR as (q' & Iq' & Nq' & En' & _).
        assert (q' = q) by (apply (sp_by_name c _ _ W Iq' Iq); congruence). subst q'.
        specialize (KP q Iq P En'). rewrite (DS (RName sp) q (or_introl eq_refl)) in KP; [discriminate|]. split; assumption. }
      split; [intros x; rewrite S10, !present_names; reflexivity|].
      rewrite <- over_iff. destruct S12 as [(V & -> & _)|(V & SM & _)].
      + split; [|reflexivity]. intros -> X. cbn [andb] in V. congruence.
      + apply andb_prop in V. destruct V as [-> V]. split; [auto|]. intros N. destruct N; auto.
  Qed.

  (** ** The loop *)
  Let reduction_loop := reduction_loop E fhash default_dir scan backend k.
  Let run_reduction := run_reduction E fhash default_dir scan backend k.

  Lemma next_inv tried l sp x l' : next_species tried l = Some (sp, x, l') ->
    exists pre, l = pre ++ (sp, x) :: l' /\ ~ In sp tried /\ forall y, In y (map fst pre) -> In y tried.
  Proof.
    induction l as [|[q y] l IH]; cbn [next_species]; [discriminate|]. destruct (memS q tried) eqn:M.
    - intros H. destruct (IH H) as (pre & -> & A & B). exists ((q, y) :: pre). split; [reflexivity|]. split; [exact A|].
      intros z [<-|Z]; [now apply memS_In|auto].
    - intros H. injection H as -> -> ->. exists []. split; [reflexivity|]. split; [now apply memS_false|]. intros z [].
  Qed.
  Lemma next_none tried l : next_species tried l = None -> forall y, In y (map fst l) -> In y tried.
  Proof.
    induction l as [|[q y] l IH]; cbn [next_species]; [intros _ y []|]. destruct (memS q tried) eqn:M; [|discriminate].
    intros H z [<-|Z]; [now apply memS_In|auto].
  Qed.

  Lemma step_facts st sp score st' row : inv true st -> remove_one st sp score true = (st', Ok row) ->
    inv true st' /\ In sp (r_eligible st) /\ ~ In sp (r_tried st) /\ r_tried st' = r_tried st ++ [sp] /\ r_hist st' = r_hist st ++ [row] /\
    (forall x, In x (r_eligible st') -> In x (r_eligible st)).
  Proof using scan_perm c0_declared.
    intros I R. split; [apply (inv_step E fhash default_dir scan backend k scan_perm c0 c0_declared true st sp score st' row I R)|].
    destruct (remove_one_step E fhash default_dir scan backend k scan_perm c0 c0_declared true st sp score st' row I R)
      as (H1 & H2 & H3 & H4 & H5 & H6 & H7 & H8 & H9 & H10 & H11 & c & c' & C1 & C2 & G & S).
    repeat (split; [assumption|]). apply (eligible_step E fhash default_dir scan backend k c0 _ _ _ _ _ _ _ S).
  Qed.

  (** Termination: every removal uses up one of finitely many names. *)
  Definition untried (st : rstate) : list string := minus (r_eligible st) (r_tried st).
  Fixpoint distinct (l : list string) : list string :=
    match l with [] => [] | x :: l' => if memS x l' then distinct l' else x :: distinct l' end.
  Lemma distinct_In l x : In x (distinct l) <-> In x l.
  Proof.
    induction l as [|y l IH]; [reflexivity|]. cbn [distinct]. destruct (memS y l) eqn:M; cbn [In]; rewrite IH; [|reflexivity].
    apply memS_In in M. split; [auto|]. intros [<-|X]; auto.
  Qed.
  Lemma distinct_NoDup l : NoDup (distinct l).
  Proof.
    induction l as [|y l IH]; [constructor|]. cbn [distinct]. destruct (memS y l) eqn:M; [exact IH|].
    constructor; [|exact IH]. rewrite distinct_In. now apply memS_false.
  Qed.
  Lemma untried_less st sp score st' row : inv true st -> remove_one st sp score true = (st', Ok row) ->
    (List.length (distinct (untried st')) < List.length (distinct (untried st)))%nat.
  Proof using scan_perm c0_declared.
    intros I R. destruct (step_facts st sp score st' row I R) as (_ & H1 & H2 & H3 & _ & H4).
    assert (L : (List.length (sp :: distinct (untried st')) <= List.length (distinct (untried st)))%nat); [|exact L].
    apply NoDup_incl_length.
    - constructor; [|apply distinct_NoDup]. rewrite distinct_In. unfold untried. rewrite minus_In, H3, in_app_iff. cbn [In]. tauto.
    - intros x [<-|X]; rewrite distinct_In in *; unfold untried in *; rewrite minus_In in *; [tauto|].
      rewrite H3, in_app_iff in X. split; [apply H4; tauto|tauto].
  Qed.

  Theorem loop_stops r max : forall st l streak, inv true st -> exists n x, forall m, (n <= m)%nat -> reduction_loop m r max st l streak = Some x.
  Proof using scan_perm c0_declared.
    intros st. remember (List.length (distinct (untried st))) as u eqn:U. revert st U.
    induction u as [u IHu] using (well_founded_induction lt_wf). intros st U l.
    remember (List.length l) as ll eqn:LL. revert l LL. induction ll as [ll IHl] using (well_founded_induction lt_wf). intros l LL streak I.
    assert (ONE : (forall fuel, exists x, reduction_loop (S fuel) r max st l streak = Some x /\ forall fuel', reduction_loop (S fuel') r max st l streak = Some x) ->
                  exists n x, forall m, (n <= m)%nat -> reduction_loop m r max st l streak = Some x).
    { intros H. destruct (H O) as (x & _ & X). exists 1%nat, x. intros m Hm. destruct m; [lia|]. apply X. }
    destruct l as [|y l0] eqn:HL; [apply ONE; intros fuel; eexists; split; reflexivity|]. rewrite <- HL in *.
    destruct (negb (ascendingb (map snd l))) eqn:AS.
    { apply ONE. intros fuel. eexists. split; [|intros fuel']; cbn [reduction_loop Reduction.reduction_loop]; rewrite HL, <- HL, AS; reflexivity. }
    destruct (next_species (r_tried st) l) as [[[sp score] l']|] eqn:NX.
    2: { apply ONE. intros fuel. eexists. split; [|intros fuel']; cbn [reduction_loop Reduction.reduction_loop]; rewrite HL, <- HL, AS, NX; reflexivity. }
    destruct (next_inv _ _ _ _ _ NX) as (pre & LE & _ & _).
    assert (SHORT : (List.length l' < List.length l)%nat) by (rewrite LE, app_length; cbn; lia).
    destruct (memS sp (r_eligible st)) eqn:EL.
    2: { destruct (IHl (List.length l')) with (l := l') (streak := streak) as (n & x & X); [lia|reflexivity|exact I|].
         exists (S n), x. intros [|m] Hm; [lia|]. cbn [reduction_loop Reduction.reduction_loop]. rewrite HL, <- HL, AS, NX, EL. apply X. lia. }
    destruct (remove_one st sp score true) as [st1 [row|e]] eqn:RM.
    2: { apply ONE. intros fuel. eexists. split; [|intros fuel']; cbn [reduction_loop Reduction.reduction_loop]; rewrite HL, <- HL, AS, NX, EL;
         unfold remove_one in RM; rewrite RM; reflexivity. }
    set (streak' := if fnan (h_base row) then streak else if over k (h_base row) then (streak + 1)%Z else 0%Z).
    destruct (match r with Dynamic f => if negb (fnan (h_base row)) && negb (over k (h_base row)) then f (r_gm st1) (r_runs st1) else Ok l' | Static _ => Ok l' end)
      as [l''|e] eqn:RK.
    2: { apply ONE. intros fuel. eexists. split; [|intros fuel']; cbn [reduction_loop Reduction.reduction_loop]; rewrite HL, <- HL, AS, NX, EL;
         unfold remove_one in RM; rewrite RM; cbv zeta; rewrite RK; reflexivity. }
    destruct (Z.ltb max streak' || match r_eligible st1 with [] => true | _ => false end) eqn:STOP.
    { apply ONE. intros fuel. eexists. split; [|intros fuel']; cbn [reduction_loop Reduction.reduction_loop]; rewrite HL, <- HL, AS, NX, EL;
         unfold remove_one in RM; rewrite RM; cbv zeta; rewrite RK; fold streak'; rewrite STOP; reflexivity. }
    pose proof (untried_less st sp score st1 row I RM) as LT. destruct (step_facts st sp score st1 row I RM) as (I1 & _).
    destruct (IHu (List.length (distinct (untried st1)))) with (st := st1) (l := l'') (streak := streak') as (n & x & X); [lia|reflexivity|exact I1|].
    exists (S n), x. intros [|m] Hm; [lia|]. cbn [reduction_loop Reduction.reduction_loop]. rewrite HL, <- HL, AS, NX, EL.
    unfold remove_one in RM. rewrite RM. cbv zeta. rewrite RK. fold streak'. rewrite STOP. apply X. lia.
  Qed.

  Lemma loop_iterated g s r max : forall m st l streak st', iterated true g s st ->
    reduction_loop m r max st l streak = Some (st', Ok tt) -> iterated true g s st'.
  Proof.
    induction m as [|m IH]; intros st l streak st' IT; [discriminate|]. cbn [reduction_loop Reduction.reduction_loop].
    destruct l as [|y l0] eqn:HL; [intros H; injection H as <-; exact IT|]. rewrite <- HL in *.
    destruct (negb (ascendingb (map snd l))); [discriminate|].
    destruct (next_species (r_tried st) l) as [[[sp score] l']|]; [|intros H; injection H as <-; exact IT].
    destruct (memS sp (r_eligible st)); [|apply IH; exact IT].
    destruct (Reduction.remove_one E fhash default_dir scan backend k st sp score true) as [st1 [row|e]] eqn:RM; [|discriminate].
    assert (IT1 : iterated true g s st1) by (eapply it_next; eauto). cbv zeta.
    match goal with |- match ?x with _ => _ end = _ -> _ => destruct x; [|discriminate] end.
    match goal with |- (if ?x then _ else _) = _ -> _ => destruct x; [intros H; injection H as <-; exact IT1|] end.
    apply IH. exact IT1.
  Qed.

  (** ** A whole reduction *)
  Theorem reduction_stops g s s1 st r max : fs_ok s -> gm_chem g = Some c0 -> r_init k g s = (s1, Ok st) ->
    exists n x, forall m, (n <= m)%nat -> run_reduction m st r max = Some x.
  Proof using scan_perm c0_reachable c0_declared max_nonneg.
    intros O C H. unfold run_reduction, Reduction.run_reduction.
    destruct (gm_chem (r_gm st)) as [c|]; [|exists 0%nat, (st, Err EAttribute); reflexivity].
    destruct (get_disabled_species c); [|eexists 0%nat, _; reflexivity].
    destruct (get_disabled_reactions c); [|eexists 0%nat, _; reflexivity].
    destruct (Reduction.run_base_case E fhash default_dir scan backend k st) as [st1 [[]|]] eqn:B; [|eexists 0%nat, _; reflexivity].
    destruct (rank r st1) as [l|]; [|eexists 0%nat, _; reflexivity].
    destruct (base_case true g s s1 st st1 O C H B) as (I & _).
    destruct (loop_stops r max st1 l 0%Z I) as (n & [st2 o] & X). unfold reduction_loop in X.
    destruct o as [[]|e]; [|exists n, (st2, Err e); intros m Hm; now rewrite (X m Hm)].
    destruct (gm_chem (r_gm st2)) eqn:G2; [eexists n, _|exists n, (st2, Err EAttribute)]; intros m Hm; rewrite (X m Hm), G2; reflexivity.
  Qed.

  Theorem reduction_spec g s s1 st r max m st' : fs_ok s -> gm_chem g = Some c0 -> r_init k g s = (s1, Ok st) ->
    run_reduction m st r max = Some (st', Ok tt) ->
    exists st2, iterated true g s st2 /\ r_hist st' = r_hist st2 /\ r_tried st' = r_tried st2 /\ r_fs st' = r_fs st2 /\ r_base st' = r_base st2 /\
      exists c', gm_chem (r_gm st') = Some c' /\ reachable E c' /\ version_of E c0 c' /\
        (forall i, c_en c' i = true) /\ (forall i, c_enr c' i = true).
  Proof using scan_perm c0_reachable c0_declared max_nonneg.
    intros O C H. unfold run_reduction, Reduction.run_reduction.
    destruct (gm_chem (r_gm st)) as [c|]; [|discriminate].
    destruct (get_disabled_species c); [|discriminate].
    destruct (get_disabled_reactions c); [|discriminate].
    destruct (Reduction.run_base_case E fhash default_dir scan backend k st) as [st1 [[]|]] eqn:B; [|discriminate].
    destruct (rank r st1) as [l|]; [|discriminate].
    destruct (Reduction.reduction_loop E fhash default_dir scan backend k m r max st1 l 0%Z) as [[st2 [[]|]]|] eqn:L; [|discriminate|discriminate].
    assert (IT : iterated true g s st2).
    { apply (loop_iterated g s r max m st1 l 0%Z); [|exact L]. eapply it_base; eauto. }
    destruct (iterated_inv true g s st2 O C IT) as [I _]. destruct (v_chem _ _ _ _ _ _ I) as (c2 & C2 & [V R2]). rewrite C2.
    intros X. injection X as <-. exists st2. split; [exact IT|]. cbn [with_gm r_hist r_tried r_fs r_base r_gm].
    repeat (split; [reflexivity|]). exists (reset c2). split; [now apply (set_chem_chem _ c2)|]. split; [exact (reach_step E c2 OReset R2)|].
    split; [exact V|]. split; reflexivity.
  Qed.

  (** ** Static rankings *)
  Definition next_streak (n : Z) (r : hrow) : Z := if fnan (h_base r) then n else if over k (h_base r) then (n + 1)%Z else 0%Z.
  Definition streak_of (h : list hrow) : Z := fold_left next_streak h 0%Z.
  Lemma streak_snoc h r : streak_of (h ++ [r]) = next_streak (streak_of h) r.
  Proof. unfold streak_of. rewrite fold_left_app. reflexivity. Qed.
  Lemma streak_attained h : exists h1 h2 n, h = h1 ++ h2 /\ all_over k n h2 /\ streak_of h = Z.of_nat n.
  Proof.
    induction h as [|r h (h1 & h2 & n & -> & A & S)] using rev_ind; [exists [], [], 0%nat; repeat split; constructor|].
    assert (SN : forall n0 h0, all_over k n0 h0 -> over_limit k (h_base r) -> all_over k (Datatypes.S n0) (h0 ++ [r])).
    { intros n0 h0 A0 V. induction A0; cbn [app]; [apply ao_over; [exact V|apply ao_nil]|apply ao_over; auto|apply ao_nan; auto]. }
    assert (NN : forall n0 h0, all_over k n0 h0 -> h_base r = NaN -> all_over k n0 (h0 ++ [r])).
    { intros n0 h0 A0 V. induction A0; cbn [app]; [apply ao_nan; [exact V|apply ao_nil]|apply ao_over; auto|apply ao_nan; auto]. }
    rewrite streak_snoc, S. unfold next_streak. destruct (fnan (h_base r)) eqn:N.
    - exists h1, (h2 ++ [r]), n. rewrite <- app_assoc. split; [reflexivity|]. split; [|reflexivity]. apply NN; [exact A|].
      now destruct (h_base r).
    - destruct (over k (h_base r)) eqn:V.
      + exists h1, (h2 ++ [r]), (Datatypes.S n). rewrite <- app_assoc. split; [reflexivity|]. split; [|lia]. apply SN; [exact A|now apply over_iff].
      + exists ((h1 ++ h2) ++ [r]), [], 0%nat. split; [now rewrite app_nil_r|]. split; [constructor|reflexivity].
  Qed.
  Lemma streak_bound h1 h2 n : all_over k n h2 -> (Z.of_nat n <= streak_of (h1 ++ h2))%Z.
  Proof.
    unfold streak_of. rewrite fold_left_app.
    assert (P : (0 <= fold_left next_streak h1 0)%Z).
    { assert (Q : forall h z, (0 <= z)%Z -> (0 <= fold_left next_streak h z)%Z); [|apply Q; lia].
      induction h as [|r h IH]; intros z Z0; [exact Z0|]. cbn [fold_left]. apply IH. unfold next_streak. destruct (fnan _); [exact Z0|]. destruct (over _ _); lia. }
    intros A. enough (Q : forall z, (0 <= z)%Z -> (Z.of_nat n + z <= fold_left next_streak h2 z)%Z) by (specialize (Q _ P); lia).
    clear P. induction A as [|n r h V A IH|n r h N A IH]; intros z Z0; cbn [fold_left]; [lia| |].
    - unfold next_streak at 2. rewrite (proj2 (over_iff k (h_base r)) V).
      destruct (fnan (h_base r)) eqn:X; [destruct (h_base r); discriminate || contradiction|]. specialize (IH (z + 1)%Z). lia.
    - unfold next_streak at 2. rewrite N. cbn [fnan]. now apply IH.
  Qed.

  Lemma subseq_refl {A} (l : list A) : subseq l l.
  Proof. induction l; constructor; assumption. Qed.
  Lemma subseq_app {A} (l m l' m' : list A) : subseq l m -> subseq l' m' -> subseq (l ++ l') (m ++ m').
  Proof.
    induction 1 as [m|x l m S IH|x l m S IH]; intros S'; cbn [app]; [|constructor; auto|constructor; auto].
    induction m; [exact S'|]. cbn. now constructor.
  Qed.

  Lemma static_loop max l0 : forall m st l streak st' p, inv true st ->
    reduction_loop m (Static l0) max st l streak = Some (st', Ok tt) ->
    l0 = p ++ l -> subseq (r_tried st) (map fst p) -> (forall x, In x (map fst p) -> In x (r_tried st) \/ ~ In x (r_eligible st)) ->
    streak = streak_of (r_hist st) ->
    (forall h h', r_hist st = h ++ h' -> (List.length h > 1)%nat -> (streak_of h <= max)%Z) ->
    inv true st' /\ subseq (r_tried st') (map fst l0) /\
    (forall h h', r_hist st' = h ++ h' -> h' <> [] -> (List.length h > 1)%nat -> (streak_of h <= max)%Z) /\
    ((max < streak_of (r_hist st'))%Z \/ r_eligible st' = [] \/ (forall x, In x (map fst l0) -> In x (r_tried st') \/ ~ In x (r_eligible st'))).
  Proof using scan_perm c0_declared.
    induction m as [|m IH]; intros st l streak st' p I; [discriminate|]. cbn [reduction_loop Reduction.reduction_loop].
    assert (WEAK : (forall h h', r_hist st = h ++ h' -> (List.length h > 1)%nat -> (streak_of h <= max)%Z) ->
                   forall h h', r_hist st = h ++ h' -> h' <> [] -> (List.length h > 1)%nat -> (streak_of h <= max)%Z) by eauto.
    destruct l as [|y l1] eqn:HL.
    { intros H -> SS PP ST PR. injection H as <-. rewrite app_nil_r. split; [exact I|]. split; [exact SS|]. split; [apply WEAK, PR|]. auto. }
    rewrite <- HL in *. destruct (negb (ascendingb (map snd l))); [discriminate|].
    destruct (next_species (r_tried st) l) as [[[sp score] l']|] eqn:NX.
    2: { intros H -> SS PP ST PR. injection H as <-. pose proof (next_none _ _ NX) as NN. split; [exact I|].
         split; [rewrite map_app; rewrite <- (app_nil_r (r_tried st)); apply subseq_app; [exact SS|constructor]|].
         split; [apply WEAK, PR|]. right; right. intros x. rewrite map_app, in_app_iff. intros [X|X]; [auto|left; auto]. }
    destruct (next_inv _ _ _ _ _ NX) as (pre & LE & NT & PT).
    destruct (memS sp (r_eligible st)) eqn:EL.
    2: { intros H L0 SS PP ST PR. apply (IH st l' streak st' (p ++ pre ++ [(sp, score)])) in H; [exact H|exact I| | | |exact ST|exact PR].
         - rewrite L0, LE, <- !app_assoc. reflexivity.
         - rewrite map_app. rewrite <- (app_nil_r (r_tried st)). apply subseq_app; [exact SS|constructor].
         - intros x. rewrite !map_app, !in_app_iff. intros [X|[X|[<-|[]]]]; [auto|left; auto|right]. now apply memS_false. }
    destruct (Reduction.remove_one E fhash default_dir scan backend k st sp score true) as [st1 [row|e]] eqn:RM; [|discriminate].
    destruct (step_facts st sp score st1 row I RM) as (I1 & S1 & S2 & S3 & S4 & S5). cbv zeta. fold (next_streak streak row).
    intros H L0 SS PP ST PR.
    assert (SS1 : subseq (r_tried st1) (map fst (p ++ pre ++ [(sp, score)]))).
    { rewrite S3, !map_app. apply subseq_app; [exact SS|]. change [sp] with ([] ++ [sp]). apply subseq_app; [constructor|apply subseq_refl]. }
    assert (PP1 : forall x, In x (map fst (p ++ pre ++ [(sp, score)])) -> In x (r_tried st1) \/ ~ In x (r_eligible st1)).
    { intros x. rewrite S3, !map_app, !in_app_iff. intros [X|[X|[<-|[]]]]; [|left; left; auto|left; right; now left].
      destruct (PP x X) as [Y|Y]; [auto|]. right. intros Z. apply Y. auto. }
    assert (L1 : l0 = (p ++ pre ++ [(sp, score)]) ++ l') by (rewrite L0, LE, <- !app_assoc; reflexivity).
    assert (ST1 : next_streak streak row = streak_of (r_hist st1)) by (rewrite S4, streak_snoc, ST; reflexivity).
    destruct (Z.ltb max (next_streak streak row) || match r_eligible st1 with [] => true | _ => false end) eqn:STOP.
    - injection H as <-. split; [exact I1|]. split.
      { rewrite L1, map_app. rewrite <- (app_nil_r (r_tried st1)). apply subseq_app; [exact SS1|constructor]. }
      split.
      { intros h h' HH NE. rewrite S4 in HH. destruct h' as [|q h' _] using rev_ind; [contradiction|]. rewrite app_assoc in HH.
        apply app_inj_tail in HH. destruct HH as [HH _]. eauto. }
      rewrite <- ST1. apply orb_prop in STOP. destruct STOP as [X|X]; [left; now apply Z.ltb_lt|right; left].
      now destruct (r_eligible st1).
    - apply orb_false_iff in STOP. destruct STOP as [X _]. apply Z.ltb_ge in X.
      apply (IH st1 l' _ st' (p ++ pre ++ [(sp, score)])) in H; [exact H|exact I1|exact L1|exact SS1|exact PP1|exact ST1|].
      intros h h' HH LEN. rewrite S4 in HH. destruct h' as [|q h' _] using rev_ind.
      + rewrite app_nil_r in HH. rewrite <- HH, <- S4, <- ST1. exact X.
      + rewrite app_assoc in HH. apply app_inj_tail in HH. destruct HH as [HH _]. eauto.
  Qed.

  Theorem static_reduction g s s1 st l max m st' : fs_ok s -> gm_chem g = Some c0 -> r_init k g s = (s1, Ok st) ->
    run_reduction m st (Static l) max = Some (st', Ok tt) ->
    subseq (r_tried st') (map fst l) /\ proper k max (r_hist st') /\ stopped k max st' l /\
    (forall x, In x (r_eligible st') -> removable k c0 x).
  Proof using scan_perm c0_reachable c0_declared max_nonneg.
    intros O C H. unfold run_reduction, Reduction.run_reduction.
    destruct (gm_chem (r_gm st)) as [c|]; [|discriminate].
    destruct (get_disabled_species c); [|discriminate].
    destruct (get_disabled_reactions c); [|discriminate].
    destruct (Reduction.run_base_case E fhash default_dir scan backend k st) as [st1 [[]|]] eqn:B; [|discriminate].
    cbn [rank].
    destruct (Reduction.reduction_loop E fhash default_dir scan backend k m (Static l) max st1 l 0%Z) as [[st2 [[]|]]|] eqn:L; [|discriminate|discriminate].
    destruct (base_case true g s s1 st st1 O C H B) as (I & CH & EL & TR & LEN).
    destruct (ch_logs _ _ _ _ _ _ CH) as (base & _ & LOGS).
    assert (B0 : exists r, r_hist st1 = [r] /\ h_base r = Fin 0).
    { pose proof (ch_rows _ _ _ _ _ _ CH) as RW. destruct (r_hist st1) as [|r [|r' h]] eqn:HH; [discriminate| |discriminate].
      exists r. split; [reflexivity|]. assert (SR : h_success r = Some true).
      { clear - B HH. unfold Reduction.run_base_case in B. destruct (r_hist st); [|discriminate].
        destruct (r_tried st); [|discriminate]. destruct (r_base st); [discriminate|]. destruct (r_last st); [discriminate|].
        destruct (run_model _ _ _ _ _ _ st base_id) as [s1 [[]|]]; [|discriminate].
        unfold log_history in B. destruct (put _ _ _) as [s2 [[]|]]; [|discriminate]. destruct (get_solution _); [|discriminate].
        injection B as <-. cbn in HH. injection HH as <-. reflexivity. }
      destruct (LOGS [] r [] eq_refl SR) as (rid & d & sol & _ & _ & _ & _ & _ & _ & (_ & X) & _). exact X. }
    destruct B0 as (r0 & H0 & E0).
    assert (V0 : over k (Fin 0) = false).
    { apply within_not_over; [discriminate|]. unfold within_limit, Qdiv. pose proof max_nonneg. apply Qmult_le_0_compat; [assumption|discriminate]. }
    destruct (gm_chem (r_gm st2)) as [c2|]; [|discriminate]. intros X. injection X as <-.
    apply (static_loop max l m st1 l 0%Z st2 []) in L; [|exact I|reflexivity|rewrite TR; constructor|intros x []| |].
    - destruct L as (I2 & L1 & L2 & L3). cbn [with_gm r_tried r_hist r_eligible]. unfold proper, stopped. cbn [with_gm r_tried r_hist r_eligible].
      split; [exact L1|]. split.
      + intros h1 h2 n h3 HH N1 N2 N3 A. pose proof (streak_bound h1 h2 n A) as SB. rewrite app_assoc in HH.
        enough (LL : (List.length (h1 ++ h2) > 1)%nat) by (specialize (L2 (h1 ++ h2) h3 HH N3 LL); lia).
        rewrite app_length. destruct h1; [contradiction|]. destruct h2; [contradiction|]. cbn [List.length]. lia.
      + split; [|apply (v_eligible _ _ _ _ _ _ I2)]. destruct L3 as [L3|L3]; [left|right; exact L3].
        destruct (streak_attained (r_hist st2)) as (h1 & h2 & n & HH & A & S). exists h1, h2, n. split; [exact HH|]. split; [exact A|]. lia.
    - rewrite H0. unfold streak_of, next_streak. cbn [fold_left]. rewrite E0, V0. reflexivity.
    - intros h h' HH LL. rewrite H0 in HH. destruct h as [|a [|b h]]; cbn in LL; [lia|lia|discriminate].
  Qed.

  (** What may not be removed is still there. *)
  Theorem kept_species bt g s st x : fs_ok s -> gm_chem g = Some c0 -> iterated bt g s st ->
    numbers bt (r_hist st) -> present c0 x -> ~ removable k c0 x ->
    exists c, gm_chem (r_gm st) = Some c /\ present c x.
  Proof using scan_perm c0_reachable c0_declared max_nonneg.
    intros O C IT NU P NR. destruct (iterated_inv bt g s st O C IT) as [_ CH].
    destruct (ch_chem _ _ _ _ _ _ CH) as (c & HC & _ & _ & H). exists c. split; [exact HC|]. apply (H NU). split; [exact P|].
    intros (r & Ir & _ & [X|X]); apply NR; [|now apply (ch_more _ _ _ _ _ _ CH r)].
    apply (ch_tried _ _ _ _ _ _ CH). pose proof (ch_rows _ _ _ _ _ _ CH) as RW.
    assert (I : In (Some x) (map h_species (r_hist st))) by (rewrite <- X; now apply in_map). rewrite RW in I.
    destruct I as [I|I]; [discriminate|]. apply in_map_iff in I. destruct I as (y & Y & I). injection Y as ->. exact I.
  Qed.
End R.
