(** Proofs of C183. *)
From Verif Require Import Base BaseLemmas Chemistry Morris MorrisStats Tables InitialGuess GlobalModel Reduction ReductionSpec ReductionProofs ChainSpec.
Open Scope Q_scope.

Section Chain.
  Variables (E : env) (fhash : string -> option string) (default_dir : string -> res path) (scan : list path -> list path).
  Variable backend : nat -> solving.
  Variable k : rconf.
  Notation run_model := (run_model E fhash default_dir scan backend k).
  Notation remove_one := (remove_one E fhash default_dir scan backend k).
  Notation run_base_case := (run_base_case E fhash default_dir scan backend k).

  (** Two states with the same solutions. *)
  Definition same_sols (st st' : rstate) : Prop := r_base st' = r_base st /\ r_last st' = r_last st /\ r_hist st' = r_hist st.

  Lemma run_model_sols st rid st' o : run_model st rid = (st', o) -> same_sols st st'.
  Proof.
    unfold Reduction.run_model. destruct (gm_run _ _ _ _ _ _ _ _ _) as [[g s] [|e|]]; [|intros H; injection H as <- <-; repeat split..].
    destruct (fget _ _) as [[]|]; try (intros H; injection H as <- <-; repeat split).
    destruct (compress_solution _ _ _); [|intros H; injection H as <- <-; repeat split].
    destruct (exec _ _ _) as [s' [|e|]]; intros H; injection H as <- <-; repeat split.
  Qed.

  Lemma log_sols st st' o : log_history k st = (st', o) -> same_sols st st'.
  Proof. unfold log_history. destruct (put _ _ _) as [s r]. intros H. injection H as <- <-. repeat split. Qed.

  Lemma restore_sols st rid st' o : restore E fhash k st rid = (st', o) -> same_sols st st'.
  Proof.
    unfold restore. destruct (gm_chem _) as [c|]; [|intros H; injection H as <- <-; repeat split].
    destruct (fget _ _) as [[]|]; try (intros H; injection H as <- <-; repeat split).
    destruct (load _ _ _ _ _) as [c' r]. intros H. injection H as <- <-. repeat split.
  Qed.

  Lemma same_trans a b c : same_sols a b -> same_sols b c -> same_sols a c.
  Proof. unfold same_sols. intros (? & ? & ?) (? & ? & ?). repeat split; congruence. Qed.

  Lemma attempt_sols st sp rid back st' o : attempt E fhash default_dir scan backend k st sp rid back = (st', o) -> same_sols st st'.
  Proof.
    unfold attempt. destruct (gm_chem _) as [c|]; [|intros H; injection H as <- <-; repeat split].
    destruct (disable c _ _) as [c1 [[]|e]].
    - destruct (Reduction.run_model _ _ _ _ _ _ _ _) as [st2 [[]|e]] eqn:R; apply run_model_sols in R.
      + destruct (set_remove _ _); intros H; injection H as <- <-; destruct R as (? & ? & ?); repeat split; cbn in *; congruence.
      + assert (forall r, (let (st3, o0) := restore E fhash k st2 back in match o0 with Ok _ => (st3, Ok false) | Err e0 => (st3, Err e0) end) = (st', r) -> same_sols st st') as G.
        { intros r. destruct (restore _ _ _ _ _) as [st3 o3] eqn:RS. apply restore_sols in RS.
          destruct o3; intros H; injection H as <- <-; (eapply same_trans; [|exact RS]); destruct R as (? & ? & ?); repeat split; cbn in *; congruence. }
        destruct e; try (intros H; injection H as <- <-; destruct R as (? & ? & ?); repeat split; cbn in *; congruence); intros H; exact (G _ H).
    - destruct e; intros H; injection H as <- <-; repeat split.
  Qed.

  Lemma over_spec e : over k e = true <-> over_limit k e.
  Proof.
    exact (over_iff k e).
  Qed.

  Lemma id_name n sp : run_name E n sp (model_id E n sp).
  Proof.
    unfold model_id, two_digits, run_name. destruct (Nat.ltb n 10) eqn:L.
    - left. split; [now apply Nat.ltb_lt|]. reflexivity.
    - right. split; [now apply Nat.ltb_ge|]. reflexivity.
  Qed.

  Lemma step_chain st sp score bt st' row base last :
    remove_one st sp score bt = (st', Ok row) -> r_base st = Some base -> r_last st = Some last ->
    r_base st' = Some base /\ exists last', r_last st' = Some last' /\
      (chain E k bt base (r_hist st) last -> chain E k bt base (r_hist st') last').
  Proof.
    unfold Reduction.remove_one. intros H Hb Hl.
    destruct (r_hist st) as [|r0 rs] eqn:Eh; [discriminate|]. rewrite <- Eh in *. clear r0 rs Eh.
    destruct (negb (memS _ _)); [discriminate|]. destruct (memS _ _); [discriminate|].
    destruct (check_meta _ _); [|discriminate]. set (st1 := with_tried st _) in *.
    destruct (Nat.eqb _ _) eqn:Ei; cbn [negb] in H; [|discriminate]. apply Nat.eqb_eq in Ei.
    destruct (restore_id _ _ _) as [back|]; [|discriminate]. set (h := r_hist st1) in *.
    set (row0 := MkRow None _ _ _ _ _ _ _ _) in *. set (st2 := with_hist st1 _) in *.
    destruct (gm_chem (r_gm st2)) as [c|]; [|discriminate].
    destruct (attempt _ _ _ _ _ _ _ _ _ _) as [st3 [success|e]] eqn:A; [|discriminate]. apply attempt_sols in A.
    destruct A as (A1 & A2 & A3). cbn in A1, A2, A3.
    destruct (gm_chem (r_gm st3)) as [c3|]; [|discriminate].
    set (row1 := MkRow None (Some sp) (Some score) (Some success) _ _ _ _ _) in *.
    destruct success.
    - unfold assess in H. destruct (negb (memS _ _)); [discriminate|].
      destruct (set_remove_all _ _) as [l [[]|]]; [|discriminate]. set (st4 := with_eligible st3 l) in *.
      destruct (get_solution (r_gm st4)) as [sol|] eqn:GS; [|discriminate].
      change (r_base st4) with (r_base st3) in H. change (r_last st4) with (r_last st3) in H.
      rewrite A1, A2, Hb, Hl in H.
      destruct (get_error_max base sol _ _) as [eb|] eqn:EB; [|discriminate].
      destruct (get_error_max last sol _ _) as [el|] eqn:EL; [|discriminate].
      set (row3 := MkRow (Some (model_id E (List.length (r_tried st1)) sp)) _ _ _ _ _ _ eb el) in *.
      set (st5 := with_hist st4 (h ++ [row3])) in *.
      assert (forall rows, rows = h -> tells E k (List.length rows) base last sol row3) as T.
      { intros rows ->. split; [reflexivity|]. split.
        - exists sp. eexists. split; [reflexivity|]. split; [reflexivity|]. rewrite Ei. apply id_name.
        - split; [exact EB|exact EL]. }
      destruct (bt && over k eb) eqn:BO.
      + apply andb_true_iff in BO as [-> BO]. apply over_spec in BO.
        destruct (restore _ _ _ st5 back) as [st6 [[]|]] eqn:RS; [|discriminate]. apply restore_sols in RS. destruct RS as (R1 & R2 & R3).
        destruct (log_history _ _) as [st7 [[]|]] eqn:LG; [|discriminate]. apply log_sols in LG. destruct LG as (L1 & L2 & L3).
        injection H as <- <-. cbn in L1, L2, L3, R1, R2, R3.
        split; [congruence|]. exists last. split; [congruence|]. intros C.
        rewrite L3, R3. apply (chain_undone E k true base (r_hist st) last row3 sol C (T _ eq_refl) eq_refl BO).
      + destruct (log_history _ _) as [st7 [[]|]] eqn:LG; [|discriminate]. apply log_sols in LG. destruct LG as (L1 & L2 & L3).
        injection H as <- <-. cbn in L1, L2, L3.
        split; [congruence|]. exists sol. split; [congruence|]. intros C.
        rewrite L3. apply (chain_kept E k bt base (r_hist st) last row3 sol C (T _ eq_refl)).
        intros [-> X]. apply over_spec in X. change (h_base row3) with eb in X. rewrite X in BO. discriminate.
    - destruct (log_history _ _) as [st7 [[]|]] eqn:LG; [|discriminate]. apply log_sols in LG. destruct LG as (L1 & L2 & L3).
      injection H as <- <-. cbn in L1, L2, L3.
      split; [congruence|]. exists last. split; [congruence|]. intros C. rewrite L3.
      apply (chain_failed E k bt base (r_hist st) last row1 C); reflexivity.
  Qed.

  Lemma iterated_chain bt g s st : iterated E fhash default_dir scan backend k bt g s st ->
    exists base last, r_base st = Some base /\ r_last st = Some last /\ chain E k bt base (r_hist st) last.
  Proof.
    induction 1 as [s1 st st1 I B|st sp score st1 row _ (base & last & Hb & Hl & C) R].
    - unfold Reduction.run_base_case in B. destruct (r_hist st); [|discriminate].
      destruct (r_tried st); [|discriminate]. destruct (r_base st); [discriminate|]. destruct (r_last st); [discriminate|].
      destruct (Reduction.run_model _ _ _ _ _ _ _ _) as [st2 [[]|]]; [|discriminate].
      destruct (log_history _ _) as [st3 [[]|]] eqn:LG; [|discriminate]. apply log_sols in LG. destruct LG as (L1 & L2 & L3).
      destruct (get_solution _) as [t|]; [|discriminate]. injection B as <-. exists t, t. split; [reflexivity|]. split; [reflexivity|].
      cbn. rewrite L3. cbn. apply chain_base; reflexivity.
    - destruct (step_chain st sp score bt st1 row base last R Hb Hl) as (H1 & last' & H2 & H3).
      exists base, last'. split; [exact H1|]. split; [exact H2|]. exact (H3 C).
  Qed.

  Lemma reject_meta st sp score bt o t m : fget (meta_path k) (fs_files (r_fs st)) = Some (CMeta o t m) ->
    o <> rc_outs k \/ ~ Forall2 Qeq t (rc_times k) \/ ~ m == rc_max k ->
    exists x, remove_one st sp score bt = (st, Err x).
  Proof.
    intros F D. unfold Reduction.remove_one. destruct (r_hist st); [eauto|].
    destruct (negb _); [eauto|]. destruct (memS _ _); [eauto|]. unfold check_meta. rewrite F.
    assert (list_eqb String.eqb o (rc_outs k) && list_eqb Qeq_bool t (rc_times k) && Qeq_bool m (rc_max k) = false) as ->; [|cbn; eauto].
    apply not_true_iff_false. intros B. apply andb_true_iff in B as [B B3]. apply andb_true_iff in B as [B1 B2].
    destruct D as [D|[D|D]]; apply D; clear D.
    - clear - B1. revert B1. generalize (rc_outs k). induction o as [|x o IH]; intros [|y l]; cbn; try discriminate; [reflexivity|].
      intros H. apply andb_true_iff in H as [H1 H2]. apply String.eqb_eq in H1. f_equal; auto.
    - clear - B2. revert B2. generalize (rc_times k). induction t as [|x t IH]; intros [|y l]; cbn; try discriminate; [constructor|].
      intros H. apply andb_true_iff in H as [H1 H2]. apply Qeq_bool_iff in H1. constructor; auto.
    - now apply Qeq_bool_iff.
  Qed.
End Chain.

Lemma same_failure E fhash default_dir scan b b' k st sp score bt : interrupted_for (r_runs st) b b' ->
  remove_one E fhash default_dir scan b' k st sp score bt = remove_one E fhash default_dir scan b k st sp score bt.
Proof.
  intros (rest & B1 & B2). unfold remove_one. destruct (r_hist st); [reflexivity|].
  destruct (negb _); [reflexivity|]. destruct (memS _ _); [reflexivity|]. destruct (check_meta _ _); [|reflexivity].
  destruct (negb _); [reflexivity|]. destruct (restore_id _ _ _) as [back|]; [|reflexivity]. set (st2 := with_hist _ _).
  destruct (gm_chem _); [|reflexivity].
  assert (forall rid, attempt E fhash default_dir scan b' k st2 sp rid back = attempt E fhash default_dir scan b k st2 sp rid back) as ->; [|reflexivity].
  intros rid. unfold attempt. destruct (gm_chem (r_gm st2)) as [c2|]; [|reflexivity].
  destruct (disable c2 _ _) as [c1 [[]|e]]; [|reflexivity]. set (st3 := with_gm st2 _).
  assert ((exists st4, run_model E fhash default_dir scan b' k st3 rid = (st4, Err EInterrupt) /\
                       run_model E fhash default_dir scan b k st3 rid = (st4, Err EModelSolution)) \/
          run_model E fhash default_dir scan b' k st3 rid = run_model E fhash default_dir scan b k st3 rid) as [(st4 & -> & ->)| ->];
    [|reflexivity|reflexivity].
  unfold run_model. change (r_runs st3) with (r_runs st). rewrite B1, B2.
  unfold gm_run. destruct (run_checks _ _ _ _) as [[target i]|]; [|now right].
  destruct (gm_model _) as [m|]; [|now right]. unfold pygmol_run.
  destruct (let* y0 := y0_from_init_params _ _ _ _ in _); [|now right]. left. eexists. split; reflexivity.
Qed.
