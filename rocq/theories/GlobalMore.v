(** Runs, labels of the reported rates, and convergence. *)
From Coq Require Import Permutation Qabs Lqa.
From Verif Require Import Base BaseLemmas Species Reactions Chemistry Morris MorrisStats Tables TablesSpec TablesProofs InitialGuess
  GlobalModel GlobalSpec GlobalFiles GlobalLog GlobalProofs.
Open Scope list_scope.

Section G.
  Variables (E : env) (fhash : string -> option string) (default_dir : string -> res path) (scan : list path -> list path).
  Notation gstep := (gstep E fhash default_dir scan).
  Notation ghistory := (ghistory E fhash default_dir scan).

  (** How a run can end. *)
  Lemma run_cases b g a o s g' s' r : gm_run E fhash default_dir scan b g a o s = (g', s', r) ->
    (s' = s /\ gm_last g' = Some false /\ (gm_model g = None -> gm_model g' = None) /\ exists e, r = Failed e) \/
    (exists m d i, gm_model g = Some m /\ o = SDone true d /\
       g' = MkGm (gm_backend g) (Some (MkBm (bm_chem m) (bm_par m) (Some (MkStored d (List.length (names_of (bm_chem m))) (List.length (get_reactions (bm_chem m) false))))))
              (Some true) /\
       memS "value" (labels_for E (bm_chem m) (List.length (names_of (bm_chem m))) (List.length (get_reactions (bm_chem m) false)) 1) = true /\
       ((ra_log a = false /\ s' = s /\ r = Finished) \/
        (ra_log a = true /\ exists id dir, ra_id a = Some id /\ (ra_to a = Some dir \/ ra_to a = None /\ default_dir (gm_backend g) = Ok dir) /\
           log_results E fhash scan b g' id dir (ra_temp a) i (ra_over a) (ra_compress a) s = (s', r) /\
           match ra_init a with Some i0 => i = i0 | None => generate_initial_n (bm_chem m) (bm_par m) default_fractions = Ok i end))).
  Proof using.
    unfold gm_run. destruct (run_checks default_dir g a s) as [[target i]|e] eqn:RC.
    2: { intros H. injection H as <- <- <-. left. cbn. eauto. }
    destruct (gm_model g) as [m|] eqn:M.
    2: { intros H. injection H as <- <- <-. left. cbn. eauto. }
    unfold pygmol_run.
    match goal with |- context [match ?x with Ok _ => match o with _ => _ end | Err _ => _ end] => destruct x as [u|e] end.
    2: { intros H. injection H as <- <- <-. left. cbn. split; [reflexivity|]. split; [reflexivity|]. split; [discriminate|eauto]. }
    destruct o as [e rest|bb d].
    { intros H. injection H as <- <- <-. left. cbn. split; [reflexivity|]. split; [reflexivity|]. split; [discriminate|eauto]. }
    cbv zeta.
    destruct (memS "value" (labels_for E (bm_chem m) (List.length (names_of (bm_chem m))) (List.length (get_reactions (bm_chem m) false)) 1)) eqn:V; cbn [negb].
    2: { intros H. injection H as <- <- <-. left. cbn. split; [reflexivity|]. split; [reflexivity|]. split; [discriminate|eauto]. }
    destruct bb.
    2: { intros H. injection H as <- <- <-. left. cbn. split; [reflexivity|]. split; [reflexivity|]. split; [discriminate|eauto]. }
    intros H. right. exists m, d, i. split; [reflexivity|]. split; [reflexivity|].
    unfold run_checks in RC. destruct (ra_log a) eqn:LG.
    - destruct (ra_id a) as [id|] eqn:ID; [|discriminate].
      assert (X : exists dir, target = Some (id, dir) /\ (ra_to a = Some dir \/ ra_to a = None /\ default_dir (gm_backend g) = Ok dir) /\
        match ra_init a with Some i0 => i = i0 | None => generate_initial_n (bm_chem m) (bm_par m) default_fractions = Ok i end).
      { destruct (ra_to a) as [dir|]; [|destruct (default_dir (gm_backend g)) as [dir|]; [|discriminate]].
        all: cbn [bind] in RC; destruct (isdir s dir); [|discriminate]; cbn [bind] in RC; destruct (Qle_bool (ra_temp a) 0); [discriminate|]; cbn in RC.
        all: exists dir; rewrite M in RC.
        all: destruct (ra_init a) as [i'|].
        all: match type of RC with bind ?x _ = _ => destruct x; [|discriminate]; cbn [bind] in RC; injection RC as <- <-; auto 6 end. }
      destruct X as (dir & -> & X & I).
      destruct (log_results _ _ _ _ _ _ _ _ _ _ _ _) as [s1 r1] eqn:L. injection H as <- <- <-.
      split; [reflexivity|]. split; [exact V|]. right. split; [reflexivity|]. exists id, dir. auto.
    - assert (target = None) as ->.
      { cbn [bind] in RC. destruct (Qle_bool (ra_temp a) 0); [discriminate|]; cbn in RC. rewrite M in RC. destruct (ra_init a) as [i'|].
        all: match type of RC with bind ?x _ = _ => destruct x; [|discriminate]; cbn [bind] in RC; now injection RC as <- <- end. }
      injection H as <- <- <-. split; [reflexivity|]. split; [exact V|]. left. auto.
  Qed.

  (** A run that returns normally serves its own data. *)
  Lemma run_finished w b a o w' : gstep w (b, GRun a o) = (w', Finished) ->
    exists r, o = SDone true r /\ served get_solution w' = Ok (rw_sol r) /\ served success w' = Ok true.
  Proof using.
    unfold GlobalModel.gstep. cbn [fst snd]. destruct (w_obj w) as [g|]; [|discriminate].
    destruct (gm_run E fhash default_dir scan b g a o (w_fs w)) as [[g' s'] r] eqn:R. intros H. injection H as <- ->.
    apply run_cases in R. destruct R as [(_ & _ & _ & e & X)|(m & d & i & M & -> & G & _)]; [discriminate|].
    exists d. subst g'. auto.
  Qed.

  (** After a run that raises, without logging, nothing is served. *)
  Lemma run_failed w b a o w' e g : w_obj w = Some g -> ra_log a = false -> gstep w (b, GRun a o) = (w', Failed e) ->
    served get_solution w' = Err EBackendUnsuccessful /\ served (get_rates E) w' = Err EBackendUnsuccessful /\
    served (get_wall_fluxes E) w' = Err EBackendUnsuccessful /\ served success w' = Ok false /\ w_fs w' = w_fs w.
  Proof using.
    intros W LG. unfold GlobalModel.gstep. cbn [fst snd]. rewrite W.
    destruct (gm_run E fhash default_dir scan b g a o (w_fs w)) as [[g' s'] r] eqn:R. intros H. injection H as <- ->.
    apply run_cases in R. destruct R as [(-> & L & _ & e' & X)|(m & d & i & M & _ & G & _ & [(_ & _ & X)|(X & _)])]; [|discriminate|congruence].
    unfold served. cbn [w_obj alive w_fs]. unfold get_solution, get_rates, get_wall_fluxes, get_stored, assert_success, success. rewrite L. cbn. auto.
  Qed.

  (** A chemistry with a single reaction or a single heavy species. *)
  Lemma single_fails b g m a o s : gm_model g = Some m ->
    (List.length (get_reactions (bm_chem m) false) = 1%nat \/ List.length (names_of (bm_chem m)) = 1%nat) ->
    (forall r, In r (get_reactions (bm_chem m) false) -> ishow E (rx_id r) <> "value"%string) ->
    (forall n, In n (names_of (bm_chem m)) -> n <> "value"%string) ->
    exists e, snd (gm_run E fhash default_dir scan b g a o s) = Failed e.
  Proof using.
    intros M S NV1 NV2. destruct (gm_run E fhash default_dir scan b g a o s) as [[g' s'] r] eqn:R. cbn [snd].
    apply run_cases in R. destruct R as [(_ & _ & _ & R)|(m' & d & i & M' & _ & _ & V & _)]; [exact R|].
    rewrite M in M'. injection M' as <-. exfalso. apply memS_In in V. unfold labels_for in V.
    destruct (Nat.eqb 1 (List.length (names_of (bm_chem m)))) eqn:N1; [now apply NV2 in V|].
    destruct (Nat.eqb 1 (List.length (get_reactions (bm_chem m) false))) eqn:N2.
    - apply in_map_iff in V. destruct V as (x & V & I). now apply NV1 in I.
    - apply Nat.eqb_neq in N1, N2. destruct S; congruence.
  Qed.

  (** ** Labels *)
  Lemma to_table_value cols m k j t vs c v :
    NoDup cols -> ~ In "t"%string cols -> List.length vs = List.length cols ->
    nth_error m k = Some (t, vs) -> nth_error cols j = Some c -> nth_error vs j = Some v ->
    exists r, nth_error (tb_rows (to_table cols m)) k = Some (Z.of_nat k, r) /\ r c = v /\ r "t"%string = t.
  Proof using.
    intros N T L K J V. unfold to_table. cbn [tb_rows].
    assert (C : forall {A B} (x : list A) (y : list B) i a b, nth_error x i = Some a -> nth_error y i = Some b -> nth_error (combine x y) i = Some (a, b)).
    { intros A B x. induction x as [|x0 x IH]; intros [|y0 y] [|i0] a b Ha Hb; try discriminate; cbn in *; [congruence|now apply IH]. }
    assert (KL : (k < List.length m)%nat) by (apply nth_error_Some; congruence).
    eexists. split.
    - apply C.
      + apply map_nth_error with (f := Z.of_nat) (d := k). rewrite (nth_error_nth' _ 0%nat) by (now rewrite seq_length). now rewrite seq_nth.
      + apply map_nth_error. exact K.
    - cbv beta. cbn [fst snd]. split; [|now rewrite String.eqb_refl].
      destruct (String.eqb c "t") eqn:X; [apply String.eqb_eq in X; subst c; exfalso; apply T; eapply nth_error_In; exact J|].
      assert (G : aget String.eqb c (combine cols vs) = Some v).
      { apply (In_aget String.eqb Seqb_spec).
        - unfold akeys. assert (Z : map fst (combine cols vs) = cols); [|now rewrite Z].
          clear -L. revert vs L. induction cols as [|x cols IH]; intros [|y vs] L; try discriminate; [reflexivity|]. cbn. f_equal. apply IH. now injection L.
        - eapply nth_error_In. apply (C _ _ cols vs j); eauto. }
      now rewrite G.
  Qed.

  (** The rates of the last run, as long as the chemistry is unchanged and the
      numbers of species and reactions differ. *)
  Lemma rates_labelled c r : List.length (names_of c) <> List.length (get_reactions c false) ->
    diagnose E c (MkStored r (List.length (names_of c)) (List.length (get_reactions c false))) (List.length (get_reactions c false)) (rw_rates r) =
    Ok (to_table (map (fun x => ishow E (rx_id x)) (get_reactions c false)) (rw_rates r)).
  Proof using.
    intros N. unfold diagnose, labels_for. cbn [st_nsp st_nr]. rewrite (proj2 (Nat.eqb_neq _ _) (not_eq_sym N)).
    rewrite Nat.eqb_refl, map_length, Nat.eqb_refl. reflexivity.
  Qed.
  Lemma fluxes_labelled c r :
    diagnose E c (MkStored r (List.length (names_of c)) (List.length (get_reactions c false))) (List.length (names_of c)) (rw_flux r) =
    Ok (to_table (names_of c) (rw_flux r)).
  Proof using. unfold diagnose, labels_for. cbn [st_nsp st_nr]. now rewrite !Nat.eqb_refl. Qed.

  Definition not_chem (o : gop) : Prop := match o with GChem _ => False | _ => True end.

  Lemma fold_no_chem post : (forall bo : option nat * gop, In bo post -> not_chem (snd bo)) -> forall c0,
    fold_left (fun c bo => match snd bo with GChem o => fst (step E c o) | _ => c end) post c0 = c0.
  Proof using.
    induction post as [|[b o] post IH]; intros H c0; [reflexivity|]. cbn [fold_left snd].
    pose proof (H (b, o) (or_introl eq_refl)) as X. destruct o; try contradiction; apply IH; intros; apply H; now right.
  Qed.
End G.

(** ** Convergence *)
Open Scope Q_scope.

Lemma last_time_snoc pre a : last_time (pre ++ [a]) = Ok (time a).
Proof. unfold last_time. now rewrite rev_unit. Qed.

Lemma flag_spec eps x y : 0 <= eps ->
  let b := fleb (fabs (fmul (fdivq (Fin (x - y)) (x + y)) (Fin 2))) (Fin eps) in
  (x + y == 0 -> b = false) /\
  (~ x + y == 0 -> (b = true <-> Qabs (x - y) <= eps * Qabs ((x + y) / 2))).
Proof.
  intros EP b. unfold b, fdivq, fleb. split.
  - intros Z. rewrite (proj2 (Qeq_bool_iff _ _) Z). destruct (Qeq_bool (x - y) 0); [reflexivity|]. now destruct (Qltb 0 (x - y)).
  - intros N. destruct (Qeq_bool (x + y) 0) eqn:Q; [apply Qeq_bool_iff in Q; contradiction|].
    cbn [fmul fabs fltb feqb].
    assert (S : negb (Qle_bool eps (Qabs ((x - y) / (x + y) * 2))) || Qeq_bool (Qabs ((x - y) / (x + y) * 2)) eps = true <->
                Qabs ((x - y) / (x + y) * 2) <= eps).
    { rewrite orb_true_iff, negb_true_iff, Qeq_bool_iff. split.
      - intros [H|H]; [|rewrite H; apply Qle_refl]. apply Qlt_le_weak, Qnot_le_lt. intros X. apply Qle_bool_iff in X. congruence.
      - intros H. apply Qle_lteq in H. destruct H as [H|H]; [left|now right]. destruct (Qle_bool eps _) eqn:X; [|reflexivity].
        apply Qle_bool_iff in X. exfalso. now apply (Qlt_not_le _ _ H). }
    rewrite S.
    assert (P : 0 < Qabs (x + y)).
    { apply Qnot_le_lt. intros X. apply N. apply Qabs_Qle_condition in X. destruct X as [X1 X2]. change (- 0) with 0 in X1. apply Qle_antisym; assumption. }
    assert (A1 : Qabs ((x - y) / (x + y) * 2) == Qabs (x - y) / Qabs (x + y) * 2).
    { rewrite Qabs_Qmult. unfold Qdiv. rewrite Qabs_Qmult, Qabs_Qinv. reflexivity. }
    assert (A2 : Qabs ((x + y) / 2) == Qabs (x + y) / 2).
    { unfold Qdiv. rewrite Qabs_Qmult. reflexivity. }
    rewrite A1, A2. set (d := Qabs (x - y)) in *. set (m := Qabs (x + y)) in *.
    assert (MZ : ~ m == 0) by lra.
    assert (MP : 0 < m / 2) by (apply Qlt_shift_div_l; lra).
    split; intros H.
    + apply (Qmult_le_compat_r _ _ (m / 2)) in H; [|lra].
      setoid_replace (d / m * 2 * (m / 2)) with d in H by (field; exact MZ). exact H.
    + setoid_replace (d / m * 2) with (d / (m / 2)) by (field; lra). apply Qle_shift_div_r; [exact MP|exact H].
Qed.

Theorem convergency_spec tb eps tw pre a : ascending tb -> In "t"%string (tb_cols tb) -> tb_rows tb = pre ++ [a] ->
  covered tb (time a - time a * tw) -> 0 <= eps ->
  exists flags, check_convergency tb eps tw = Ok flags /\
    map fst flags = filter (fun c => negb (String.eqb c "t")) (tb_cols tb) /\
    forall c b, In (c, b) flags -> exists v, sampled tb c (time a - time a * tw) v /\
      (at_col a c + v == 0 -> b = false) /\
      (~ at_col a c + v == 0 -> (b = true <-> Qabs (at_col a c - v) <= eps * Qabs ((at_col a c + v) / 2))).
Proof.
  intros A T R C EP. unfold check_convergency. rewrite (proj2 (memS_In _ _) T). cbn [negb raise_if bind].
  assert (LT : last_time (tb_rows tb) = Ok (time a)) by (rewrite R; apply last_time_snoc). rewrite LT. cbn [bind].
  assert (RV : rev (tb_rows tb) = a :: rev pre) by (rewrite R; apply rev_unit).
  assert (G : forall cols, exists flags,
    mapM (fun col => let* v_end := match rev (tb_rows tb) with [] => Err EIndex | r :: _ => Ok (snd r col) end in
                     let* v_start := interp (time a - time a * tw) (points_of (tb_rows tb) col) in
                     Ok (col, fleb (fabs (fmul (fdivq (Fin (v_end - v_start)) (v_end + v_start)) (Fin 2))) (Fin eps))) cols = Ok flags /\
    map fst flags = cols /\
    forall c b, In (c, b) flags -> exists v, sampled tb c (time a - time a * tw) v /\
      (at_col a c + v == 0 -> b = false) /\
      (~ at_col a c + v == 0 -> (b = true <-> Qabs (at_col a c - v) <= eps * Qabs ((at_col a c + v) / 2)))).
  { induction cols as [|c cols (fl & F1 & F2 & F3)]; [exists []; repeat split; easy|].
    destruct (covered_sampled tb c _ A C) as (v & I & S).
    exists ((c, fleb (fabs (fmul (fdivq (Fin (at_col a c - v)) (at_col a c + v)) (Fin 2))) (Fin eps)) :: fl).
    cbn [mapM]. rewrite F1, I, RV. cbn [bind]. split; [reflexivity|]. split; [cbn; now rewrite F2|].
    intros c' b [X|X]; [|now apply F3]. injection X as <- <-. exists v. split; [exact S|]. now apply flag_spec. }
  apply G.
Qed.

(** ** Statements over histories *)
Section S.
  Variables (E : env) (fhash : string -> option string) (default_dir : string -> res path) (scan : list path -> list path).
  Notation gstep := (gstep E fhash default_dir scan).
  Notation ghistory := (ghistory E fhash default_dir scan).

  Theorem served_solution w l t : w_obj w = None -> served get_solution (ghistory w l) = Ok t ->
    exists pre b a r post, l = (pre ++ (b, GRun a (SDone true r)) :: post)%list /\ (forall bo, In bo post -> harmless (snd bo)) /\ t = rw_sol r.
  Proof using.
    intros W. unfold served. destruct (w_obj (ghistory w l)) as [g|] eqn:G; [|discriminate].
    unfold get_solution. destruct (get_stored g) as [[c d]|] eqn:S; [|discriminate]. cbn [bind snd]. intros H. injection H as <-.
    destruct (served_stored E fhash default_dir scan l w g c d W G S) as (pre & b & a & r & post & c0 & H & Hp & _ & -> & _).
    exists pre, b, a, r, post. auto.
  Qed.

  (** [c0]: the chemistry the run was made with. *)
  Theorem served_rates w l : w_obj w = None -> forall tb,
    served (get_rates E) (ghistory w l) = Ok tb ->
    exists pre b a r post c0, l = (pre ++ (b, GRun a (SDone true r)) :: post)%list /\ (forall bo, In bo post -> harmless (snd bo)) /\
      (exists g0 m0, w_obj (ghistory w pre) = Some g0 /\ gm_model g0 = Some m0 /\ bm_chem m0 = c0) /\
      ((forall bo, In bo post -> not_chem (snd bo)) -> List.length (names_of c0) <> List.length (get_reactions c0 false) ->
       tb = to_table (map (fun x => ishow E (rx_id x)) (get_reactions c0 false)) (rw_rates r)).
  Proof using.
    intros W tb. unfold served. destruct (w_obj (ghistory w l)) as [g|] eqn:G; [|discriminate].
    unfold get_rates. destruct (get_stored g) as [[c d]|] eqn:S; [|discriminate]. cbn [bind fst snd]. intros H.
    destruct (served_stored E fhash default_dir scan l w g c d W G S) as (pre & b & a & r & post & c0 & L & Hp & G0 & -> & C).
    exists pre, b, a, r, post, c0. split; [exact L|]. split; [exact Hp|]. split; [exact G0|]. intros NC NE.
    rewrite (fold_no_chem E post NC) in C. subst c. cbn [st_nr st_raw] in H. rewrite (rates_labelled E c0 r NE) in H. congruence.
  Qed.
  Theorem served_fluxes w l : w_obj w = None -> forall tb,
    served (get_wall_fluxes E) (ghistory w l) = Ok tb ->
    exists pre b a r post c0, l = (pre ++ (b, GRun a (SDone true r)) :: post)%list /\ (forall bo, In bo post -> harmless (snd bo)) /\
      (exists g0 m0, w_obj (ghistory w pre) = Some g0 /\ gm_model g0 = Some m0 /\ bm_chem m0 = c0) /\
      ((forall bo, In bo post -> not_chem (snd bo)) -> tb = to_table (names_of c0) (rw_flux r)).
  Proof using.
    intros W tb. unfold served. destruct (w_obj (ghistory w l)) as [g|] eqn:G; [|discriminate].
    unfold get_wall_fluxes. destruct (get_stored g) as [[c d]|] eqn:S; [|discriminate]. cbn [bind fst snd]. intros H.
    destruct (served_stored E fhash default_dir scan l w g c d W G S) as (pre & b & a & r & post & c0 & L & Hp & G0 & -> & C).
    exists pre, b, a, r, post, c0. split; [exact L|]. split; [exact Hp|]. split; [exact G0|]. intros NC.
    rewrite (fold_no_chem E post NC) in C. subst c. cbn [st_nsp st_raw] in H. rewrite (fluxes_labelled E c0 r) in H. congruence.
  Qed.

  (** The files of every history without [overwrite]. *)
  Theorem files_kept l w : (forall bo, In bo l -> no_overwrite (snd bo)) -> fs_ok (w_fs w) ->
    kept (w_fs w) (w_fs (ghistory w l)).
  Proof using. intros N O. now apply (history_fs E fhash default_dir scan l w N O). Qed.
  Theorem logs_marked l w : (forall bo, In bo l -> no_overwrite (snd bo)) -> fs_ok (w_fs w) -> marked (w_fs w) ->
    marked (w_fs (ghistory w l)).
  Proof using. intros N O. now apply (history_fs E fhash default_dir scan l w N O). Qed.

  (** A logging run that returns normally has written its own data. *)
  Theorem run_logged w b a o w' : (forall l, Permutation (scan l) l) -> fs_ok (w_fs w) -> ra_log a = true ->
    gstep w (b, GRun a o) = (w', Finished) ->
    exists g m r id dir init_n t attrs rates fluxes, w_obj w = Some g /\ gm_model g = Some m /\
      o = SDone true r /\ ra_id a = Some id /\ (ra_to a = Some dir \/ ra_to a = None /\ default_dir (gm_backend g) = Ok dir) /\
      match ra_init a with Some i => init_n = i | None => generate_initial_n (bm_chem m) (bm_par m) default_fractions = Ok init_n end /\
      (isdir (w_fs w) (run_path dir id) = true -> ra_over a = true) /\
      chemistry_attributes E fhash (bm_chem m) = Ok attrs /\
      served (get_rates E) w' = Ok rates /\ served (get_wall_fluxes E) w' = Ok fluxes /\
      logged (ra_compress a) (rw_sol r) (tb_sol t) /\ logged (ra_compress a) rates (tb_rates t) /\
      logged (ra_compress a) fluxes (tb_flux t) /\ tb_log t = rw_log r /\
      same_outside (run_path dir id) (w_fs w) (w_fs w') /\
      forall q x, under (run_path dir id) q = true ->
        (fget q (fs_files (w_fs w')) = Some x <->
         exists n, q = (run_path dir id ++ [n])%list /\ In (n, x) (log_files_of t attrs (bm_par m) (ra_temp a) init_n)).
  Proof using.
    intros SP O LG. unfold GlobalModel.gstep. cbn [fst snd]. destruct (w_obj w) as [g|] eqn:W; [|discriminate].
    destruct (gm_run E fhash default_dir scan b g a o (w_fs w)) as [[g' s'] r] eqn:R. intros H. injection H as <- ->. cbn [w_fs].
    apply run_cases in R. destruct R as [(_ & _ & _ & e & X)|(m & d & i & M & -> & G & _ & [(X & _)|(_ & id & dir & ID & TO & L & IN)])]; [discriminate|congruence|].
    pose proof (log_outside E fhash scan SP b g' id dir (ra_temp a) i (ra_over a) (ra_compress a) (w_fs w) O) as OUT.
    rewrite L in OUT. cbn [fst] in OUT.
    destruct (log_done E fhash scan SP b g' id dir (ra_temp a) i (ra_over a) (ra_compress a) (w_fs w) s' O L)
      as (m' & t & at' & M' & LS & T & CA & OV & _ & F).
    assert (C : exists rates fluxes, get_rates E g' = Ok rates /\ get_wall_fluxes E g' = Ok fluxes /\
      logged (ra_compress a) (rw_sol d) (tb_sol t) /\ logged (ra_compress a) rates (tb_rates t) /\ logged (ra_compress a) fluxes (tb_flux t) /\ tb_log t = rw_log d).
    { unfold log_tables in T. destruct (get_rates E g') as [t1|]; [|exfalso].
      2:{ subst g'. discriminate T. }
      destruct (get_wall_fluxes E g') as [t2|]; [|exfalso].
      2:{ subst g'. discriminate T. }
      subst g'. cbn [bind get_stored get_solution assert_success success gm_last gm_model raise_if negb bm_data snd st_raw] in T.
      assert (CP : forall x y, compressed (ra_compress a) x = Ok y -> logged (ra_compress a) x y).
      { intros x y. unfold compressed, logged. destruct (ra_compress a); [auto|congruence]. }
      destruct (compressed (ra_compress a) (rw_sol d)) as [t3|] eqn:C3; [|discriminate]. cbn [bind] in T.
      destruct (compressed (ra_compress a) t1) as [t4|] eqn:C4; [|discriminate]. cbn [bind] in T.
      destruct (compressed (ra_compress a) t2) as [t5|] eqn:C5; [|discriminate]. cbn [bind] in T.
      injection T as <-. exists t1, t2. auto 10. }
    destruct C as (rates & fluxes & GR & GF & C1 & C2 & C3 & C4).
    exists g, m, d, id, dir, i, t, at', rates, fluxes. unfold served. cbn [w_obj alive].
    subst g'. cbn [gm_model] in M'. injection M' as <-. cbn [bm_chem bm_par] in *.
    split; [reflexivity|]. split; [exact M|]. split; [reflexivity|]. split; [exact ID|]. split; [exact TO|]. split; [exact IN|]. split; [exact OV|].
    split; [exact CA|]. split; [exact GR|]. split; [exact GF|]. split; [exact C1|]. split; [exact C2|]. split; [exact C3|]. split; [exact C4|].
    split; [exact (proj2 OUT)|exact F].
  Qed.
End S.

Lemma stopped_spec tb t0 pre a : tb_rows tb = (pre ++ [a])%list -> 0 < t0 ->
  exists b, stopped_early tb t0 = Ok b /\ (b = true <-> time a < t0 * (19 # 20) - (1 # 100000000)).
Proof.
  intros R P. unfold stopped_early. rewrite R, last_time_snoc. cbn [bind]. eexists. split; [reflexivity|].
  unfold isclose. rewrite andb_true_iff, negb_true_iff, Qltb_iff.
  assert (A : Qabs t0 == t0) by (apply Qabs_pos; lra).
  split.
  - intros [L N]. assert (X : ~ Qabs (time a - t0) <= (1 # 100000000) + (1 # 20) * Qabs t0).
    { intros X. apply Qle_bool_iff in X. congruence. }
    rewrite A in X. rewrite Qabs_neg in X by lra. lra.
  - intros L. assert (LT : time a < t0) by lra. split; [exact LT|]. destruct (Qle_bool _ _) eqn:X; [|reflexivity].
    apply Qle_bool_iff in X. rewrite A in X. rewrite Qabs_neg in X by lra. lra.
Qed.
