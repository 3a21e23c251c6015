(** One run of the model within a reduction. *)
From Coq Require Import Permutation.
From Verif Require Import Base BaseLemmas Species Reactions Chemistry ChemSpec MorrisStats Tables InitialGuess
  GlobalModel GlobalSpec GlobalFiles GlobalLog GlobalProofs GlobalMore Reduction ReductionSpec.
Open Scope list_scope.

Lemma fget_filter (p q : path) (l : list (path * content)) : p <> q ->
  fget q (filter (fun x => negb (path_eqb p (fst x))) l) = fget q l.
Proof.
  intros N. induction l as [|[x c] l IH]; [reflexivity|]. cbn [filter fst].
  destruct (path_eqb p x) eqn:P; cbn [negb].
  - apply path_eqb_spec in P. subst x. rewrite IH. cbn [aget]. destruct (path_eqb q p) eqn:Q; [|reflexivity].
    apply path_eqb_spec in Q. congruence.
  - cbn [aget]. destruct (path_eqb q x); [reflexivity|exact IH].
Qed.
Lemma fget_filter_In (p q : path) (l : list (path * content)) c :
  fget q (filter (fun x => negb (path_eqb p (fst x))) l) = Some c -> fget q l = Some c.
Proof.
  destruct (path_dec p q) as [->|N]; [|now rewrite fget_filter].
  intros H. exfalso. induction l as [|[x y] l IH]; [discriminate|]. cbn [filter fst] in H.
  destruct (path_eqb q x) eqn:P; cbn [negb] in H; [now apply IH|]. cbn [aget] in H. rewrite P in H. now apply IH.
Qed.

Lemma remove_file_ok p s : fs_ok s -> fs_ok (fst (remove_file p s)).
Proof.
  intros [O1 O2]. unfold remove_file. destruct (isfile s p); [|now split]. cbn [fst rm_file]. split; cbn [fs_files].
  - intros q c H. apply fget_filter_In in H. destruct (O1 q c H) as [A B]. now rewrite !isdir_files.
  - intros q. rewrite !isdir_files. apply O2.
Qed.
Lemma remove_file_other p q s : p <> q -> fget q (fs_files (fst (remove_file p s))) = fget q (fs_files s).
Proof. intros N. unfold remove_file. destruct (isfile s p); [|reflexivity]. now apply fget_filter. Qed.
Lemma remove_file_dirs p q s : isdir (fst (remove_file p s)) q = isdir s q.
Proof. unfold remove_file. destruct (isfile s p); reflexivity. Qed.
Lemma put_other p q c s : p <> q -> fget q (fs_files (fst (put p c s))) = fget q (fs_files s).
Proof. intros N. destruct (put_inv p c s) as [->|(-> & _)]; [reflexivity|]. cbn [fst fs_files]. now rewrite fget_other by congruence. Qed.
Lemma put_dirs p q c s : isdir (fst (put p c s)) q = isdir s q.
Proof. destruct (put_inv p c s) as [->|(-> & _)]; [reflexivity|]. cbn [fst]. apply isdir_files. Qed.

(** The files that are there stay as they are. *)
Definition untouched (s s' : gfs) : Prop := fs_ok s' /\ kept s s'.
Lemma untouched_refl s : fs_ok s -> untouched s s.
Proof. intros O. split; [exact O|apply kept_refl]. Qed.
Lemma untouched_trans a b c : untouched a b -> untouched b c -> untouched a c.
Proof. intros [_ K] [O K']. split; [exact O|eapply kept_trans; eauto]. Qed.

Section R.
  Variables (E : env) (fhash : string -> option string) (default_dir : string -> res path) (scan : list path -> list path).
  Variable backend : nat -> solving.
  Variable k : rconf.
  Hypothesis scan_perm : forall l, Permutation (scan l) l.
  Notation run_model := (run_model E fhash default_dir scan backend k).

  Lemma exec_none l s : exists s' o, exec None l s = (s', o) /\ o <> Crashed.
  Proof using.
    revert s. induction l as [|a l IH]; intros s; cbn [exec]; [now exists s, Finished|].
    destruct (a s) as [s' [[]|e]]; [apply IH|now exists s', (Failed e)].
  Qed.

  Lemma same_rest st g s : let st' := with_run st g s in r_gm st' = g /\ r_fs st' = s /\ r_all st' = r_all st /\ r_tried st' = r_tried st /\
    r_eligible st' = r_eligible st /\ r_hist st' = r_hist st /\ r_base st' = r_base st /\ r_last st' = r_last st.
  Proof using. repeat split. Qed.

  (** The steps after logging touch the files of this run only. *)
  Lemma after_run p t s : forall s0, fs_ok s -> kept s0 s -> isdir s0 p = false -> fs_ok s0 ->
    let s' := fst (exec None [put (p ++ ["solution.csv"%string]) (CTable t); remove_file (p ++ ["rates.csv"%string]);
                              remove_file (p ++ ["wall_fluxes.csv"%string])] s) in
    fs_ok s' /\ kept s0 s' /\
    fget (p ++ ["chemistry_attributes.yaml"%string]) (fs_files s') = fget (p ++ ["chemistry_attributes.yaml"%string]) (fs_files s) /\
    (snd (exec None [put (p ++ ["solution.csv"%string]) (CTable t); remove_file (p ++ ["rates.csv"%string]);
                              remove_file (p ++ ["wall_fluxes.csv"%string])] s) = Finished ->
     fget (p ++ ["solution.csv"%string]) (fs_files s') = Some (CTable t)).
  Proof using.
    intros s0 O K D O0. cbv zeta.
    assert (NE : forall a b, a <> b -> p ++ [a] <> p ++ [b]).
    { intros a b N X. apply app_inv_head in X. congruence. }
    set (I := fun x : gfs => fs_ok x /\ kept s0 x /\
       fget (p ++ ["chemistry_attributes.yaml"%string]) (fs_files x) = fget (p ++ ["chemistry_attributes.yaml"%string]) (fs_files s)).
    assert (S0 : forall n q c, fget q (fs_files s0) = Some c -> p ++ [n] <> q).
    { intros n q c F <-. destruct (nothing_below s0 p (p ++ [n]) O0 D (under_app p [n])) as [_ X].
      rewrite X in F; [discriminate|]. intros Y. apply (f_equal (@List.length string)) in Y. rewrite app_length in Y. cbn in Y. lia. }
    assert (ST : forall a x, In a [put (p ++ ["solution.csv"%string]) (CTable t); remove_file (p ++ ["rates.csv"%string]);
                              remove_file (p ++ ["wall_fluxes.csv"%string])] -> I x -> I (fst (a x))).
    { intros a x [<-|[<-|[<-|[]]]] (I1 & (I2 & I3) & I4).
      - split; [now apply put_ok|]. split; [split|].
        + intros q Q. rewrite put_dirs. auto.
        + intros q c Q. rewrite put_other by (eapply S0; exact Q). auto.
        + rewrite put_other by (apply NE; discriminate). exact I4.
      - split; [now apply remove_file_ok|]. split; [split|].
        + intros q Q. rewrite remove_file_dirs. auto.
        + intros q c Q. rewrite remove_file_other by (eapply S0; exact Q). auto.
        + rewrite remove_file_other by (apply NE; discriminate). exact I4.
      - split; [now apply remove_file_ok|]. split; [split|].
        + intros q Q. rewrite remove_file_dirs. auto.
        + intros q c Q. rewrite remove_file_other by (eapply S0; exact Q). auto.
        + rewrite remove_file_other by (apply NE; discriminate). exact I4. }
    assert (FI : I s) by (split; [exact O|split; [exact K|reflexivity]]).
    destruct (exec_inv I _ ST None s FI) as (A & B & C).
    split; [exact A|]. split; [exact B|]. split; [exact C|]. intros F. cbn [exec option_map] in F |- *.
    destruct (put_inv (p ++ ["solution.csv"%string]) (CTable t) s) as [X|(X & _)]; rewrite X in F |- *; [discriminate F|].
    set (s1 := MkGfs _ _) in *.
    assert (N1 : p ++ ["rates.csv"%string] <> p ++ ["solution.csv"%string]) by (apply NE; discriminate).
    assert (N2 : p ++ ["wall_fluxes.csv"%string] <> p ++ ["solution.csv"%string]) by (apply NE; discriminate).
    pose proof (remove_file_other (p ++ ["rates.csv"%string]) (p ++ ["solution.csv"%string]) s1 N1) as R1.
    destruct (remove_file (p ++ ["rates.csv"%string]) s1) as [s2 [[]|e]]; [|discriminate F]. cbn [fst] in R1.
    pose proof (remove_file_other (p ++ ["wall_fluxes.csv"%string]) (p ++ ["solution.csv"%string]) s2 N2) as R2.
    destruct (remove_file (p ++ ["wall_fluxes.csv"%string]) s2) as [s3 [[]|e]]; [|discriminate F]. cbn [fst] in R2 |- *.
    rewrite R2, R1. unfold s1. cbn [fs_files]. apply fget_same.
  Qed.

  Lemma gm_run_chem b g a o s g' s' r : gm_run E fhash default_dir scan b g a o s = (g', s', r) -> gm_chem g' = gm_chem g.
  Proof using.
    unfold gm_run, gm_chem. destruct (run_checks default_dir g a s) as [[target i]|e]; [|intros H; now injection H as <- <- <-].
    destruct (gm_model g) as [m|] eqn:M; [|intros H; now injection H as <- <- <-].
    unfold pygmol_run. match goal with |- context [match ?x with Ok _ => match o with _ => _ end | Err _ => _ end] => destruct x as [u|e] end;
      [|intros H; now injection H as <- <- <-].
    destruct o as [e rest|bb d]; [intros H; now injection H as <- <- <-|]. cbv zeta.
    destruct (negb _); [intros H; now injection H as <- <- <-|]. destruct bb; [|intros H; now injection H as <- <- <-].
    destruct target as [[id d0]|]; [|intros H; now injection H as <- <- <-].
    destruct (log_results _ _ _ _ _ _ _ _ _ _ _ _) as [s1 r1]. intros H. now injection H as <- <- <-.
  Qed.

  Theorem run_model_spec st rid st' o : fs_ok (r_fs st) -> rid <> ""%string -> run_model st rid = (st', o) ->
    untouched (r_fs st) (r_fs st') /\ gm_chem (r_gm st') = gm_chem (r_gm st) /\
    r_all st' = r_all st /\ r_tried st' = r_tried st /\ r_eligible st' = r_eligible st /\ r_hist st' = r_hist st /\
    r_base st' = r_base st /\ r_last st' = r_last st /\
    (o = Ok tt -> exists c r a t, gm_chem (r_gm st) = Some c /\ chemistry_attributes E fhash c = Ok a /\
       backend (r_runs st) = SDone true r /\ get_solution (r_gm st') = Ok (rw_sol r) /\
       fget (attrs_path k rid) (fs_files (r_fs st')) = Some (CAttrs a) /\
       compress_solution (rw_sol r) (1 # 20) (1 # 1000) = Ok t /\
       fget (run_path (rc_dir k) rid ++ ["solution.csv"%string]) (fs_files (r_fs st')) = Some (CTable t)).
  Proof using scan_perm.
    intros O NE. unfold Reduction.run_model.
    destruct (gm_run E fhash default_dir scan None (r_gm st) (MkRun (Some rid) 1 None true (Some (rc_dir k)) false false) (backend (r_runs st)) (r_fs st))
      as [[g s] oc] eqn:G.
    pose proof (gm_run_chem _ _ _ _ _ _ _ _ G) as GC.
    assert (UN : untouched (r_fs st) s).
    { apply run_cases in G. destruct G as [(-> & _)|(m & d & i & _ & _ & _ & _ & [(X & _)|(_ & id & dir & ID & TO & L & _)])].
      - now apply untouched_refl.
      - discriminate X.
      - cbn in L. pose proof (log_kept E fhash scan None g id dir 1 i false (r_fs st) O) as K. rewrite L in K. exact K. }
    set (w := MkWorld (Some (r_gm st)) (r_fs st)).
    destruct oc as [|e|].
    2: { intros H. injection H as <- <-. repeat (split; [first [exact UN|exact GC|reflexivity]|]). discriminate. }
    2: { intros H. injection H as <- <-. repeat (split; [first [exact UN|exact GC|reflexivity]|]). discriminate. }
    assert (GS : gstep E fhash default_dir scan w (None, GRun (MkRun (Some rid) 1 None true (Some (rc_dir k)) false false) (backend (r_runs st))) =
                 (MkWorld (Some g) s, Finished)).
    { unfold gstep. cbn [fst snd w_obj w w_fs]. now rewrite G. }
    destruct (run_finished E fhash default_dir scan _ _ _ _ _ GS) as (r0 & B0 & S0 & _).
    destruct (run_logged E fhash default_dir scan w None (MkRun (Some rid) 1 None true (Some (rc_dir k)) false false) _ _ scan_perm O eq_refl GS)
      as (g0 & m & r & id & dir & i & t & a & rates & fluxes & W0 & M & B & ID & TO & _ & OV & CA & _ & _ & LS & _ & _ & _ & _ & FILES).
    cbn [w_obj w w_fs ra_id ra_to ra_over ra_compress ra_temp] in *. injection ID as <-. destruct TO as [TO|[TO _]]; [|discriminate]. injection TO as <-.
    injection W0 as <-. rewrite B in B0. injection B0 as <-.
    assert (D : isdir (r_fs st) (run_path (rc_dir k) rid) = false).
    { destruct (isdir (r_fs st) (run_path (rc_dir k) rid)); [|reflexivity]. now specialize (OV eq_refl). }
    set (p := run_path (rc_dir k) rid) in *.
    assert (SOL : fget (p ++ ["solution.csv"%string]) (fs_files s) = Some (CTable (rw_sol r))).
    { apply FILES; [apply under_app|]. exists "solution.csv"%string. split; [reflexivity|]. cbn in LS. rewrite <- LS. now left. }
    assert (ATT : fget (p ++ ["chemistry_attributes.yaml"%string]) (fs_files s) = Some (CAttrs a)).
    { apply FILES; [apply under_app|]. exists "chemistry_attributes.yaml"%string. split; [reflexivity|]. cbn. auto 6. }
    rewrite SOL.
    destruct (compress_solution (rw_sol r) (1 # 20) (1 # 1000)) as [t'|e] eqn:CS.
    2: { intros H. injection H as <- <-. repeat (split; [first [exact UN|exact GC|reflexivity]|]). discriminate. }
    destruct (after_run p t' s (r_fs st) (proj1 UN) (proj2 UN) D O) as (A1 & A2 & A3 & A4).
    match goal with |- context [exec None ?l s] => destruct (exec None l s) as [s2 oc] end. cbn [fst snd] in A1, A2, A3, A4.
    assert (UN2 : untouched (r_fs st) s2) by (split; [exact A1|exact A2]).
    destruct oc as [|e|].
    2: { intros H. injection H as <- <-. repeat (split; [first [exact UN2|exact GC|reflexivity]|]). discriminate. }
    2: { intros H. injection H as <- <-. repeat (split; [first [exact UN2|exact GC|reflexivity]|]). discriminate. }
    intros H. injection H as <- <-. repeat (split; [first [exact UN2|exact GC|reflexivity]|]). intros _.
    exists (bm_chem m), r, a, t'. unfold gm_chem. rewrite M. split; [reflexivity|]. split; [exact CA|]. split; [exact B|].
    split; [exact S0|]. split; [unfold attrs_path; fold p; rewrite <- ATT; exact A3|]. split; [exact CS|]. now apply A4.
  Qed.
End R.
