(** Histories of a workspace: logs stay readable, and what is read of a run
    belongs together. *)
From Coq Require Import Permutation.
From Verif Require Import Base BaseLemmas Species Reactions Chemistry Morris MorrisStats MorrisRun Tables TablesSpec TablesProofs InitialGuess GlobalModel GlobalSpec
  GlobalFiles GlobalLog GlobalProofs GlobalMore Workspace WorkspaceSpec WorkspaceProofs.
Open Scope list_scope.

Section H.
  Variables (E : env) (cfg : cfg_file) (to_path : string -> path) (fhash : string -> option string) (scan : list path -> list path).
  Notation wstep := (wstep E cfg to_path fhash scan).
  Notation whistory := (whistory E cfg to_path fhash scan).

  (** ** Queries within a step *)
  Lemma parser_query b d s : snd (parser_new cfg to_path b d s) = snd (parser_new cfg to_path b d s) /\
    (fst (parser_new cfg to_path b d s) = s \/ exists q, fst (parser_new cfg to_path b d s) = fst (ask cfg to_path q s)).
  Proof.
    split; [reflexivity|]. destruct b as [b|], d as [d|]; cbn [parser_new parser_dir fst]; auto.
    - right. now exists (QBackend b).
    - right. now exists (QBackend "pygmol"%string).
  Qed.

  Lemma query_fs q s : fs_ok s ->
    fs_ok (fst (ask cfg to_path q s)) /\ kept s (fst (ask cfg to_path q s)) /\ fs_files (fst (ask cfg to_path q s)) = fs_files s.
  Proof.
    intros O. destruct (ask cfg to_path q s) as [s' [p|e]] eqn:Q; cbn [fst].
    - destruct (query_made cfg to_path q s s' p O Q) as (_ & A & B & C & _). auto.
    - apply (query_failed cfg to_path q s s' e O) in Q. subst s'. split; [exact O|]. split; [apply kept_refl|reflexivity].
  Qed.

  (** A step is a query, or a step of the model after a query. *)
  Lemma step_cases w bo : fs_ok (w_fs w) ->
    ((forall o, snd bo <> WModel o) /\
     exists s', fst (wstep w bo) = MkWorld (w_obj w) s' /\ fs_ok s' /\ kept (w_fs w) s' /\ fs_files s' = fs_files (w_fs w)) \/
    (exists o s' dd, snd bo = WModel o /\ wstep w bo = gstep E fhash dd scan (MkWorld (w_obj w) s') (fst bo, o) /\
       fs_ok s' /\ kept (w_fs w) s' /\ fs_files s' = fs_files (w_fs w) /\
       (match asks w o with Some b => results_dir cfg to_path b (w_fs w) = (s', dd b) | None => s' = w_fs w end)).
  Proof.
    intros O. destruct bo as [b o]. unfold Workspace.wstep. cbn [fst snd].
    assert (Q : forall q, exists s', fst (in_fs w (ask cfg to_path q (w_fs w))) = MkWorld (w_obj w) s' /\ fs_ok s' /\ kept (w_fs w) s' /\ fs_files s' = fs_files (w_fs w)).
    { intros q. exists (fst (ask cfg to_path q (w_fs w))). split; [reflexivity|]. now apply query_fs. }
    destruct o as [o|bk| | | |bk d].
    2: { left. split; [discriminate|]. exact (Q (QBackend bk)). }
    2: { left. split; [discriminate|]. exact (Q QStage). }
    2: { left. split; [discriminate|]. exact (Q QMorris). }
    2: { left. split; [discriminate|]. exact (Q QReduction). }
    2: { left. split; [discriminate|]. unfold in_fs. cbn [fst]. destruct (parser_query bk d (w_fs w)) as (_ & [->|(q & ->)]); [|exact (Q q)].
         exists (w_fs w). split; [reflexivity|]. split; [exact O|]. split; [apply kept_refl|reflexivity]. }
    right. unfold model_step. destruct (asks w o) as [bk|] eqn:A.
    - pose proof (query_fs (QBackend bk) (w_fs w) O) as X. cbn [ask] in X.
      destruct (results_dir cfg to_path bk (w_fs w)) as [s' r] eqn:R. cbn [fst] in X. destruct X as (X1 & X2 & X3).
      exists o, s', (fun _ => r). rewrite A. auto 8.
    - exists o, (w_fs w), (fun _ => Err EConfig). rewrite A. destruct w as [ob fs]. cbn [w_obj w_fs] in *.
      split; [reflexivity|]. split; [reflexivity|]. split; [exact O|]. split; [apply kept_refl|]. auto.
  Qed.

  Lemma wstep_kept w bo : keeps (snd bo) -> fs_ok (w_fs w) ->
    fs_ok (w_fs (fst (wstep w bo))) /\ kept (w_fs w) (w_fs (fst (wstep w bo))).
  Proof.
    intros N O. destruct (step_cases w bo O) as [(_ & s' & -> & A & B & _)|(o & s' & dd & S & -> & A & B & _)]; [auto|].
    rewrite S in N. cbn [keeps] in N.
    destruct (step_fs E fhash dd scan (MkWorld (w_obj w) s') (fst bo, o) N A) as (X & Y & _).
    split; [exact X|]. eapply kept_trans; [exact B|exact Y].
  Qed.
  Lemma whistory_kept l : forall w, (forall bo, In bo l -> keeps (snd bo)) -> fs_ok (w_fs w) ->
    fs_ok (w_fs (whistory w l)) /\ kept (w_fs w) (w_fs (whistory w l)).
  Proof.
    induction l as [|bo l IH]; intros w N O; [split; [exact O|apply kept_refl]|].
    change (whistory w (bo :: l)) with (whistory (fst (wstep w bo)) l).
    destruct (wstep_kept w bo (N bo (or_introl eq_refl)) O) as (A & B).
    destruct (IH (fst (wstep w bo)) (fun bo' I => N bo' (or_intror I)) A) as (A' & B').
    split; [exact A'|eapply kept_trans; eauto].
  Qed.

  (** Whatever a step does, the files stay in order. *)
  Lemma wstep_ok w bo : (forall l, Permutation (scan l) l) -> fs_ok (w_fs w) -> fs_ok (w_fs (fst (wstep w bo))).
  Proof.
    intros SP O. destruct (step_cases w bo O) as [(_ & s' & -> & A & _)|(o & s' & dd & S & -> & A & _)]; [exact A|].
    destruct bo as [b o']. cbn [fst snd] in *. clear S. unfold GlobalModel.gstep. cbn [fst snd w_obj w_fs].
    destruct o as [backend c par|par|a o|id d te i ow co|o].
    - destruct (gm_init backend c par None) as [g [x|e]]; exact A.
    - destruct (w_obj w) as [g|]; [|exact A]. destruct (reload g par) as [g' [x|e]]; exact A.
    - destruct (w_obj w) as [g|]; [|exact A]. destruct (gm_run E fhash dd scan b g a o s') as [[g' s2] r] eqn:R. cbn [fst w_fs].
      apply run_cases in R. destruct R as [(-> & _)|(m & d & i & _ & _ & _ & _ & [(_ & -> & _)|(_ & id & dir & _ & _ & L & _)])]; [exact A|exact A|].
      pose proof (log_outside E fhash scan SP b g' id dir (ra_temp a) i (ra_over a) (ra_compress a) s' A) as X. rewrite L in X. apply X.
    - destruct (w_obj w) as [g|]; [|exact A].
      pose proof (log_outside E fhash scan SP b g id d te i ow co s' A) as X.
      destruct (log_results E fhash scan b g id d te i ow co s') as [s2 r]. cbn [fst w_fs] in *. apply X.
    - destruct (w_obj w) as [g|]; [|exact A]. destruct (gm_model g); exact A.
  Qed.
  Lemma whistory_ok l : (forall l, Permutation (scan l) l) -> forall w, fs_ok (w_fs w) -> fs_ok (w_fs (whistory w l)).
  Proof.
    intros SP. induction l as [|bo l IH]; intros w O; [exact O|].
    change (whistory w (bo :: l)) with (whistory (fst (wstep w bo)) l). apply IH. now apply wstep_ok.
  Qed.

  (** ** Reading *)
  Lemma fetch_log log n nominal id backend dir d s s' c :
    log_name log = Ok n -> parser_dir cfg to_path nominal backend dir s = (s', Ok d) ->
    fget (run_path d id ++ [n]) (fs_files s) = Some c -> fs_files s' = fs_files s ->
    fetch_file cfg to_path log nominal id backend dir None s = (s', Ok c).
  Proof. intros L P F K. unfold fetch_file. rewrite P. cbn [bind]. rewrite L. cbn [bind]. now rewrite K, F. Qed.

  Lemma parser_files nominal b d s : fs_ok s -> fs_files (fst (parser_dir cfg to_path nominal b d s)) = fs_files s.
  Proof.
    intros O. destruct b as [b|], d as [d|]; cbn [parser_dir fst]; try reflexivity. exact (proj2 (proj2 (query_fs (QBackend b) s O))).
  Qed.

  (** The labels of rates. *)
  Lemma mapM_labels ids : (forall z, iparse E (ishow E z) = Some z) ->
    mapM (int_label E) (map (ishow E) ids) = Ok (map LId ids).
  Proof.
    intros P. induction ids as [|z ids IH]; [reflexivity|]. cbn [map mapM]. unfold int_label at 1. rewrite P. cbn [bind]. now rewrite IH.
  Qed.
  Lemma relabel_ids t ids : (forall z, iparse E (ishow E z) = Some z) -> tb_cols t = "t"%string :: map (ishow E) ids ->
    relabel E t = Ok (MkFrame (LName "t" :: map LId ids)
                        (map (fun r => (fst r, snd r "t"%string :: map (fun z => snd r (ishow E z)) ids)) (tb_rows t))).
  Proof.
    intros P C. unfold relabel. rewrite C. rewrite mapM_labels by exact P. cbn [bind map]. do 2 f_equal.
    apply map_ext. intros r. now rewrite map_map.
  Qed.
  Lemma compress_cols t t' b : logged b t t' -> tb_cols t' = tb_cols t.
  Proof.
    unfold logged. destruct b; [|now intros ->]. unfold compress_solution.
    destruct (negb _); [discriminate|]. cbn [raise_if bind].
    destruct (last_time (tb_rows t)); [cbn [bind]|discriminate].
    match goal with |- bind ?x _ = _ -> _ => destruct x; [cbn [bind]|discriminate] end.
    unfold drop_rows. match goal with |- bind ?x _ = _ -> _ => destruct x; [cbn [bind]|discriminate] end.
    intros H. injection H as <-. reflexivity.
  Qed.

  (** ** A finished run can be read back, now and later *)
  Variable other_csv : content -> res table.
  Variable other_yaml : content -> exn.
  Hypothesis scan_perm : forall l, Permutation (scan l) l.

  Theorem read_back w b a o w' : fs_ok (w_fs w) -> ra_log a = true -> wstep w (b, WModel (GRun a o)) = (w', Finished) ->
    exists g m r id dir init_n ts tr tf, w_obj w = Some g /\ gm_model g = Some m /\ o = SDone true r /\ ra_id a = Some id /\
      match ra_init a with Some i => init_n = i | None => generate_initial_n (bm_chem m) (bm_par m) default_fractions = Ok init_n end /\
      match ra_to a with
      | Some d => d = dir
      | None => (exists s1, results_dir cfg to_path (gm_backend g) (w_fs w) = (s1, Ok dir)) /\
                forall l bk, (forall bo, In bo l -> keeps (snd bo)) -> str_lower bk = str_lower (gm_backend g) ->
                  parser_new cfg to_path (Some bk) None (w_fs (whistory w' l)) = (w_fs (whistory w' l), Ok dir) /\
                  (bk = "pygmol"%string -> parser_new cfg to_path None None (w_fs (whistory w' l)) = (w_fs (whistory w' l), Ok dir))
      end /\
      logged (ra_compress a) (rw_sol r) ts /\
      (List.length (get_species (bm_chem m) false false true) <> List.length (get_reactions (bm_chem m) false) ->
       logged (ra_compress a) (to_table (map (fun x => ishow E (rx_id x)) (get_reactions (bm_chem m) false)) (rw_rates r)) tr) /\
      logged (ra_compress a) (to_table (map sp_name (get_species (bm_chem m) false false true)) (rw_flux r)) tf /\
      forall l nominal backend d s1, (forall bo, In bo l -> keeps (snd bo)) ->
        let s := w_fs (whistory w' l) in
        parser_dir cfg to_path nominal backend d s = (s1, Ok dir) ->
        fetch_solution cfg to_path other_csv nominal id backend d None s = (s1, Ok ts) /\
        fetch_table cfg to_path other_csv "rates" nominal id backend d None s = (s1, Ok tr) /\
        fetch_wall_fluxes cfg to_path other_csv nominal id backend d None s = (s1, Ok tf) /\
        fetch_model_params cfg to_path other_yaml nominal id backend d None s = (s1, Ok (bm_par m)) /\
        fetch_initial_params cfg to_path other_yaml nominal id backend d None s = (s1, Ok (ra_temp a, init_n)) /\
        (List.length (get_species (bm_chem m) false false true) <> List.length (get_reactions (bm_chem m) false) ->
         (forall z, iparse E (ishow E z) = Some z) ->
         fetch_rates E cfg to_path other_csv nominal id backend d None s =
           (s1, Ok (MkFrame (LName "t" :: map (fun x => LId (rx_id x)) (get_reactions (bm_chem m) false))
                      (map (fun row => (fst row, snd row "t"%string :: map (fun x => snd row (ishow E (rx_id x))) (get_reactions (bm_chem m) false)))
                         (tb_rows tr))))).
  Proof.
    intros O LG H.
    destruct (step_cases w (b, WModel (GRun a o)) O) as [(X & _)|(o' & s' & dd & S & ST & A & B & FS & DD)].
    { exfalso. exact (X _ eq_refl). }
    cbn [fst snd] in S, ST. injection S as <-. rewrite H in ST. symmetry in ST.
    destruct (run_logged E fhash dd scan (MkWorld (w_obj w) s') b a o w' scan_perm A LG ST)
      as (g & m & r & id & dir & i & t & at' & rates & fluxes & W0 & M & OR & ID & TO & IN & _ & _ & GR & GF & L1 & L2 & L3 & _ & OUT & FILES).
    cbn [w_obj w_fs] in *.
    assert (GM : get_rates E (MkGm (gm_backend g) (Some (MkBm (bm_chem m) (bm_par m) (Some (MkStored r (List.length (names_of (bm_chem m)))
                    (List.length (get_reactions (bm_chem m) false)))))) (Some true)) = Ok rates /\
                 get_wall_fluxes E (MkGm (gm_backend g) (Some (MkBm (bm_chem m) (bm_par m) (Some (MkStored r (List.length (names_of (bm_chem m)))
                    (List.length (get_reactions (bm_chem m) false)))))) (Some true)) = Ok fluxes).
    { clear - ST W0 M GR GF OR. revert ST. unfold GlobalModel.gstep. cbn [fst snd w_obj w_fs]. rewrite W0.
      destruct (gm_run E fhash dd scan b g a o s') as [[g' s2] rr] eqn:R. intros X. injection X as <- ->.
      apply run_cases in R. destruct R as [(_ & _ & _ & e & X)|(m' & d & i & M' & O' & G & _)]; [discriminate|].
      rewrite M in M'. injection M' as <-. rewrite OR in O'. injection O' as <-. unfold served in GR, GF. cbn [w_obj alive] in GR, GF.
      subst g'. auto. }
    destruct GM as [GM1 GM2].
    assert (NL : List.length (names_of (bm_chem m)) = List.length (get_species (bm_chem m) false false true)) by (unfold names_of; apply map_length).
    exists g, m, r, id, dir, i, (tb_sol t), (tb_rates t), (tb_flux t).
    split; [exact W0|]. split; [exact M|]. split; [exact OR|]. split; [exact ID|]. split; [exact IN|].
    assert (OW : fs_ok (w_fs w')).
    { pose proof (wstep_ok w (b, WModel (GRun a o)) scan_perm O) as X. rewrite H in X. exact X. }
    assert (KD : forall l, (forall bo, In bo l -> keeps (snd bo)) -> kept (w_fs w') (w_fs (whistory w' l)) /\ fs_ok (w_fs (whistory w' l))).
    { intros l N. destruct (whistory_kept l w' N OW). auto. }
    assert (FL : forall n c l, (forall bo, In bo l -> keeps (snd bo)) -> In (n, c) (log_files_of t at' (bm_par m) (ra_temp a) i) ->
              fget (run_path dir id ++ [n]) (fs_files (w_fs (whistory w' l))) = Some c).
    { intros n c l N I. apply (KD l N). apply FILES; [apply under_app|]. exists n. auto. }
    split.
    { destruct (ra_to a) as [d|] eqn:TA.
      - destruct TO as [X|(X & _)]; [congruence|discriminate].
      - destruct TO as [X|(_ & X)]; [discriminate|].
        assert (Q : asks w (GRun a o) = Some (gm_backend g)) by (unfold asks; now rewrite W0, LG, ID, TA).
        rewrite Q, X in DD. split; [now exists s'|]. intros l bk N Lb.
        assert (UD : forall q, under q dir = true -> isdir (w_fs (whistory w' l)) q = true).
        { intros q U. apply under_iff in U. destruct U as (x & ->). apply (KD l N). apply (dir_above _ OW x).
          assert (F1 : isdir (w_fs w') (run_path (q ++ x) id) = true).
          { pose proof (proj2 (FILES (run_path (q ++ x) id ++ ["solution.csv"%string]) (CTable (tb_sol t)) (under_app _ _))
              (ex_intro _ _ (conj eq_refl (or_introl eq_refl)))) as F1.
            apply OW in F1. rewrite removelast_last in F1. apply F1. }
          unfold run_path in F1. destruct (String.eqb id ""); [exact F1|]. apply OW in F1. now rewrite removelast_last in F1. }
        assert (Z : results_dir cfg to_path bk (w_fs (whistory w' l)) = (w_fs (whistory w' l), Ok dir)).
        { pose proof (query_inv cfg to_path (QBackend (gm_backend g)) (w_fs w) s' dir DD) as (l0 & ws & LC & WS & PE & _ & AC).
          cbn [place] in PE. unfold results_dir, results_root, cfg_path, cfg_item. rewrite LC, Lb. cbn [bind]. rewrite WS. cbn [bind].
          apply memS_In in AC. rewrite AC. cbn [negb]. rewrite <- app_assoc. cbn [app]. rewrite <- PE. unfold mkdir_parents.
          rewrite make_dirs_there; [reflexivity|]. intros q I. apply UD. now apply ancestors_In. }
        split; [exact Z|]. intros ->. exact Z. }
    split; [exact L1|]. split.
    { intros NE. rewrite <- NL in NE. unfold get_rates in GM1. cbn [get_stored assert_success success gm_last gm_model raise_if negb bm_data bind fst snd st_raw st_nr bm_chem] in GM1.
      rewrite (rates_labelled E (bm_chem m) r NE) in GM1. injection GM1 as <-. exact L2. }
    split.
    { unfold get_wall_fluxes in GM2. cbn [get_stored assert_success success gm_last gm_model raise_if negb bm_data bind fst snd st_raw st_nsp bm_chem] in GM2.
      rewrite (fluxes_labelled E (bm_chem m) r) in GM2. injection GM2 as <-. exact L3. }
    intros l nominal backend d s1 N. cbv zeta. set (s := w_fs (whistory w' l)). intros P.
    assert (K : fs_files s1 = fs_files s).
    { change s1 with (fst (s1, Ok dir)). rewrite <- P. apply parser_files. apply (KD l N). }
    assert (G : forall log n c, log_name log = Ok n -> In (n, c) (log_files_of t at' (bm_par m) (ra_temp a) i) ->
              fetch_file cfg to_path log nominal id backend d None s = (s1, Ok c)).
    { intros log n c LN I. apply (fetch_log log n nominal id backend d dir s s1 c LN P); [now apply FL|exact K]. }
    assert (G1 : fetch_file cfg to_path "solution" nominal id backend d None s = (s1, Ok (CTable (tb_sol t)))) by (apply (G _ "solution.csv"%string); [reflexivity|cbn; auto]).
    assert (G2 : fetch_file cfg to_path "rates" nominal id backend d None s = (s1, Ok (CTable (tb_rates t)))) by (apply (G _ "rates.csv"%string); [reflexivity|cbn; auto]).
    assert (G3 : fetch_file cfg to_path "wall_fluxes" nominal id backend d None s = (s1, Ok (CTable (tb_flux t)))) by (apply (G _ "wall_fluxes.csv"%string); [reflexivity|cbn; auto]).
    assert (G4 : fetch_file cfg to_path "model_attributes" nominal id backend d None s = (s1, Ok (CModel (bm_par m) (ra_temp a) i)))
      by (apply (G _ "model_attributes.yaml"%string); [reflexivity|cbn; auto 7]).
    unfold fetch_solution, fetch_wall_fluxes, fetch_model_params, fetch_initial_params, fetch_attributes, fetch_rates, fetch_table.
    rewrite G1, G2, G3, G4. cbn [bind read_csv model_attributes fst snd].
    split; [reflexivity|]. split; [reflexivity|]. split; [reflexivity|]. split; [reflexivity|]. split; [reflexivity|].
    intros NE PS. rewrite <- NL in NE.
    assert (RT : rates = to_table (map (fun x => ishow E (rx_id x)) (get_reactions (bm_chem m) false)) (rw_rates r)).
    { unfold get_rates in GM1. cbn [get_stored assert_success success gm_last gm_model raise_if negb bm_data bind fst snd st_raw st_nr bm_chem] in GM1.
      rewrite (rates_labelled E (bm_chem m) r NE) in GM1. now injection GM1 as <-. }
    rewrite (relabel_ids (tb_rates t) (map rx_id (get_reactions (bm_chem m) false)) PS).
    2: { rewrite (compress_cols _ _ _ L2), RT. unfold to_table. cbn [tb_cols]. now rewrite map_map. }
    rewrite map_map. do 3 f_equal. apply map_ext. intros x. now rewrite map_map.
  Qed.
End H.

Section Back.
  Variables (E : env) (cfg : cfg_file) (to_path : string -> path) (fhash : string -> option string) (scan : list path -> list path).
  Variables (other_csv : content -> res table) (other_yaml : content -> exn).
  Hypothesis scan_perm : forall l, Permutation (scan l) l.
  Theorem read_back_all w b a o w' :
    fs_ok (w_fs w) -> ra_log a = true ->
    wstep E cfg to_path fhash scan w (b, WModel (GRun a o)) = (w', Finished) ->
    exists g m r id dir init_n ts tr tf, w_obj w = Some g /\ gm_model g = Some m /\ o = SDone true r /\ ra_id a = Some id /\
      match ra_init a with Some i => init_n = i | None => generate_initial_n (bm_chem m) (bm_par m) default_fractions = Ok init_n end /\
      match ra_to a with
      | Some d => d = dir
      | None => (exists s1, results_dir cfg to_path (gm_backend g) (w_fs w) = (s1, Ok dir)) /\
                forall l bk, (forall bo, In bo l -> keeps (snd bo)) -> str_lower bk = str_lower (gm_backend g) ->
                  let s := w_fs (whistory E cfg to_path fhash scan w' l) in
                  parser_new cfg to_path (Some bk) None s = (s, Ok dir) /\
                  (bk = "pygmol"%string -> parser_new cfg to_path None None s = (s, Ok dir))
      end /\
      logged (ra_compress a) (rw_sol r) ts /\
      logged (ra_compress a) (to_table (map sp_name (get_species (bm_chem m) false false true)) (rw_flux r)) tf /\
      forall l nominal backend d s1, (forall bo, In bo l -> keeps (snd bo)) ->
        let s := w_fs (whistory E cfg to_path fhash scan w' l) in
        parser_dir cfg to_path nominal backend d s = (s1, Ok dir) ->
        fetch_solution cfg to_path other_csv nominal id backend d None s = (s1, Ok ts) /\
        fetch_table cfg to_path other_csv "rates" nominal id backend d None s = (s1, Ok tr) /\
        fetch_wall_fluxes cfg to_path other_csv nominal id backend d None s = (s1, Ok tf) /\
        fetch_model_params cfg to_path other_yaml nominal id backend d None s = (s1, Ok (bm_par m)) /\
        fetch_initial_params cfg to_path other_yaml nominal id backend d None s = (s1, Ok (ra_temp a, init_n)).
  Proof.
    intros O L H.
    destruct (read_back E cfg to_path fhash scan other_csv other_yaml scan_perm w b a o w' O L H)
      as (g & m & r & id & dir & i & ts & tr & tf & A1 & A2 & A3 & A4 & A5 & A6 & A7 & A8 & A9 & A10).
    exists g, m, r, id, dir, i, ts, tr, tf. do 8 (split; [assumption|]).
    intros l nominal backend d s1 K s P. destruct (A10 l nominal backend d s1 K P) as (B1 & B2 & B3 & B4 & B5 & _). auto.
  Qed.
  Theorem read_back_rates w b a o w' g m :
    fs_ok (w_fs w) -> ra_log a = true ->
    wstep E cfg to_path fhash scan w (b, WModel (GRun a o)) = (w', Finished) ->
    w_obj w = Some g -> gm_model g = Some m ->
    List.length (get_species (bm_chem m) false false true) <> List.length (get_reactions (bm_chem m) false) ->
    (forall z, iparse E (ishow E z) = Some z) ->
    exists r id dir tr, o = SDone true r /\ ra_id a = Some id /\
      (ra_to a = Some dir \/ ra_to a = None /\ exists s1, results_dir cfg to_path (gm_backend g) (w_fs w) = (s1, Ok dir)) /\
      logged (ra_compress a) (to_table (map (fun x => ishow E (rx_id x)) (get_reactions (bm_chem m) false)) (rw_rates r)) tr /\
      forall l nominal backend d s1, (forall bo, In bo l -> keeps (snd bo)) ->
        let s := w_fs (whistory E cfg to_path fhash scan w' l) in
        parser_dir cfg to_path nominal backend d s = (s1, Ok dir) ->
        fetch_rates E cfg to_path other_csv nominal id backend d None s =
          (s1, Ok (MkFrame (LName "t" :: map (fun x => LId (rx_id x)) (get_reactions (bm_chem m) false))
                     (map (fun row => (fst row, snd row "t"%string :: map (fun x => snd row (ishow E (rx_id x))) (get_reactions (bm_chem m) false)))
                        (tb_rows tr)))).
  Proof.
    intros O L H W M N P.
    destruct (read_back E cfg to_path fhash scan other_csv other_yaml scan_perm w b a o w' O L H)
      as (g' & m' & r & id & dir & i & ts & tr & tf & A1 & A2 & A3 & A4 & A5 & A6 & A7 & A8 & A9 & A10).
    rewrite W in A1. injection A1 as <-. rewrite M in A2. injection A2 as <-.
    exists r, id, dir, tr. split; [exact A3|]. split; [exact A4|]. split.
    { destruct (ra_to a) as [d|]; [left; now rewrite A6|right]. split; [reflexivity|]. exact (proj1 A6). }
    split; [exact (A8 N)|].
    intros l nominal backend d s1 K s Q. destruct (A10 l nominal backend d s1 K Q) as (_ & _ & _ & _ & _ & B). exact (B N P).
  Qed.
End Back.
