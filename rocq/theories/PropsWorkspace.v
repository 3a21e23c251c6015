(** Property theorems about the workspace and about reading logs back
    (C124 - C129); the vocabulary is that of WorkspaceSpec.v and GlobalSpec.v. [whistory]: any sequence of model steps, directory
    queries and readers in one workspace, each possibly dying after a number of
    file operations. *)
From Coq Require Import Permutation.
From Verif Require Import Base Species Reactions Chemistry ChemSpec ChemGetters ChemExamples ChemLoad InitialExamples MolSpec MolExamples Morris MorrisStats MorrisRun Tables TablesSpec InitialGuess GlobalModel GlobalSpec
  GlobalExamples Workspace WorkspaceSpec WorkspaceProofs WorkspaceHist WorkspaceOne WorkspaceExamples.
Open Scope list_scope.

(** C124: when a run with logging has finished, its solution, fluxes, rates (as
    stored), parameters and initial values are read back from the directory it was
    logged to, now and after everything that may happen later except overwriting;
    the directory is the default one of the back-end, found by every reader for
    that back-end. *)
Theorem C124_read_back E cfg to_path fhash scan other_csv other_yaml w b a o w' :
  (forall l, Permutation (scan l) l) -> fs_ok (w_fs w) -> ra_log a = true ->
  wstep E cfg to_path fhash scan w (b, WModel (GRun a o)) = (w', Finished) ->
  exists g m r id dir init_n ts tr tf, w_obj w = Some g /\ gm_model g = Some m /\ o = SDone true r /\ ra_id a = Some id /\
    match ra_init a with Some i => init_n = i | None => generate_initial_n (bm_chem m) (bm_par m) default_fractions = Ok init_n end /\
    match ra_to a with
    | Some d => d = dir
    | None => (exists s1, results_dir cfg to_path (gm_backend g) (w_fs w) = (s1, Ok dir)) /\
              forall l bk, (forall bo, In bo l -> keeps (snd bo)) -> str_lower bk = str_lower (gm_backend g) ->
                let s := w_fs (whistory E cfg to_path fhash scan w' l) in
                parser_new cfg to_path (Some bk) None s = (s, Ok dir) /\
                (bk = "pygmol"%string -> parser_new cfg to_path None None s = (s, Ok dir))
    end /\
    logged (ra_compress a) (rw_sol r) ts /\
    logged (ra_compress a) (to_table (map sp_name (get_species (bm_chem m) false false true)) (rw_flux r)) tf /\
    forall l nominal backend d s1, (forall bo, In bo l -> keeps (snd bo)) ->
      let s := w_fs (whistory E cfg to_path fhash scan w' l) in
      parser_dir cfg to_path nominal backend d s = (s1, Ok dir) ->
      fetch_solution cfg to_path other_csv nominal id backend d None s = (s1, Ok ts) /\
      fetch_table cfg to_path other_csv "rates" nominal id backend d None s = (s1, Ok tr) /\
      fetch_wall_fluxes cfg to_path other_csv nominal id backend d None s = (s1, Ok tf) /\
      fetch_model_params cfg to_path other_yaml nominal id backend d None s = (s1, Ok (bm_par m)) /\
      fetch_initial_params cfg to_path other_yaml nominal id backend d None s = (s1, Ok (ra_temp a, init_n)).
Proof. exact (fun P => read_back_all E cfg to_path fhash scan other_csv other_yaml P w b a o w'). Qed.

(** C124: a reader looks into the directory it is given, else into that of
    the back-end it is given, else into its own; a directory together with a
    back-end is refused. *)
Theorem C124_which_directory E cfg to_path other_csv other_yaml nominal id d b f s :
  (fetch_solution cfg to_path other_csv nominal id None (Some d) f s = fetch_solution cfg to_path other_csv d id None None f s /\
   fetch_rates E cfg to_path other_csv nominal id None (Some d) f s = fetch_rates E cfg to_path other_csv d id None None f s /\
   fetch_wall_fluxes cfg to_path other_csv nominal id None (Some d) f s = fetch_wall_fluxes cfg to_path other_csv d id None None f s /\
   fetch_model_params cfg to_path other_yaml nominal id None (Some d) f s = fetch_model_params cfg to_path other_yaml d id None None f s /\
   fetch_initial_params cfg to_path other_yaml nominal id None (Some d) f s = fetch_initial_params cfg to_path other_yaml d id None None f s) /\
  (snd (fetch_solution cfg to_path other_csv nominal id (Some b) (Some d) f s) = Err EResultsAttr /\
   snd (fetch_rates E cfg to_path other_csv nominal id (Some b) (Some d) f s) = Err EResultsAttr /\
   snd (fetch_wall_fluxes cfg to_path other_csv nominal id (Some b) (Some d) f s) = Err EResultsAttr /\
   snd (fetch_model_params cfg to_path other_yaml nominal id (Some b) (Some d) f s) = Err EResultsAttr /\
   snd (fetch_initial_params cfg to_path other_yaml nominal id (Some b) (Some d) f s) = Err EResultsAttr) /\
  (forall s' p, results_dir cfg to_path b s = (s', Ok p) ->
   fetch_solution cfg to_path other_csv nominal id (Some b) None f s = fetch_solution cfg to_path other_csv p id None None f s' /\
   fetch_rates E cfg to_path other_csv nominal id (Some b) None f s = fetch_rates E cfg to_path other_csv p id None None f s' /\
   fetch_wall_fluxes cfg to_path other_csv nominal id (Some b) None f s = fetch_wall_fluxes cfg to_path other_csv p id None None f s' /\
   fetch_model_params cfg to_path other_yaml nominal id (Some b) None f s = fetch_model_params cfg to_path other_yaml p id None None f s' /\
   fetch_initial_params cfg to_path other_yaml nominal id (Some b) None f s = fetch_initial_params cfg to_path other_yaml p id None None f s') /\
  parser_new cfg to_path None (Some d) s = (s, Ok d) /\ parser_new cfg to_path (Some b) None s = results_dir cfg to_path b s /\
  snd (parser_new cfg to_path (Some b) (Some d) s) = Err EResultsAttr.
Proof. exact (reader_directory E cfg to_path other_csv other_yaml nominal id d b f s). Qed.

(** C125: the rates are read back under the ids of the reactions, provided the
    numbers of heavy species and reactions differ. *)
Theorem C125_rates_partial E cfg to_path fhash scan other_csv w b a o w' g m :
  (forall l, Permutation (scan l) l) -> fs_ok (w_fs w) -> ra_log a = true ->
  wstep E cfg to_path fhash scan w (b, WModel (GRun a o)) = (w', Finished) ->
  w_obj w = Some g -> gm_model g = Some m ->
  List.length (get_species (bm_chem m) false false true) <> List.length (get_reactions (bm_chem m) false) ->
  (forall z, iparse E (ishow E z) = Some z) ->
  exists r id dir tr, o = SDone true r /\ ra_id a = Some id /\
    (ra_to a = Some dir \/ ra_to a = None /\ exists s1, results_dir cfg to_path (gm_backend g) (w_fs w) = (s1, Ok dir)) /\
    logged (ra_compress a) (to_table (map (fun x => ishow E (rx_id x)) (get_reactions (bm_chem m) false)) (rw_rates r)) tr /\
    forall l nominal backend d s1, (forall bo, In bo l -> keeps (snd bo)) ->
      let s := w_fs (whistory E cfg to_path fhash scan w' l) in
      parser_dir cfg to_path nominal backend d s = (s1, Ok dir) ->
      fetch_rates E cfg to_path other_csv nominal id backend d None s =
        (s1, Ok (MkFrame (LName "t" :: map (fun x => LId (rx_id x)) (get_reactions (bm_chem m) false))
                   (map (fun row => (fst row, snd row "t"%string :: map (fun x => snd row (ishow E (rx_id x))) (get_reactions (bm_chem m) false)))
                      (tb_rows tr)))).
Proof. exact (fun P => read_back_rates E cfg to_path fhash scan other_csv (fun _ => EValue) P w b a o w' g m). Qed.

(** C125: with as many reactions as heavy species the rates of a finished and
    logged run cannot be fetched. *)
Theorem C125_rates_refuted : exists E cfg to_path fhash scan other_csv c w w' b a o dir id,
  (forall z, iparse E (ishow E z) = Some z) /\ (forall l, Permutation (scan l) l) /\
  (exists E', reachable E' c) /\ assert_consistency c = Ok tt /\ fs_ok (w_fs w) /\
  (exists g m, w_obj w = Some g /\ gm_model g = Some m /\ bm_chem m = c) /\
  wstep E cfg to_path fhash scan w (b, WModel (GRun a o)) = (w', Finished) /\ ra_log a = true /\ ra_id a = Some id /\
  parser_new cfg to_path None None (w_fs w') = (w_fs w', Ok dir) /\
  (exists ts, fetch_solution cfg to_path other_csv dir id None None None (w_fs w') = (w_fs w', Ok ts)) /\
  fetch_rates E cfg to_path other_csv dir id None None None (w_fs w') = (w_fs w', Err EValue).
Proof. exact rates_lost_all. Qed.

(** C126: a query for a directory of the workspace returns an existing
    directory at its place in the configured workspace. No file is touched; the
    only directories made are this one and those above it. *)
Theorem C126_made cfg to_path q s s' p : fs_ok s -> ask cfg to_path q s = (s', Ok p) ->
  isdir s' p = true /\ fs_ok s' /\ kept s s' /\ fs_files s' = fs_files s /\
  (forall d, isdir s' d = true -> isdir s d = true \/ exists r, p = d ++ r) /\
  exists l ws, cfg = CfgDict l /\ aget String.eqb "workspace"%string l = Some (VStr ws) /\ p = to_path ws ++ place q.
Proof. exact (query_made_plain cfg to_path q s s' p). Qed.

(** C126: a query that raises leaves everything as it was. *)
Theorem C126_failed cfg to_path q s s' e : fs_ok s -> ask cfg to_path q s = (s', Err e) -> s' = s.
Proof. exact (query_failed cfg to_path q s s' e). Qed.

(** C126: once made, a directory is found again, in any spelling of the
    back-end and as long as nothing is removed, without changing anything. *)
Theorem C126_again cfg to_path q q' s s1 s2 p : fs_ok s -> same_query q q' -> ask cfg to_path q s = (s1, Ok p) ->
  (forall d, isdir s1 d = true -> isdir s2 d = true) -> (forall f, isfile s1 f = true -> isfile s2 f = true) ->
  ask cfg to_path q' s2 = (s2, Ok p).
Proof. exact (query_again cfg to_path q q' s s1 s2 p). Qed.

(** C126: with a proper configuration and no file in the way a query
    succeeds. *)
Theorem C126_works cfg to_path q s l ws :
  fs_ok s -> isdir s [] = true -> cfg = CfgDict l -> aget String.eqb "workspace"%string l = Some (VStr ws) ->
  (forall f r, to_path ws ++ place q = f ++ r -> isfile s f = false) ->
  match q with
  | QBackend b => In (str_lower b) ["pygmol"; "pygkin"]%string
  | QStage => exists bin, aget String.eqb "globalkin_bin"%string l = Some (VStr bin) /\ isfile s (to_path bin) = true
  | _ => True
  end ->
  exists s', ask cfg to_path q s = (s', Ok (to_path ws ++ place q)).
Proof. exact (query_works_plain cfg to_path q s l ws). Qed.

(** C126: directories of different queries are neither equal nor nested. *)
Theorem C126_apart cfg to_path q1 q2 s1 s2 s1' s2' p1 p2 r :
  ask cfg to_path q1 s1 = (s1', Ok p1) -> ask cfg to_path q2 s2 = (s2', Ok p2) -> p2 = p1 ++ r -> same_query q1 q2 /\ r = [].
Proof. exact (queries_apart_plain cfg to_path q1 q2 s1 s2 s1' s2' p1 p2 r). Qed.

(** C127: whatever has happened before in a workspace, including processes that
    died and logs that were overwritten, everything that can be read under one run
    id belongs to one run. *)
Theorem C127_one_run E cfg to_path fhash scan w0 other_csv other_yaml l nominal id backend d p :
  (forall l, Permutation (scan l) l) ->
  fs_ok (w_fs w0) -> (forall q, aget path_eqb q (fs_files (w_fs w0)) = None) ->
  let s := w_fs (whistory E cfg to_path fhash scan w0 l) in
  snd (parser_dir cfg to_path nominal backend d s) = Ok p ->
  (forall ts, snd (fetch_solution cfg to_path other_csv nominal id backend d None s) <> Ok ts) /\
  (forall fr, snd (fetch_rates E cfg to_path other_csv nominal id backend d None s) <> Ok fr) /\
  (forall tf, snd (fetch_wall_fluxes cfg to_path other_csv nominal id backend d None s) <> Ok tf) /\
  (forall ps, snd (fetch_model_params cfg to_path other_yaml nominal id backend d None s) <> Ok ps) /\
  (forall ip, snd (fetch_initial_params cfg to_path other_yaml nominal id backend d None s) <> Ok ip) \/
  exists pre b o post g m t te i co,
    l = pre ++ (b, WModel o) :: post /\ logs cfg to_path (whistory E cfg to_path fhash scan w0 pre) o (run_path p id) g te i co /\
    gm_model g = Some m /\ log_tables E co g = Ok t /\
    (forall ts, snd (fetch_solution cfg to_path other_csv nominal id backend d None s) = Ok ts -> ts = tb_sol t) /\
    (forall fr, snd (fetch_rates E cfg to_path other_csv nominal id backend d None s) = Ok fr -> relabel E (tb_rates t) = Ok fr) /\
    (forall tf, snd (fetch_wall_fluxes cfg to_path other_csv nominal id backend d None s) = Ok tf -> tf = tb_flux t) /\
    (forall ps, snd (fetch_model_params cfg to_path other_yaml nominal id backend d None s) = Ok ps -> ps = bm_par m) /\
    (forall ip, snd (fetch_initial_params cfg to_path other_yaml nominal id backend d None s) = Ok ip -> ip = (te, i)).
Proof. exact (fun P => one_run E cfg to_path fhash scan P w0 other_csv other_yaml l nominal id backend d p). Qed.

(** C128: the logs of a run that died while being logged are not all or
    nothing: the solution is served, the rates are not, and the run cannot be
    repeated under its id. *)
Theorem C128_all_or_nothing_refuted : forall other_csv other_yaml, exists E cfg to_path fhash scan w b a o w' dir ts id again,
  (forall z, iparse E (ishow E z) = Some z) /\ (forall l, Permutation (scan l) l) /\ fs_ok (w_fs w) /\
  (forall q, aget path_eqb q (fs_files (w_fs w)) = None) /\ ra_id a = Some id /\
  wstep E cfg to_path fhash scan w (Some b, WModel (GRun a o)) = (w', Crashed) /\
  parser_new cfg to_path None None (w_fs w') = (w_fs w', Ok dir) /\
  snd (fetch_solution cfg to_path other_csv dir id None None None (w_fs w')) = Ok ts /\
  snd (fetch_rates E cfg to_path other_csv dir id None None None (w_fs w')) = Err EResultsNotFound /\
  snd (fetch_model_params cfg to_path other_yaml dir id None None None (w_fs w')) = Err EResultsNotFound /\
  snd (wstep E cfg to_path fhash scan (fst (wstep E cfg to_path fhash scan w' again)) (None, WModel (GRun a o))) = Failed EGlobalModelLog.
Proof. exact half_log_all. Qed.

(** C128: and what is missing is not always reported as missing: ValueError for
    a table, TypeError for the parameters. *)
Theorem C128_missing_refuted : forall other_csv other_yaml, exists E cfg to_path fhash scan w b1 b2 a o w1 w2 dir id,
  (forall z, iparse E (ishow E z) = Some z) /\ (forall l, Permutation (scan l) l) /\ fs_ok (w_fs w) /\ ra_id a = Some id /\
  wstep E cfg to_path fhash scan w (Some b1, WModel (GRun a o)) = (w1, Crashed) /\
  wstep E cfg to_path fhash scan w (Some b2, WModel (GRun a o)) = (w2, Crashed) /\
  parser_new cfg to_path None None (w_fs w1) = (w_fs w1, Ok dir) /\ parser_new cfg to_path None None (w_fs w2) = (w_fs w2, Ok dir) /\
  snd (fetch_rates E cfg to_path other_csv dir id None None None (w_fs w1)) = Err EValue /\
  snd (fetch_model_params cfg to_path other_yaml dir id None None None (w_fs w2)) = Err EType.
Proof. exact empty_log_all. Qed.

(** C129: a query is refused with a ConfigError only if the configuration is
    unusable, and all other refusals have their reasons. *)
Theorem C129_errors_partial cfg to_path q s e : fs_ok s -> isdir s [] = true -> snd (ask cfg to_path q s) = Err e ->
  (e = EConfig /\ (cfg = CfgMissing \/ cfg = CfgNotDict \/ exists l, cfg = CfgDict l /\
      (aget String.eqb "workspace"%string l = None \/
       q = QStage /\ (aget String.eqb "globalkin_bin"%string l = None \/
         exists bin, aget String.eqb "globalkin_bin"%string l = Some (VStr bin) /\ isfile s (to_path bin) = false)))) \/
  (e = EYaml /\ cfg = CfgNotYaml) \/
  (e = EType /\ exists l, cfg = CfgDict l /\ (aget String.eqb "workspace"%string l = Some VOther \/
                                              q = QStage /\ aget String.eqb "globalkin_bin"%string l = Some VOther)) \/
  (e = EGlobalModelAttr /\ exists b, q = QBackend b /\ ~ In (str_lower b) ["pygmol"; "pygkin"]%string) \/
  (e = EOS /\ exists l ws f r, cfg = CfgDict l /\ aget String.eqb "workspace"%string l = Some (VStr ws) /\ to_path ws ++ place q = f ++ r /\ isfile s f = true).
Proof. exact (query_errors_plain cfg to_path q s e). Qed.

(** C129: the documentation says that a file that cannot be loaded raises
    ConfigError; the error of the YAML library, or TypeError, is raised. *)
Theorem C129_config_refuted to_path q s :
  snd (ask CfgNotYaml to_path q s) = Err EYaml /\
  (forall b, q = QBackend b -> In (str_lower b) ["pygmol"; "pygkin"]%string -> snd (ask (CfgDict [("workspace"%string, VOther)]) to_path q s) = Err EType) /\
  (q = QMorris \/ q = QReduction -> snd (ask (CfgDict [("workspace"%string, VOther)]) to_path q s) = Err EType).
Proof. exact (bad_config to_path q s). Qed.

(** ** The hypotheses are met by concrete cases *)

Lemma C124_example : exists w' dir, wstep E2 cfg1 tp1 no_files sc1 (whistory E2 cfg1 tp1 no_files sc1 (MkWorld None fsE) [new1]) (go1 None false "a" 1) = (w', Finished) /\
  dir = ["home"; "ws"; "results"; "pygmol"]%string /\
  parser_new cfg1 tp1 None None (w_fs (whistory E2 cfg1 tp1 no_files sc1 w' later)) = (w_fs (whistory E2 cfg1 tp1 no_files sc1 w' later), Ok dir) /\
  isfile (w_fs (whistory E2 cfg1 tp1 no_files sc1 w' later)) (dir ++ ["c"; "solution.csv"]%string) = true /\
  w_obj (fst (wstep E2 cfg1 tp1 no_files sc1 w' (go1 (Some 4%nat) false "b" 2))) = None.
Proof. exact run_example. Qed.
Lemma C124_later bo : In bo later -> keeps (snd bo).
Proof. exact (later_keeps bo). Qed.
Lemma C125_example z : iparse E2 (ishow E2 z) = Some z.
Proof. exact (E2_ints z). Qed.
Lemma C125_numbers : List.length (get_species c0 false false true) = 5%nat /\ List.length (get_reactions c0 false) = 6%nat.
Proof. exact c0_numbers. Qed.
Lemma C126_example : exists s1 s2 p1 p2, ask cfg1 tp1 QStage fsB = (s1, Ok p1) /\ ask cfg1 tp1 (QBackend "PyGKin") s1 = (s2, Ok p2) /\
  p1 = ["home"; "ws"; "globalkin_stage"]%string /\ p2 = ["home"; "ws"; "results"; "pygkin"]%string.
Proof. exact queries_example. Qed.
Lemma C126_start : fs_ok fsB.
Proof. exact fsB_ok. Qed.
Lemma C127_example other_csv : exists l ts dir, l = [new1; go1 None false "a" 1; go1 (Some 4%nat) true "a" 2; new1; go1 (Some 16%nat) true "a" 3] /\
  parser_new cfg1 tp1 None None (w_fs (whistory E2 cfg1 tp1 no_files sc1 (MkWorld None fsE) l)) = (w_fs (whistory E2 cfg1 tp1 no_files sc1 (MkWorld None fsE) l), Ok dir) /\
  snd (fetch_solution cfg1 tp1 other_csv dir "a" None None None (w_fs (whistory E2 cfg1 tp1 no_files sc1 (MkWorld None fsE) l))) = Ok ts.
Proof. exact (overwritten_example other_csv). Qed.
Lemma C127_start : fs_ok fsE /\ (forall q, aget path_eqb q (fs_files fsE) = None).
Proof. exact fsE_start. Qed.

(** All theorems of this file at once (one traversal instead of one per
    theorem). *)
Definition all_theorems := (
  @C124_read_back,
  @C124_which_directory,
  @C125_rates_partial,
  @C125_rates_refuted,
  @C126_made,
  @C126_failed,
  @C126_again,
  @C126_works,
  @C126_apart,
  @C127_one_run,
  @C128_all_or_nothing_refuted,
  @C128_missing_refuted,
  @C129_errors_partial,
  @C129_config_refuted).
Print Assumptions all_theorems.
