(** Concrete workspaces: the hypotheses are met, and witnesses of refuted
    statements. *)
From Coq Require Import Permutation DecimalString DecimalZ.
From Verif Require Import Base BaseLemmas Species Reactions Chemistry ChemSpec ChemInv ChemHist ChemLoad ChemMain ChemExamples Morris MorrisStats MorrisRun Tables TablesSpec
  InitialGuess InitialExamples GlobalModel GlobalSpec GlobalFiles GlobalLog GlobalProofs GlobalMore GlobalExamples Workspace WorkspaceSpec.
Open Scope list_scope.

Definition E2 : env := {|
  fparse := fun _ => None;
  iparse := fun s => match NilEmpty.int_of_string s with Some d => Some (Z.of_int d) | None => None end;
  fshow := fun _ => ""%string;
  ishow := fun z => NilEmpty.string_of_int (Z.to_int z);
  formula_atoms := fun _ => Err EValue |}.
Lemma E2_ints z : iparse E2 (ishow E2 z) = Some z.
Proof. cbn [iparse ishow E2]. rewrite NilEmpty.isi, DecimalZ.of_to. reflexivity. Qed.

Definition cfg1 : cfg_file := CfgDict [("workspace", VStr "/home/ws"); ("globalkin_bin", VStr "/bin/gk")]%string.
Definition tp1 (s : string) : path := if String.eqb s "/home/ws" then ["home"; "ws"]%string else ["bin"; "gk"]%string.
(** A file system without files and one with the binary. *)
Definition fsE : gfs := MkGfs [[]] [].
Definition fsB : gfs := MkGfs [[]; ["bin"%string]] [(["bin"; "gk"]%string, CEmpty)].
Lemma fsE_ok : fs_ok fsE.
Proof. split; [discriminate|]. intros p H. apply isdir_In in H. destruct H as [<-|[]]. reflexivity. Qed.
Lemma fsB_ok : fs_ok fsB.
Proof.
  split.
  - intros p c H. cbn [fs_files fsB fget] in H. destruct (path_eqb ["bin"; "gk"]%string p) eqn:Q.
    + apply path_eqb_spec in Q. subst p. split; reflexivity.
    + destruct (path_eqb p ["bin"; "gk"]%string) eqn:Q'; [|discriminate]. apply path_eqb_spec in Q'. subst p. split; reflexivity.
  - intros p H. apply isdir_In in H. destruct H as [<-|[<-|[]]]; reflexivity.
Qed.

(** A run logged to the default directory. *)
Definition run_def (over : bool) (id : string) : run_args := MkRun (Some id) 1 None true None over false.
Definition new1 : option nat * wop := (None, WModel (GNew "PyGMol" c0 (Ok par0))).
Definition go1 (b : option nat) (over : bool) (id : string) (z : Z) : option nat * wop := (b, WModel (GRun (run_def over id) (SDone true (raw0 6 z)))).
Notation whist := (whistory E2 cfg1 tp1 no_files sc1 (MkWorld None fsE)).
Notation wstp := (wstep E2 cfg1 tp1 no_files sc1).

(** The run finishes; then a second one dies while being logged, another is
    started, and the first is read. *)
Definition later : list (option nat * wop) := [go1 (Some 4%nat) false "b" 2; new1; go1 None false "c" 3; (None, WMorris); (None, WRead (Some "PYGMOL"%string) None)].
Lemma later_keeps bo : In bo later -> keeps (snd bo).
Proof. intros I. cbn in I. repeat match type of I with _ \/ _ => destruct I as [I|I] | False => destruct I end; subst bo; cbn; auto. Qed.
Lemma run_example : exists w' dir, wstp (whist [new1]) (go1 None false "a" 1) = (w', Finished) /\
  dir = ["home"; "ws"; "results"; "pygmol"]%string /\
  parser_new cfg1 tp1 None None (w_fs (whistory E2 cfg1 tp1 no_files sc1 w' later)) = (w_fs (whistory E2 cfg1 tp1 no_files sc1 w' later), Ok dir) /\
  isfile (w_fs (whistory E2 cfg1 tp1 no_files sc1 w' later)) (dir ++ ["c"; "solution.csv"]%string) = true /\
  w_obj (fst (wstp w' (go1 (Some 4%nat) false "b" 2))) = None.
Proof.
  eexists _, _. split; [vm_compute; reflexivity|]. split; [reflexivity|]. split; [vm_compute; reflexivity|]. split; vm_compute; reflexivity.
Qed.

(** As many reactions as heavy species: the rates cannot be fetched. *)
Definition new_ox : option nat * wop := (None, WModel (GNew "PyGMol" c_ox (Ok par0))).
Lemma rates_lost other_csv : exists w' b a o dir id,
  reachable E0 c_ox /\ assert_consistency c_ox = Ok tt /\
  wstp (whist [new_ox]) (b, WModel (GRun a o)) = (w', Finished) /\ ra_log a = true /\ ra_id a = Some id /\
  parser_new cfg1 tp1 None None (w_fs w') = (w_fs w', Ok dir) /\
  (exists ts, fetch_solution cfg1 tp1 other_csv dir id None None None (w_fs w') = (w_fs w', Ok ts)) /\
  fetch_rates E2 cfg1 tp1 other_csv dir id None None None (w_fs w') = (w_fs w', Err EValue).
Proof.
  eexists _, None, (run_def false "a"), (SDone true raw_ox), ["home"; "ws"; "results"; "pygmol"]%string, "a"%string.
  split; [exact c_ox_reachable|]. split; [vm_compute; reflexivity|]. split; [vm_compute; reflexivity|]. split; [reflexivity|]. split; [reflexivity|].
  split; [vm_compute; reflexivity|]. split; [eexists; vm_compute; reflexivity|vm_compute; reflexivity].
Qed.

(** A run that dies while being logged: its solution is served, the other logs
    are missing, and the run cannot be repeated under its id. *)
Lemma half_log other_csv other_yaml : exists b w' dir ts, wstp (whist [new1]) (go1 (Some b) false "a" 1) = (w', Crashed) /\
  parser_new cfg1 tp1 None None (w_fs w') = (w_fs w', Ok dir) /\
  snd (fetch_solution cfg1 tp1 other_csv dir "a" None None None (w_fs w')) = Ok ts /\
  snd (fetch_rates E2 cfg1 tp1 other_csv dir "a" None None None (w_fs w')) = Err EResultsNotFound /\
  snd (fetch_model_params cfg1 tp1 other_yaml dir "a" None None None (w_fs w')) = Err EResultsNotFound /\
  snd (wstp (whistory E2 cfg1 tp1 no_files sc1 w' [new1]) (go1 None false "a" 1)) = Failed EGlobalModelLog.
Proof.
  exists 3%nat. eexists _, _, _. split; [vm_compute; reflexivity|]. split; [vm_compute; reflexivity|]. split; [vm_compute; reflexivity|].
  split; [vm_compute; reflexivity|]. split; vm_compute; reflexivity.
Qed.
(** A file that was only opened. *)
Lemma empty_log other_csv other_yaml : exists b1 b2 w1 w2 dir,
  wstp (whist [new1]) (go1 (Some b1) false "a" 1) = (w1, Crashed) /\ wstp (whist [new1]) (go1 (Some b2) false "a" 1) = (w2, Crashed) /\
  parser_new cfg1 tp1 None None (w_fs w1) = (w_fs w1, Ok dir) /\ parser_new cfg1 tp1 None None (w_fs w2) = (w_fs w2, Ok dir) /\
  snd (fetch_rates E2 cfg1 tp1 other_csv dir "a" None None None (w_fs w1)) = Err EValue /\
  snd (fetch_model_params cfg1 tp1 other_yaml dir "a" None None None (w_fs w2)) = Err EType.
Proof.
  exists 4%nat, 10%nat. eexists _, _, _. split; [vm_compute; reflexivity|]. split; [vm_compute; reflexivity|]. split; [vm_compute; reflexivity|].
  split; [vm_compute; reflexivity|]. split; vm_compute; reflexivity.
Qed.

(** Configurations that are not reported as such. *)
Lemma bad_config to_path q s : 
  snd (ask CfgNotYaml to_path q s) = Err EYaml /\
  (forall b, q = QBackend b -> In (str_lower b) ["pygmol"; "pygkin"]%string -> snd (ask (CfgDict [("workspace"%string, VOther)]) to_path q s) = Err EType) /\
  (q = QMorris \/ q = QReduction -> snd (ask (CfgDict [("workspace"%string, VOther)]) to_path q s) = Err EType).
Proof.
  split; [destruct q; reflexivity|]. split.
  - intros b -> I. cbn [ask]. unfold results_dir. cbn [load_config]. destruct I as [<-|[<-|[]]]; reflexivity.
  - intros [->| ->]; reflexivity.
Qed.

(** Queries. *)
Lemma queries_example : exists s1 s2 p1 p2, ask cfg1 tp1 QStage fsB = (s1, Ok p1) /\ ask cfg1 tp1 (QBackend "PyGKin") s1 = (s2, Ok p2) /\
  p1 = ["home"; "ws"; "globalkin_stage"]%string /\ p2 = ["home"; "ws"; "results"; "pygkin"]%string.
Proof. do 4 eexists. split; [vm_compute; reflexivity|]. split; [vm_compute; reflexivity|]. split; reflexivity. Qed.

(** A history with a crash and overwriting of which something can be read. *)
Lemma overwritten_example other_csv : exists l ts dir, l = [new1; go1 None false "a" 1; go1 (Some 4%nat) true "a" 2; new1; go1 (Some 16%nat) true "a" 3] /\
  parser_new cfg1 tp1 None None (w_fs (whist l)) = (w_fs (whist l), Ok dir) /\
  snd (fetch_solution cfg1 tp1 other_csv dir "a" None None None (w_fs (whist l))) = Ok ts.
Proof. do 3 eexists. split; [reflexivity|]. split; vm_compute; reflexivity. Qed.

(** The witnesses in full. *)
Lemma fsE_start : fs_ok fsE /\ (forall q, aget path_eqb q (fs_files fsE) = None).
Proof. split; [exact fsE_ok|reflexivity]. Qed.
Lemma c0_numbers : List.length (get_species c0 false false true) = 5%nat /\ List.length (get_reactions c0 false) = 6%nat.
Proof. split; vm_compute; reflexivity. Qed.

Lemma new_fs c : w_fs (whist [(None, WModel (GNew "PyGMol" c (Ok par0)))]) = fsE.
Proof. reflexivity. Qed.

Lemma rates_lost_all : exists E cfg to_path fhash scan other_csv c w w' b a o dir id,
  (forall z, iparse E (ishow E z) = Some z) /\ (forall l, Permutation (scan l) l) /\
  (exists E', reachable E' c) /\ assert_consistency c = Ok tt /\ fs_ok (w_fs w) /\
  (exists g m, w_obj w = Some g /\ gm_model g = Some m /\ bm_chem m = c) /\
  wstep E cfg to_path fhash scan w (b, WModel (GRun a o)) = (w', Finished) /\ ra_log a = true /\ ra_id a = Some id /\
  parser_new cfg to_path None None (w_fs w') = (w_fs w', Ok dir) /\
  (exists ts, fetch_solution cfg to_path other_csv dir id None None None (w_fs w') = (w_fs w', Ok ts)) /\
  fetch_rates E cfg to_path other_csv dir id None None None (w_fs w') = (w_fs w', Err EValue).
Proof.
  destruct (rates_lost (fun _ => Err EValue)) as (w' & b & a & o & dir & id & A1 & A2 & A3 & A4 & A5 & A6 & A7 & A8).
  exists E2, cfg1, tp1, no_files, sc1, (fun _ => Err EValue), c_ox, (whist [new_ox]), w', b, a, o, dir, id.
  split; [exact E2_ints|]. split; [exact sc1_perm|]. split; [exists E0; exact A1|]. split; [exact A2|]. split; [exact fsE_ok|].
  split; [eexists _, _; split; [reflexivity|]; split; reflexivity|]. auto 10.
Qed.

Lemma half_log_all : forall other_csv other_yaml, exists E cfg to_path fhash scan w b a o w' dir ts id again,
  (forall z, iparse E (ishow E z) = Some z) /\ (forall l, Permutation (scan l) l) /\ fs_ok (w_fs w) /\
  (forall q, aget path_eqb q (fs_files (w_fs w)) = None) /\ ra_id a = Some id /\
  wstep E cfg to_path fhash scan w (Some b, WModel (GRun a o)) = (w', Crashed) /\
  parser_new cfg to_path None None (w_fs w') = (w_fs w', Ok dir) /\
  snd (fetch_solution cfg to_path other_csv dir id None None None (w_fs w')) = Ok ts /\
  snd (fetch_rates E cfg to_path other_csv dir id None None None (w_fs w')) = Err EResultsNotFound /\
  snd (fetch_model_params cfg to_path other_yaml dir id None None None (w_fs w')) = Err EResultsNotFound /\
  snd (wstep E cfg to_path fhash scan (fst (wstep E cfg to_path fhash scan w' again)) (None, WModel (GRun a o))) = Failed EGlobalModelLog.
Proof.
  intros oc oy. destruct (half_log oc oy) as (b & w' & dir & ts & A1 & A2 & A3 & A4 & A5 & A6).
  exists E2, cfg1, tp1, no_files, sc1, (whist [new1]), b, (run_def false "a"), (SDone true (raw0 6 1)), w', dir, ts, "a"%string, new1.
  split; [exact E2_ints|]. split; [exact sc1_perm|]. split; [exact fsE_ok|]. split; [reflexivity|]. split; [reflexivity|]. auto 10.
Qed.

Lemma empty_log_all : forall other_csv other_yaml, exists E cfg to_path fhash scan w b1 b2 a o w1 w2 dir id,
  (forall z, iparse E (ishow E z) = Some z) /\ (forall l, Permutation (scan l) l) /\ fs_ok (w_fs w) /\ ra_id a = Some id /\
  wstep E cfg to_path fhash scan w (Some b1, WModel (GRun a o)) = (w1, Crashed) /\
  wstep E cfg to_path fhash scan w (Some b2, WModel (GRun a o)) = (w2, Crashed) /\
  parser_new cfg to_path None None (w_fs w1) = (w_fs w1, Ok dir) /\ parser_new cfg to_path None None (w_fs w2) = (w_fs w2, Ok dir) /\
  snd (fetch_rates E cfg to_path other_csv dir id None None None (w_fs w1)) = Err EValue /\
  snd (fetch_model_params cfg to_path other_yaml dir id None None None (w_fs w2)) = Err EType.
Proof.
  intros oc oy. destruct (empty_log oc oy) as (b1 & b2 & w1 & w2 & dir & A1 & A2 & A3 & A4 & A5 & A6).
  exists E2, cfg1, tp1, no_files, sc1, (whist [new1]), b1, b2, (run_def false "a"), (SDone true (raw0 6 1)), w1, w2, dir, "a"%string.
  split; [exact E2_ints|]. split; [exact sc1_perm|]. split; [exact fsE_ok|]. split; [reflexivity|]. auto 10.
Qed.
