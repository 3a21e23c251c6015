(** Theorems about logged solutions (C40, C41, C44, C72-C74). Vocabulary:
    TablesSpec.v; examples and witnesses: TablesExamples.v. *)
From Coq Require Import Qabs Sorted Reals Qreals.
From Verif Require Import Base Morris MorrisStats MorrisRun Tables TablesSpec TablesProofs TablesCompress TablesErrors TablesExamples.
Open Scope Q_scope.

(** ** C40 *)
Theorem C40_compressed tb threshold min_timestep :
  default_index tb -> non_negative tb -> In "t"%string (tb_cols tb) -> tb_rows tb <> [] ->
  exists out last, compress_solution tb threshold min_timestep = Ok out /\ tb_cols out = tb_cols tb /\
    (exists pre, tb_rows tb = (pre ++ [last])%list) /\
    thinned (redundant (tb_cols tb) threshold (time last * min_timestep)) (tb_rows tb) (tb_rows out).
Proof. exact (compress_ok tb threshold min_timestep). Qed.

Theorem C40_negative_data_refuted : exists tb out r front,
  default_index tb /\ In "t"%string (tb_cols tb) /\ strictly_ascending tb /\ compress_solution tb (1 # 20) (1 # 1000) = Ok out /\
  In r (tb_rows tb) /\ ~ In (fst r) (map fst (tb_rows out)) /\ In front (tb_rows out) /\
  (forall x, In x (tb_rows out) -> Qabs (at_col r "A" - at_col x "A") == 999 /\ 1 <= Qabs (time r - time x)) /\
  at_col front "A" == -1.
Proof. exact negative_dropped. Qed.

(** ** C41 *)
Theorem C41_frames tb times :
  ascending tb -> In "t"%string (tb_cols tb) -> (forall t, In t times -> covered tb t) ->
  exists fs, get_results_frames tb times = Ok fs /\ Forall2 (frame_of tb) times fs.
Proof. exact (frames_ok tb times). Qed.

Theorem C41_rejected tb times t :
  In "t"%string (tb_cols tb) -> tb_rows tb <> [] -> In t times -> ~ covered tb t ->
  get_results_frames tb times = Err EAssertion.
Proof. exact (frames_rejected tb times t). Qed.

Theorem C41_no_overshoot tb c t v : sampled tb c t v ->
  exists a b, In a (tb_rows tb) /\ In b (tb_rows tb) /\ time a <= t /\ (t <= time b \/ a = b) /\
    (at_col a c <= v <= at_col b c \/ at_col b c <= v <= at_col a c).
Proof. exact (sampled_between tb c t v). Qed.

Theorem C41_exact_at_samples tb c t v r :
  strictly_ascending tb -> In r (tb_rows tb) -> time r == t -> sampled tb c t v -> v == at_col r c.
Proof. exact (sampled_exact tb c t v r). Qed.

(** ** C44 *)
Theorem C44_output_errors full red outs times o : comparable full red outs times -> In o outs ->
  exists top es, largest full o times top /\ 0 < top /\
    get_output_errors full red o times = Ok (map Fin es) /\ Forall2 (mixed_error full red o top) times es.
Proof. exact (errors_ok full red outs times o). Qed.

Theorem C44_output_max full red outs times o : comparable full red outs times -> In o outs ->
  exists m, get_output_error_max full red o times = Ok (Fin m) /\ largest_error full red o times m.
Proof. exact (output_max_ok full red outs times o). Qed.

Theorem C44_overall_max full red outs times : comparable full red outs times ->
  exists m, get_error_max full red outs times = Ok (Fin m) /\
    (exists o, In o outs /\ get_output_error_max full red o times = Ok (Fin m)) /\
    (forall o x, In o outs -> get_output_error_max full red o times = Ok (Fin x) -> x <= m).
Proof. exact (overall_max_ok full red outs times). Qed.

Theorem C44_output_rms full red outs times o : comparable full red outs times -> In o outs ->
  exists top es v m, largest full o times top /\ Forall2 (mixed_error full red o top) times es /\
    get_output_error_rms full red o times = Ok (Some v) /\ rms_of (map Q2R es) v /\
    get_output_error_max full red o times = Ok (Fin m) /\ (v <= Q2R m)%R.
Proof. exact (output_rms_ok full red outs times o). Qed.

Theorem C44_overall_rms full red outs times : comparable full red outs times ->
  exists vs v m, Forall2 (fun o x => get_output_error_rms full red o times = Ok (Some x)) outs vs /\
    get_error_rms full red outs times = Ok (Some v) /\ rms_of vs v /\
    get_error_max full red outs times = Ok (Fin m) /\ (v <= Q2R m)%R.
Proof. exact (overall_rms_ok full red outs times). Qed.

Theorem C44_self full outs times : comparable full full outs times ->
  (exists m, get_error_max full full outs times = Ok (Fin m) /\ m == 0) /\ get_error_rms full full outs times = Ok (Some 0%R).
Proof. exact (self_error full outs times). Qed.

Theorem C44_zero_iff_equal full red outs times o m : comparable full red outs times -> In o outs ->
  get_output_error_max full red o times = Ok (Fin m) ->
  (m == 0 <-> forall t, In t times -> exists v, sampled full o t v /\ sampled red o t v).
Proof. exact (zero_error_iff full red outs times o m). Qed.

Theorem C44_below_relative_error full red outs times o top t e vf vr : comparable full red outs times -> In o outs -> In t times ->
  largest full o times top -> sampled full o t vf -> sampled red o t vr -> mixed_error full red o top t e ->
  Qabs e <= Qabs (vr - vf) / vf.
Proof. exact (relative_bound full red outs times o top t e vf vr). Qed.

Theorem C44_rejected tb o t : tb_rows tb <> [] -> (~ In o (tb_cols tb) \/ ~ covered tb t) -> result_in_time tb o t = Err EAssertion.
Proof. exact (result_rejected tb o t). Qed.

(** ** C72 *)
Theorem C72_self_error_refuted : exists tb, strictly_ascending tb /\ non_negative tb /\ (forall t, In t [1] -> covered tb t) /\
  get_error_max tb tb ["A"; "B"]%string [1] = Ok NaN /\ get_error_rms tb tb ["A"; "B"]%string [1] = Ok None.
Proof. exact absent_species. Qed.

(** ** C73 *)
Theorem C73_compress_again_refuted : exists tb out, default_index tb /\ non_negative tb /\ In "t"%string (tb_cols tb) /\
  compress_solution tb (1 # 20) (1 # 1000) = Ok out /\ compress_solution out (1 # 20) (1 # 1000) = Err EKey.
Proof. exact compress_twice. Qed.

(** ** C74 *)
Theorem C74_identifiers lower isdir run ids dir_of nominal :
  parse_run_identifiers lower isdir run = Ok ids ->
  (exists l, run = ri_run ids :: l) /\ (ri_backend ids = None \/ ri_dir ids = None) /\
  (forall b, ri_backend ids = Some b -> In (lower b) accepted_backends /\ In b run) /\
  (fetch_results_dir dir_of nominal (ri_backend ids) (ri_dir ids) = Err EResultsAttr ->
     exists b, ri_backend ids = Some b /\ dir_of b = Err EResultsAttr).
Proof. exact (identifiers_ok lower isdir run ids dir_of nominal). Qed.

Theorem C74_directory dir_of nominal backend dir d :
  fetch_results_dir dir_of nominal backend dir = Ok d <->
  match backend, dir with
  | Some b, None => dir_of b = Ok d
  | None, Some x => x = d
  | None, None => nominal = d
  | Some _, Some _ => False
  end.
Proof. exact (directory_spec dir_of nominal backend dir d). Qed.

Theorem C74_both_rejected dir_of nominal b d : fetch_results_dir dir_of nominal (Some b) (Some d) = Err EResultsAttr.
Proof. exact (both_rejected dir_of nominal b d). Qed.

Theorem C74_directory_refuted : exists isdir run ids, run = ["run1"; "PyGMol"]%string /\ isdir "PyGMol"%string = true /\
  parse_run_identifiers str_lower isdir run = Ok ids /\ ri_dir ids = None /\ ri_backend ids = Some "PyGMol"%string.
Proof. exact directory_named_pygmol. Qed.

(** All theorems of this file at once (one traversal instead of one per
    theorem). *)
Definition all_theorems := (
  @C40_compressed,
  @C40_negative_data_refuted,
  @C41_frames,
  @C41_rejected,
  @C41_no_overshoot,
  @C41_exact_at_samples,
  @C44_output_errors,
  @C44_output_max,
  @C44_overall_max,
  @C44_output_rms,
  @C44_overall_rms,
  @C44_self,
  @C44_zero_iff_equal,
  @C44_below_relative_error,
  @C44_rejected,
  @C72_self_error_refuted,
  @C73_compress_again_refuted,
  @C74_identifiers,
  @C74_directory,
  @C74_both_rejected,
  @C74_directory_refuted).
Print Assumptions all_theorems.
