(** What is claimed about comparisons of logged runs. *)
From Verif Require Import Base Species Reactions Chemistry Morris MorrisStats MorrisRun Tables InitialGuess GlobalModel GlobalSpec Workspace RunCompare.
Open Scope Q_scope.

(** Directories may have been made, the files are the same. *)
Definition grown (s s' : gfs) : Prop := fs_files s' = fs_files s /\ forall d, isdir s d = true -> isdir s' d = true.

(** The label of a run: its directory and its id, or the last 40 characters. *)
Definition labelled (parent id label : string) : Prop :=
  let name := ("..." ++ parent ++ "/" ++ id)%string in
  ((String.length name <= 40)%nat /\ label = name) \/
  ((String.length name > 40)%nat /\ exists a b, name = (a ++ b)%string /\ String.length b = 40%nat /\ label = ("..." ++ b)%string).

(** The last component of a path. *)
Definition last_part (d p : string) : Prop :=
  (forall a b, p <> (a ++ "/" ++ b)%string) /\ (d = p \/ exists a, d = (a ++ "/" ++ p)%string).

(** The run was read as the solution [t] while the file system grew from [s]
    to [s']. *)
Definition found cfg to_path other_csv (nominal : path) (s s' : gfs) (run : list string) (lt : string * table) : Prop :=
  exists s1 s2 ids parent, grown s s1 /\ grown s1 s2 /\ grown s2 s' /\
    parse_run_identifiers str_lower (fun d => isdir s1 (to_path d)) run = Ok ids /\
    fetch_solution cfg to_path other_csv nominal (ri_run ids) (ri_backend ids) (option_map to_path (ri_dir ids)) (ri_file ids) s1 = (s2, Ok (snd lt)) /\
    match ri_backend ids, ri_dir ids with
    | Some b, _ => parent = b
    | None, Some d => last_part d parent
    | None, None => parent = last nominal ""%string
    end /\
    labelled parent (ri_run ids) (fst lt).

(** The value of the column [c] in the last row of [t]. *)
Definition last_value (t : table) (c : string) (v : flt) : Prop :=
  (In c (tb_cols t) /\ exists rows z r, tb_rows t = (rows ++ [(z, r)])%list /\ v = Fin (r c)) \/ (~ In c (tb_cols t) /\ v = NaN).

(** The frame has the columns of all runs, those of the first one first, and
    one row per run. *)
Record frame_of (ts : list (string * table)) (f : cframe) : Prop := {
  fo_nodup : NoDup (cf_cols f);
  fo_cols : forall c, In c (cf_cols f) <-> exists lt, In lt ts /\ In c (tb_cols (snd lt));
  fo_first : forall lt l, ts = lt :: l -> exists more, cf_cols f = (tb_cols (snd lt) ++ more)%list;
  fo_rows : Forall2 (fun lt r => fst r = fst lt /\ Forall2 (fun c v => last_value (snd lt) c v) (cf_cols f) (snd r)) ts (cf_rows f)
}.

(** The difference of [x] to [x0] in percent of [x0]. *)
Definition percent_of (x0 x d : flt) : Prop :=
  match x0, x with
  | Fin a, Fin b =>
      if Qeq_bool a 0 then (b == 0 /\ d = NaN) \/ (0 < b /\ d = PInf) \/ (b < 0 /\ d = NInf)
      else exists q, d = Fin q /\ q * a == 100 * (b - a)
  | _, _ => d = NaN
  end.

(** A run that is read without changing anything. *)
Definition readable cfg to_path other_csv (nominal : path) (s : gfs) (run : list string) : Prop :=
  exists ids t, parse_run_identifiers str_lower (fun d => isdir s (to_path d)) run = Ok ids /\
    fetch_solution cfg to_path other_csv nominal (ri_run ids) (ri_backend ids) (option_map to_path (ri_dir ids)) (ri_file ids) s = (s, Ok t) /\
    tb_rows t <> [].

(** A run that cannot be read. *)
Definition unreadable cfg to_path other_csv (nominal : path) (s s' : gfs) (run : list string) (e : exn) : Prop :=
  match parse_run_identifiers str_lower (fun d => isdir s (to_path d)) run with
  | Err e' => e = e' /\ s' = s
  | Ok ids =>
      let out := fetch_solution cfg to_path other_csv nominal (ri_run ids) (ri_backend ids) (option_map to_path (ri_dir ids)) (ri_file ids) s in
      fst out = s' /\ (snd out = Err e \/ exists t, snd out = Ok t /\ tb_rows t = [] /\ e = EIndex)
  end.

(** The points of the column [p] in time. *)
Definition points_in_time (t : table) (p : string) : list (Q * Q) := map (fun row => (snd row "t"%string, snd row p)) (tb_rows t).
