(** Model of pygmo_fwork/config.py (the workspace directories), of the part of
    pygmo_fwork/results.py that reads logs (L36-73, L74-90, L138-247, L253-288)
    and of global_model.py L149-155, where a run without [log_to] asks the
    configuration for its directory. *)
From Verif Require Import Base Species Reactions Chemistry Morris MorrisStats MorrisRun Tables InitialGuess GlobalModel.

(** ** config.py *)

(** What is at the path of the configuration file: nothing, text that is not
    YAML, a YAML document that is not a mapping, a mapping. Of the values only
    strings are told apart. *)
Inductive cfg_value : Type := VStr (s : string) | VOther.
Inductive cfg_file : Type := CfgMissing | CfgNotYaml | CfgNotDict | CfgDict (l : list (string * cfg_value)).

(** L21-38 [__init__]: [dict(...)] of another document raises TypeError or
    ValueError, which is caught; errors of the YAML parser are not. *)
Definition load_config (f : cfg_file) : res (list (string * cfg_value)) :=
  match f with
  | CfgMissing => Err EConfig
  | CfgNotYaml => Err EYaml
  | CfgNotDict => Err EConfig
  | CfgDict l => Ok l
  end.

(** L40-46 [__getitem__]. *)
Definition cfg_item (l : list (string * cfg_value)) (key : string) : res cfg_value :=
  match sget key l with Some v => Ok v | None => Err EConfig end.

(** [mkdir(parents=True, exist_ok=True)]: the missing directories are made from
    the top down. *)
Definition ancestors (p : path) : list path := map (fun n => firstn n p) (seq 0 (S (List.length p))).
Fixpoint make_dirs (todo : list path) (s : gfs) : gfs * res unit :=
  match todo with
  | [] => (s, Ok tt)
  | p :: l => if isdir s p then make_dirs l s
              else match mkdir p s with
                   | (s', Ok _) => make_dirs l s'
                   | (s', Err e) => (s', Err e)
                   end
  end.
Definition mkdir_parents (p : path) (s : gfs) : gfs * res path :=
  match make_dirs (ancestors p) s with
  | (s', Ok _) => (s', Ok p)
  | (s', Err e) => (s', Err e)
  end.

Section Workspace.
  Variable E : env.
  Variable cfg : cfg_file.
  Variable to_path : string -> path.                  (* pathlib.Path(s), made absolute *)

  (** [Path(self[key])]: a value that is no string raises TypeError. *)
  Definition cfg_path (l : list (string * cfg_value)) (key : string) : res path :=
    let* v := cfg_item l key in
    match v with VStr s => Ok (to_path s) | VOther => Err EType end.

  (** L50-55 [_get_results_root] of a new [Config()]. *)
  Definition results_root : res path :=
    let* l := load_config cfg in
    let* w := cfg_path l "workspace" in
    Ok (w ++ ["results"%string])%list.

  (** L57-71 [Config().get_results_dir(backend_id)]. *)
  Definition results_dir (backend : string) (s : gfs) : gfs * res path :=
    match load_config cfg with
    | Err e => (s, Err e)
    | Ok _ =>
        if negb (memS (str_lower backend) accepted_backends) then (s, Err EGlobalModelAttr)
        else match results_root with
             | Err e => (s, Err e)
             | Ok r => mkdir_parents (r ++ [str_lower backend]) s
             end
    end.

  (** L73-85 [get_globalkin_stage_dir]. *)
  Definition stage_dir (s : gfs) : gfs * res path :=
    match (let* l := load_config cfg in
           let* bin := cfg_path l "globalkin_bin" in
           let* _ := raise_if (negb (isfile s bin)) EConfig in
           cfg_path l "workspace") with
    | Err e => (s, Err e)
    | Ok w => mkdir_parents (w ++ ["globalkin_stage"%string]) s
    end.

  (** L87-96, L98-107. *)
  Definition results_sub (name : string) (s : gfs) : gfs * res path :=
    match results_root with
    | Err e => (s, Err e)
    | Ok r => mkdir_parents (r ++ [name]) s
    end.
  Definition morris_dir : gfs -> gfs * res path := results_sub "morris_sensitivity".
  Definition reduction_dir : gfs -> gfs * res path := results_sub "reduction".

  (** ** results.py: the class ResultsParser *)

  (** L43-58 [_fetch_results_dir] (here with directories that are made). *)
  Definition parser_dir (nominal : path) (backend : option string) (dir : option path) (s : gfs) : gfs * res path :=
    match backend, dir with
    | None, Some d => (s, Ok d)
    | Some b, None => results_dir b s
    | None, None => (s, Ok nominal)
    | Some _, Some _ => (s, Err EResultsAttr)
    end.

  (** L30-39 [__init__]: the nominal directory. *)
  Definition parser_new (backend : option string) (dir : option path) (s : gfs) : gfs * res path :=
    match backend, dir with
    | None, None => results_dir "pygmol" s
    | _, _ => parser_dir [] backend dir s
    end.

  (** L60-73 [_fetch_run_dir] and the common part of the methods below. *)
  Definition fetch_file (log : string) (nominal : path) (run_id : string) (backend : option string) (dir : option path)
      (file_name : option string) (s : gfs) : gfs * res content :=
    let (s', r) := parser_dir nominal backend dir s in
    (s', let* d := r in
         let* n := match file_name with Some n => Ok n | None => log_name log end in
         match fget (run_path d run_id ++ [n]) (fs_files s') with
         | Some c => Ok c
         | None => Err EResultsNotFound
         end).

  (** [pd.read_csv(path, index_col=0)]: an empty file raises EmptyDataError, a
      ValueError; what the other logs give is left open ([other_csv]).
      Simplification: numbers are read back as they were written. *)
  Variable other_csv : content -> res table.
  Definition read_csv (c : content) : res table :=
    match c with CTable t => Ok t | CEmpty => Err EValue | c => other_csv c end.

  (** L138-161 [fetch_solution], L195-219 [fetch_wall_fluxes]. *)
  Definition fetch_table (log : string) (nominal : path) (run_id : string) (backend : option string) (dir : option path)
      (file_name : option string) (s : gfs) : gfs * res table :=
    let (s', r) := fetch_file log nominal run_id backend dir file_name s in (s', let* c := r in read_csv c).
  Definition fetch_solution := fetch_table "solution".
  Definition fetch_wall_fluxes := fetch_table "wall_fluxes".

  (** L163-193 [fetch_rates]: the labels but the first are made integers. *)
  Inductive label : Type := LName (s : string) | LId (z : Z).
  Record frame : Type := MkFrame { fr_cols : list label; fr_rows : list (Z * list Q) }.
  Definition int_label (s : string) : res label :=
    match iparse E s with Some z => Ok (LId z) | None => Err EValue end.
  Definition relabel (t : table) : res frame :=
    let* cols := match tb_cols t with
                 | [] => Ok []
                 | c :: l => let* l' := mapM int_label l in Ok (LName c :: l')
                 end in
    Ok (MkFrame cols (map (fun r => (fst r, map (snd r) (tb_cols t))) (tb_rows t))).
  Definition fetch_rates (nominal : path) (run_id : string) (backend : option string) (dir : option path)
      (file_name : option string) (s : gfs) : gfs * res frame :=
    let (s', r) := fetch_table "rates" nominal run_id backend dir file_name s in (s', let* t := r in relabel t).

  (** L74-90 [_fetch_model_attributes]: an empty YAML file is None, which
      cannot be indexed; no other log has the keys looked up ([other_yaml] is
      the exception raised). *)
  Variable other_yaml : content -> exn.
  Definition model_attributes (c : content) : res (gparams * (Q * list (string * Q))) :=
    match c with
    | CModel p te i => Ok (p, (te, i))
    | CEmpty => Err EType
    | c => Err (other_yaml c)
    end.
  Definition fetch_attributes (nominal : path) (run_id : string) (backend : option string) (dir : option path)
      (file_name : option string) (s : gfs) : gfs * res (gparams * (Q * list (string * Q))) :=
    let (s', r) := fetch_file "model_attributes" nominal run_id backend dir file_name s in (s', let* c := r in model_attributes c).
  (** L253-270 [fetch_model_params], L272-288 [fetch_initial_params]. *)
  Definition fetch_model_params nominal run_id backend dir file_name s : gfs * res gparams :=
    let (s', r) := fetch_attributes nominal run_id backend dir file_name s in (s', let* a := r in Ok (fst a)).
  Definition fetch_initial_params nominal run_id backend dir file_name s : gfs * res (Q * list (string * Q)) :=
    let (s', r) := fetch_attributes nominal run_id backend dir file_name s in (s', let* a := r in Ok (snd a)).

  (** ** Histories *)
  Variable fhash : string -> option string.
  Variable scan : list path -> list path.

  (** What happens in a workspace: steps of a global model, queries for
      directories and readers of logs, which may make directories. *)
  Inductive wop : Type :=
  | WModel (o : gop)
  | WResults (backend : string) | WStage | WMorris | WReduction
  | WRead (backend : option string) (dir : option path).

  (** global_model.py L149-153: when a run asks for the default directory. *)
  Definition asks (w : world) (o : gop) : option string :=
    match o, w_obj w with
    | GRun a _, Some g =>
        match ra_log a, ra_id a, ra_to a with true, Some _, None => Some (gm_backend g) | _, _, _ => None end
    | _, _ => None
    end.

  (** A step of the model; the directory is made before the other checks. *)
  Definition model_step (w : world) (b : option nat) (o : gop) : world * outcome :=
    match asks w o with
    | Some backend =>
        let (s, r) := results_dir backend (w_fs w) in
        gstep E fhash (fun _ => r) scan (MkWorld (w_obj w) s) (b, o)
    | None => gstep E fhash (fun _ => Err EConfig) scan w (b, o)
    end.

  Definition in_fs {A} (w : world) (r : gfs * res A) : world * outcome :=
    (MkWorld (w_obj w) (fst r), match snd r with Ok _ => Finished | Err e => Failed e end).

  Definition wstep (w : world) (bo : option nat * wop) : world * outcome :=
    match snd bo with
    | WModel o => model_step w (fst bo) o
    | WResults b => in_fs w (results_dir b (w_fs w))
    | WStage => in_fs w (stage_dir (w_fs w))
    | WMorris => in_fs w (morris_dir (w_fs w))
    | WReduction => in_fs w (reduction_dir (w_fs w))
    | WRead b d => in_fs w (parser_new b d (w_fs w))
    end.
  Definition whistory (w : world) (l : list (option nat * wop)) : world := fold_left (fun w bo => fst (wstep w bo)) l w.
End Workspace.
