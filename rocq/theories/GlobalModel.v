(** Model of pygmo_fwork/global_model.py: construction, [run], [success],
    [log_results], [check_convergency], the getters, and of the part of
    pygmo_fwork/pygmol/model.py they call ([Model.run], L270-290). The solver
    and the file hashes are oracles. Printing is not modelled. *)
From Coq Require Import Qabs.
From Verif Require Import Base Species Reactions Chemistry Morris MorrisStats MorrisRun Tables InitialGuess.
Open Scope Q_scope.

(** What the solver returns: the densities with the derived columns
    ([sol_secondary]), per time the values of the reaction rates and of the
    wall fluxes, and the statistics written by [dump_logs]. Simplification:
    rates and fluxes belong to the stored equations and vectors and are listed
    here once (the code evaluates the stored equations at every call). *)
Definition matrix := list (Q * list Q).
Record raw : Type := MkRaw { rw_sol : table; rw_rates : matrix; rw_flux : matrix; rw_log : Z }.

(** A stored solution; [st_nsp], [st_nr] are the numbers of species and
    reactions of the equations that were solved. *)
Record stored : Type := MkStored { st_raw : raw; st_nsp : nat; st_nr : nat }.

Definition names_of (c : chem) : list string := map sp_name (get_species c false false true).

(** A labelled data frame with the column of times first. *)
Definition to_table (cols : list string) (m : matrix) : table :=
  MkTable ("t"%string :: cols)
    (combine (map Z.of_nat (seq 0 (List.length m)))
       (map (fun r => fun col => if String.eqb col "t" then fst r else match sget col (combine cols (snd r)) with Some q => q | None => 0 end) m)).

(** model.py L247-256: the labels of [diagnose], found by the number of
    columns; the labels themselves are those of the chemistry as it is now. *)
Definition labels_for (E : env) (c : chem) (nsp nr width : nat) : list string :=
  if Nat.eqb width nsp then names_of c
  else if Nat.eqb width nr then map (fun r => ishow E (rx_id r)) (get_reactions c false)
  else if Nat.eqb width (S nsp) then (names_of c ++ ["rho"%string])%list
  else ["value"%string].

(** model.py L229-261 without totals: assigning labels of another length
    raises ValueError. *)
Definition diagnose (E : env) (c : chem) (so : stored) (width : nat) (m : matrix) : res table :=
  let labels := labels_for E c (st_nsp so) (st_nr so) width in
  if Nat.eqb (List.length labels) width then Ok (to_table labels m) else Err EValue.

(** ** Files *)

Definition path := list string.

(** A row of a reduction history (optichem/reduction.py L78-83) without the
    rms errors; missing errors are NaN. *)
Record hrow : Type := MkRow {
  h_run : option string; h_species : option string; h_score : option Q; h_success : option bool;
  h_more : list string;                               (* the names in rm_additional *)
  h_removed : Z; h_left : Z; h_base : flt; h_last : flt
}.

Inductive content : Type :=
| CEmpty                                              (* opened, nothing written yet *)
| CTable (t : table)
| CAttrs (a : cattrs)
| CModel (p : gparams) (el_temp : Q) (init_n : list (string * Q))
| CLog (z : Z)
| CMeta (outs : list string) (times : list Q) (max_error : Q)      (* of a reduction run *)
| CHist (rows : list hrow).

Record gfs : Type := MkGfs { fs_dirs : list path; fs_files : list (path * content) }.

Fixpoint path_eqb (a b : path) : bool :=
  match a, b with
  | [], [] => true
  | x :: a', y :: b' => String.eqb x y && path_eqb a' b'
  | _, _ => false
  end.
Fixpoint under (p q : path) : bool :=                 (* q is p or lies below p *)
  match p, q with
  | [], _ => true
  | x :: p', y :: q' => String.eqb x y && under p' q'
  | _ :: _, [] => false
  end.

Notation fget := (aget path_eqb).
Notation fset := (aset path_eqb).

Definition isdir (s : gfs) (p : path) : bool := existsb (path_eqb p) (fs_dirs s).
Definition isfile (s : gfs) (p : path) : bool := match fget p (fs_files s) with Some _ => true | None => false end.

(** [os.mkdir]. *)
Definition mkdir (p : path) (s : gfs) : gfs * res unit :=
  if isdir s p || isfile s p || negb (isdir s (removelast p)) then (s, Err EOS)
  else (MkGfs (p :: fs_dirs s) (fs_files s), Ok tt).

(** The two kinds of steps of [shutil.rmtree]: files are removed one by one;
    simplification: the then empty directories go in one step. *)
Definition rm_file (p : path) (s : gfs) : gfs * res unit :=
  (MkGfs (fs_dirs s) (filter (fun q => negb (path_eqb p (fst q))) (fs_files s)), Ok tt).
Definition rm_dirs (p : path) (s : gfs) : gfs * res unit :=
  (MkGfs (filter (fun q => negb (under p q)) (fs_dirs s)) (fs_files s), Ok tt).

(** Writing to an opened file; [open(..., 'w')] writes nothing. *)
Definition put (p : path) (c : content) (s : gfs) : gfs * res unit :=
  if negb (isdir s (removelast p)) || isdir s p then (s, Err EOS)
  else (MkGfs (fs_dirs s) (fset p c (fs_files s)), Ok tt).

(** [os.path.join(dir, run_id)] for a run id without path separators other
    than the empty string. *)
Definition run_path (dir : path) (run_id : string) : path :=
  if String.eqb run_id "" then dir else (dir ++ [run_id])%list.

(** config.py L113-125 [default_log_name] for the logs used here. *)
Definition log_name (log : string) : res string :=
  if memS log ["solution"; "rates"; "wall_fluxes"]%string then Ok (log ++ ".csv")%string
  else if memS log ["model_attributes"; "chemistry_attributes"; "solver_log"]%string then Ok (log ++ ".yaml")%string
  else Err EAssertion.

Definition action := gfs -> gfs * res unit.

(** A file: opened, then filled with what is computed. *)
Definition act_file (p : path) (log : string) (c : res content) : list action :=
  [ fun s => match log_name log with Ok n => put (p ++ [n]) CEmpty s | Err e => (s, Err e) end;
    fun s => match log_name log, c with
             | Ok n, Ok c => put (p ++ [n]) c s
             | Err e, _ | _, Err e => (s, Err e)
             end ].

(** [scan] is the order in which the directory is listed. *)
Definition rmtree (scan : list path -> list path) (p : path) (s : gfs) : list action :=
  (map rm_file (scan (filter (under p) (map fst (fs_files s)))) ++ [rm_dirs p])%list.

Inductive outcome := Finished | Failed (e : exn) | Crashed.

(** [budget]: the number of steps after which the process dies, if it does. *)
Fixpoint exec (budget : option nat) (l : list action) (s : gfs) : gfs * outcome :=
  match l with
  | [] => (s, Finished)
  | a :: l' =>
      match budget with
      | Some O => (s, Crashed)
      | _ => match a s with
             | (s', Err e) => (s', Failed e)
             | (s', Ok tt) => exec (option_map pred budget) l' s'
             end
      end
  end.

(** ** Objects *)

(** A PyGMol model: shared chemistry, parameters, last stored solution. *)
Record bmodel : Type := MkBm { bm_chem : chem; bm_par : gparams; bm_data : option stored }.

(** A GlobalModel instance; [gm_model] is None after a failed [__init__]. *)
Record gmodel : Type := MkGm { gm_backend : string; gm_model : option bmodel; gm_last : option bool }.

(** What solving does: building the equations or the solver raises (leaving
    possibly a half processed solution behind), or the solver returns with its
    [success] flag. *)
Inductive solving : Type := SRaise (e : exn) (rest : option stored) | SDone (success : bool) (d : raw).

Record run_args : Type := MkRun {
  ra_id : option string;              (* None: not a str *)
  ra_temp : Q; ra_init : option (list (string * Q));
  ra_log : bool; ra_to : option path; ra_over : bool; ra_compress : bool
}.

Section Global.
  Variable E : env.
  Variable fhash : string -> option string.
  Variable default_dir : string -> res path.          (* Config().get_results_dir *)
  Variable scan : list path -> list path.             (* the order of os.scandir *)

  (** global_model.py L39-70 [__init__]; [par] is what building the back-end
      model with the given parameters yields. [old] is the object being
      initialised when called by [reload_model_parameters]. *)
  Definition gm_init (backend : string) (c : chem) (par : res gparams) (last : option bool) : gmodel * res unit :=
    let broken := MkGm backend None last in
    if negb (memS (str_lower backend) accepted_backends) then (broken, Err EGlobalModelAttr)
    else if String.eqb (str_lower backend) "pygmol" then
      match par with
      | Err e => (broken, Err e)
      | Ok p => (MkGm backend (Some (MkBm c p None)) None, Ok tt)
      end
    else (broken, Err ENotImplemented).

  (** L72-78 [reload_model_parameters]. *)
  Definition reload (g : gmodel) (par : res gparams) : gmodel * res unit :=
    match gm_model g with
    | None => (g, Err EAttribute)
    | Some m => gm_init (gm_backend g) (bm_chem m) par (gm_last g)
    end.

  (** L214-228. *)
  Definition success (g : gmodel) : res bool :=
    match gm_last g with None => Err EBackendNoRun | Some b => Ok b end.
  Definition assert_success (g : gmodel) : res unit :=
    let* b := success g in raise_if (negb b) EBackendUnsuccessful.

  (** L342-380 and model.py L292-306. *)
  Definition get_stored (g : gmodel) : res (chem * stored) :=
    let* _ := assert_success g in
    match gm_model g with
    | None => Err EAttribute
    | Some m => match bm_data m with None => Err EModelSolution | Some d => Ok (bm_chem m, d) end
    end.
  Definition get_solution (g : gmodel) : res table :=
    let* d := get_stored g in Ok (rw_sol (st_raw (snd d))).
  Definition get_rates (g : gmodel) : res table :=
    let* d := get_stored g in diagnose E (fst d) (snd d) (st_nr (snd d)) (rw_rates (st_raw (snd d))).
  Definition get_wall_fluxes (g : gmodel) : res table :=
    let* d := get_stored g in diagnose E (fst d) (snd d) (st_nsp (snd d)) (rw_flux (st_raw (snd d))).

  (** L251-258: the tables to be logged. *)
  Record tables : Type := MkTabs { tb_sol : table; tb_rates : table; tb_flux : table; tb_log : Z }.
  Definition compressed (b : bool) (t : table) : res table :=
    if b then compress_solution t (1 # 20) (1 # 1000) else Ok t.
  Definition log_tables (compress : bool) (g : gmodel) : res tables :=
    let* d := get_stored g in
    let* s := get_solution g in
    let* r := get_rates g in
    let* w := get_wall_fluxes g in
    let* s' := compressed compress s in
    let* r' := compressed compress r in
    let* w' := compressed compress w in
    Ok (MkTabs s' r' w' (rw_log (st_raw (snd d)))).

  (** L250-280: the files of a run, in order. *)
  Definition log_files (m : bmodel) (el_temp : Q) (init_n : list (string * Q)) (p : path) (d : tables) : list action :=
    (act_file p "solution" (Ok (CTable (tb_sol d))) ++
     act_file p "rates" (Ok (CTable (tb_rates d))) ++
     act_file p "wall_fluxes" (Ok (CTable (tb_flux d))) ++
     act_file p "chemistry_attributes" (let* a := chemistry_attributes E fhash (bm_chem m) in Ok (CAttrs a)) ++
     act_file p "model_attributes" (Ok (CModel (bm_par m) el_temp init_n)) ++
     act_file p "solver_log" (Ok (CLog (tb_log d))))%list.

  (** L230-280 [log_results]. *)
  Definition log_results (budget : option nat) (g : gmodel) (run_id : string) (dir : path) (el_temp : Q) (init_n : list (string * Q))
      (overwrite compress : bool) (s : gfs) : gfs * outcome :=
    match assert_success g with
    | Err e => (s, Failed e)
    | Ok _ =>
        let p := run_path dir run_id in
        if negb (isdir s dir) then (s, Failed EGlobalModelLog)
        else if isdir s p && negb overwrite then (s, Failed EGlobalModelLog)
        else
          let start := ((if isdir s p then rmtree scan p s else []) ++ [mkdir p])%list in
          match gm_model g, log_tables compress g with
          | Some m, Ok d => exec budget (start ++ log_files m el_temp init_n p d) s
          | _, Err e => exec budget (start ++ [fun s => (s, Err e)]) s
          | None, Ok _ => (s, Failed EAttribute)
          end
    end.

  (** model.py L270-290 [Model.run] with [_solve]. *)
  Definition pygmol_run (m : bmodel) (el_temp : Q) (init_n : list (string * Q)) (o : solving) : bmodel * res bool :=
    match (let* y0 := y0_from_init_params (bm_chem m) (bm_par m) el_temp (Some init_n) in validate_y0 (bm_chem m) y0) with
    | Err e => (m, Err e)
    | Ok _ =>
        match o with
        | SRaise e rest => (MkBm (bm_chem m) (bm_par m) (match rest with Some d => Some d | None => bm_data m end), Err e)
        | SDone b d =>
            let nsp := List.length (names_of (bm_chem m)) in
            let nr := List.length (get_reactions (bm_chem m) false) in
            let m' := MkBm (bm_chem m) (bm_par m) (Some (MkStored d nsp nr)) in
            (* model.py L224: [self.diagnose('total_pressure')['value']] *)
            if negb (memS "value" (labels_for E (bm_chem m) nsp nr 1)) then (m', Err EKey)
            else (m', if b then Ok true else Err EModelSolution)
        end
    end.

  (** L143-196 of [run]: everything before the logging. Result: where to log
      and the initial densities. *)
  Definition run_checks (g : gmodel) (a : run_args) (s : gfs) : res (option (string * path) * list (string * Q)) :=
    let* target :=
      if ra_log a then
        match ra_id a with
        | None => Err EGlobalModelAttr
        | Some id =>
            let* d := match ra_to a with Some d => Ok d | None => default_dir (gm_backend g) end in
            if isdir s d then Ok (Some (id, d)) else Err EGlobalModelLog
        end
      else Ok None in
    let* _ := raise_if (Qle_bool (ra_temp a) 0) EInitialGuess in
    match gm_model g with
    | None => Err EAttribute
    | Some m =>
        match ra_init a with
        | None => let* i := generate_initial_n (bm_chem m) (bm_par m) default_fractions in Ok (target, i)
        | Some i => let* _ := validate_initial_n (bm_chem m) i in Ok (target, i)
        end
    end.

  (** L143-212 [run]. *)
  Definition gm_run (budget : option nat) (g : gmodel) (a : run_args) (o : solving) (s : gfs) : gmodel * gfs * outcome :=
    let failed := MkGm (gm_backend g) (gm_model g) (Some false) in
    match run_checks g a s with
    | Err e => (failed, s, Failed e)
    | Ok (target, init_n) =>
        match gm_model g with
        | None => (failed, s, Failed EAttribute)
        | Some m =>
            match pygmol_run m (ra_temp a) init_n o with
            | (m', Err e) => (MkGm (gm_backend g) (Some m') (Some false), s, Failed e)
            | (m', Ok b) =>
                let g' := MkGm (gm_backend g) (Some m') (Some b) in
                match target, b with
                | Some (id, d), true =>
                    let (s', r) := log_results budget g' id d (ra_temp a) init_n (ra_over a) (ra_compress a) s in (g', s', r)
                | _, _ => (g', s, Finished)
                end
            end
        end
    end.

  (** ** Histories *)

  Inductive gop : Type :=
  | GNew (backend : string) (c : chem) (par : res gparams)       (* a new process or object *)
  | GReload (par : res gparams)
  | GRun (a : run_args) (o : solving)
  | GLog (run_id : string) (dir : path) (el_temp : Q) (init_n : list (string * Q)) (overwrite compress : bool)
  | GChem (o : op).                                             (* the user changes the chemistry *)

  (** The process: the object, if there is one, and the files. After a crash
      there is no object. *)
  Record world : Type := MkWorld { w_obj : option gmodel; w_fs : gfs }.

  Definition alive (g : gmodel) (o : outcome) : option gmodel := match o with Crashed => None | _ => Some g end.

  Definition gstep (w : world) (bo : option nat * gop) : world * outcome :=
    match snd bo, w_obj w with
    | GNew backend c par, _ =>
        (* an exception in the constructor leaves no object *)
        match gm_init backend c par None with
        | (g, Ok _) => (MkWorld (Some g) (w_fs w), Finished)
        | (_, Err e) => (MkWorld None (w_fs w), Failed e)
        end
    | _, None => (w, Failed EAttribute)
    | GReload par, Some g =>
        match reload g par with
        | (g', Ok _) => (MkWorld (Some g') (w_fs w), Finished)
        | (g', Err e) => (MkWorld (Some g') (w_fs w), Failed e)
        end
    | GRun a o, Some g => match gm_run (fst bo) g a o (w_fs w) with (g', s', r) => (MkWorld (alive g' r) s', r) end
    | GLog id d te i ow co, Some g =>
        match log_results (fst bo) g id d te i ow co (w_fs w) with (s', r) => (MkWorld (alive g r) s', r) end
    | GChem o, Some g =>
        match gm_model g with
        | None => (w, Finished)
        | Some m => (MkWorld (Some (MkGm (gm_backend g) (Some (MkBm (fst (step E (bm_chem m) o)) (bm_par m) (bm_data m))) (gm_last g))) (w_fs w),
                     Finished)
        end
    end.

  Definition ghistory (w : world) (l : list (option nat * gop)) : world := fold_left (fun w bo => fst (gstep w bo)) l w.

  (** What a user holding the object gets. *)
  Definition served {A} (get : gmodel -> res A) (w : world) : res A :=
    match w_obj w with None => Err EAttribute | Some g => get g end.
End Global.

(** ** L282-338 check_convergency *)

(** [np.isclose(a, b, rtol=0.05)]. *)
Definition isclose (a b : Q) : bool := Qle_bool (Qabs (a - b)) ((1 # 100000000) + (1 # 20) * Qabs b).

(** First message of the list: did the run stop early? *)
Definition stopped_early (tb : table) (t_end0 : Q) : res bool :=
  let* t := last_time (tb_rows tb) in Ok (Qltb t t_end0 && negb (isclose t t_end0)).

Definition fleb (x y : flt) : bool := fltb x y || feqb x y.

(** The returned Series: one flag per column but the time. Requires columns
    of finite numbers. *)
Definition check_convergency (tb : table) (eps timewindow : Q) : res (list (string * bool)) :=
  let* _ := raise_if (negb (memS "t" (tb_cols tb))) EKey in
  let* t_end := last_time (tb_rows tb) in
  let t_start := t_end - t_end * timewindow in
  let flag col :=
    let* v_end := match rev (tb_rows tb) with [] => Err EIndex | r :: _ => Ok (snd r col) end in
    let* v_start := interp t_start (points_of (tb_rows tb) col) in
    Ok (col, fleb (fabs (fmul (fdivq (Fin (v_end - v_start)) (v_end + v_start)) (Fin 2))) (Fin eps)) in
  mapM flag (filter (fun c => negb (String.eqb c "t")) (tb_cols tb)).
