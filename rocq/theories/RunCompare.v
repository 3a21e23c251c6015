(** Model of the comparison of logged runs, pygmo_fwork/results.py L559-614
    [compare], and of L526-555 [plot_solution]. Printing and the layout of the
    plot are left out. Run ids have no slash. *)
From Verif Require Import Base BaseLemmas Species Reactions Chemistry Morris MorrisStats MorrisRun Tables InitialGuess GlobalModel Workspace.
Open Scope Q_scope.

(** [os.path.split(s)[-1]]: what follows the last slash. *)
Definition slash : ascii := "/"%char.
Fixpoint after_slash (l : list ascii) : list ascii :=
  match l with
  | [] => []
  | c :: l' => if existsb (Ascii.eqb slash) l' then after_slash l' else if Ascii.eqb c slash then l' else l
  end.
Definition base_name (s : string) : string := str_of (after_slash (chars s)).

(** L590-600: the label of a run. *)
Definition run_parent (nominal : path) (ids : run_ids) : string :=
  match ri_backend ids, ri_dir ids with
  | Some b, _ => b
  | None, Some d => base_name d
  | None, None => last nominal ""%string
  end.
Definition cut_name (s : string) : string :=
  if Nat.ltb 40 (String.length s) then ("..." ++ str_of (skipn (String.length s - 40) (chars s)))%string else s.
Definition run_label (nominal : path) (ids : run_ids) : string :=
  cut_name ("..." ++ run_parent nominal ids ++ "/" ++ ri_run ids)%string.

(** L602: [solution.iloc[-1]]. *)
Definition final_values (t : table) : res (list (string * Q)) :=
  match rev (tb_rows t) with
  | [] => Err EIndex
  | r :: _ => Ok (map (fun c => (c, snd r c)) (tb_cols t))
  end.

Record cframe : Type := MkCf { cf_cols : list string; cf_rows : list (string * list flt) }.

(** L604: [pd.DataFrame] of a list of Series: the labels in the order of
    their first appearance; what a run does not have is NaN. *)
Definition all_cols (l : list (string * list (string * Q))) : list string :=
  fold_left (fun acc r => acc ++ filter (fun c => negb (memS c acc)) (map fst (snd r)))%list l [].
Definition cell (c : string) (r : list (string * Q)) : flt := match sget c r with Some v => Fin v | None => NaN end.
Definition build_frame (l : list (string * list (string * Q))) : cframe :=
  MkCf (all_cols l) (map (fun r => (fst r, map (fun c => cell c (snd r)) (all_cols l))) l).

(** L606-607. *)
Definition fquot (x y : flt) : flt := match y with Fin q => fdivq x q | _ => NaN end.
Definition rel_diff (first x : flt) : flt := fmul (fquot (fsub x first) first) (Fin 100).
Definition relative (f : cframe) : res cframe :=
  match cf_rows f with
  | [] => Err EIndex
  | r0 :: _ => Ok (MkCf (cf_cols f) (map (fun r => (fst r, map (fun p => rel_diff (fst p) (snd p)) (combine (snd r0) (snd r)))) (cf_rows f)))
  end.

Section Parser.
  Variables (cfg : cfg_file) (to_path : string -> path) (other_csv : content -> res table).

  (** L585-603, one run. *)
  Definition compare_one (nominal : path) (run : list string) (s : gfs) : gfs * res (string * list (string * Q)) :=
    match parse_run_identifiers str_lower (fun d => isdir s (to_path d)) run with
    | Err e => (s, Err e)
    | Ok ids =>
        let (s', r) := fetch_solution cfg to_path other_csv nominal (ri_run ids) (ri_backend ids) (option_map to_path (ri_dir ids)) (ri_file ids) s in
        (s', let* t := r in let* v := final_values t in Ok (run_label nominal ids, v))
    end.
  Fixpoint compare_each (nominal : path) (runs : list (list string)) (s : gfs) : gfs * res (list (string * list (string * Q))) :=
    match runs with
    | [] => (s, Ok [])
    | run :: runs' =>
        match compare_one nominal run s with
        | (s', Err e) => (s', Err e)
        | (s', Ok x) => let (s2, r) := compare_each nominal runs' s' in (s2, let* l := r in Ok (x :: l))
        end
    end.
  (** L559-614 [compare]. *)
  Definition compare (nominal : path) (runs : list (list string)) (relative_to_first : bool) (s : gfs) : gfs * res cframe :=
    let (s', r) := compare_each nominal runs s in
    (s', let* l := r in if relative_to_first then relative (build_frame l) else Ok (build_frame l)).

  (** L541-542: [list(sol.columns)[1:-4]]. *)
  Definition default_columns (cols : list string) : list string := tl (firstn (List.length cols - 4) cols).
  (** One curve. *)
  Definition curve (t : table) (param : string) : res (string * list (Q * Q)) :=
    let* _ := raise_if (negb (memS "t" (tb_cols t)) || negb (memS param (tb_cols t))) EKey in
    Ok (param, points_of (tb_rows t) param).
  (** L526-555 [plot_solution]: the curves, and if the axis is labelled for
      densities only. *)
  Definition plot_solution (nominal : path) (run_id : string) (to_plot : list string) (backend : option string) (dir : option path)
      (file_name : option string) (s : gfs) : gfs * res (list (string * list (Q * Q)) * bool) :=
    let (s', r) := fetch_solution cfg to_path other_csv nominal run_id backend dir file_name s in
    (s', let* t := r in
         let cols := match to_plot with [] => default_columns (tb_cols t) | l => l end in
         let* cs := mapM (curve t) cols in
         Ok (cs, negb (existsb (fun x => memS x cols) ["p"; "Te"; "Tg"]%string))).
End Parser.
