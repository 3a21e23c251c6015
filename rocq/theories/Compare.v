(** Model of the comparison of reduction runs: pygmo_fwork/optichem/reduction.py
    L386-512 [compare_reduction_runs]. The figure is the list of what is
    drawn and the limits of the axes; fonts, line widths, grid, axis labels
    and the legend are left out. At least one run is passed. The frame read
    back from a csv file is identified with the written one (a species with a
    name pandas reads as missing, such as 'NA', is not considered). *)
From Verif Require Import Base BaseLemmas Species Reactions Chemistry Latex Morris MorrisStats Tables InitialGuess GlobalModel Reduction.
Open Scope Q_scope.

(** The arguments of L386-391; [None] where nothing was passed. *)
Record plot_args : Type := MkPlot {
  pa_styles : option (list string);                 (* line_styles_success *)
  pa_dead_styles : option (list string);            (* line_styles_unsuccess *)
  pa_labels : option (list string);
  pa_annotate : bool;
  pa_dead_ends : bool;
  pa_endpoints : bool;
  pa_plot_max : bool;
  pa_xlim : option (Q * Q);
  pa_ylim : option (Q * Q);
  pa_names : list (string * string);                (* spcs_annotations *)
  pa_shift : Q * Q                                  (* annotations_shift *)
}.
(** The default values. *)
Definition default_args : plot_args :=
  MkPlot None None None false true false true None None [] (1 # 20, - (45 # 100)).

(** What is drawn: lines through points, and texts. *)
Inductive drawing : Type :=
| DLine (points : list (Q * flt)) (style : string) (label : option string)
| DText (text : string) (at_ : Q * flt) (colour : string).

Record figure : Type := MkFig { fig_draw : list drawing; fig_xlim : Q * Q; fig_ylim : Q * Q }.

(** L392-395: [10 * [...]]. *)
Definition ten_times (l : list string) : list string := List.concat (repeat l 10).
Definition default_styles : list string := ten_times ["b-o"; "g-o"; "r-o"; "c-o"; "m-o"; "y-o"; "k-o"]%string.
Definition default_dead_styles : list string := ten_times ["b:X"; "g:X"; "r:X"; "c:X"; "m:X"; "y:X"; "k:X"]%string.

Definition or_default {A} (o : option A) (d : A) : A := match o with Some x => x | None => d end.

(** L420-428 [prettify_species_name]. *)
Definition pretty_pairs : list (string * string) :=
  map (fun c => (c, ("$^{" ++ c ++ "}$")%string)) ["+"; "-"]%string ++
  map (fun c => (c, ("$_{" ++ c ++ "}$")%string)) ["1"; "2"; "3"; "4"; "5"; "6"; "7"; "8"; "9"]%string.
Definition prettify (names : list (string * string)) (raw : string) : string :=
  match sget raw names with
  | Some s => s
  | None => str_of (replace_all pretty_pairs (chars raw))
  end.

(** L411-418: the history and the allowed error of one run. *)
Definition read_run (s : gfs) (p : path) : res (list hrow * Q) :=
  match fget (p ++ ["reduction_history.csv"%string])%list (fs_files s) with
  | Some (CHist h) =>
      match fget (p ++ ["meta.yaml"%string])%list (fs_files s) with
      | Some (CMeta _ _ m) => Ok (h, m)
      | Some _ => Err EType
      | None => Err EOS
      end
  | Some _ => Err EKey
  | None => Err EOS
  end.

(** L411-418, the runs after the first: the same allowed error. *)
Fixpoint read_runs (s : gfs) (m : Q) (ps : list path) : res (list (list hrow)) :=
  match ps with
  | [] => Ok []
  | p :: ps' =>
      let* hm := read_run s p in
      let* _ := raise_if (negb (Qeq_bool m (snd hm))) EAssertion in
      let* hs := read_runs s m ps' in
      Ok (fst hm :: hs)
  end.

(** L443, L471: the masks. A missing [rm_success] cannot occur in a logged
    history; it counts as not successful. *)
Definition succeeded (r : hrow) : bool := match h_success r with Some b => b | None => false end.
Definition on_line (m : Q) (r : hrow) : bool := succeeded r && fleb (h_base r) (Fin (m / 100)).
Definition dead_end (m : Q) (r : hrow) : bool := succeeded r && fltb (Fin (m / 100)) (h_base r).

(** The place of a row: [total_removed] and [error_base_max * 100]. *)
Definition percent (e : flt) : flt := fmul e (Fin 100).
Definition place (r : hrow) : Q * flt := (inject_Z (h_removed r), percent (h_base r)).

(** L455-463. *)
Definition eliminated (r : hrow) : string :=
  match h_species r with
  | None => ""
  | Some x => match h_more r with [] => x | l => (x ++ ", " ++ str_join ", " l)%string end
  end.

(** L430-432 [get_text_pos]. *)
Definition text_pos (a : plot_args) (p : Q * flt) : Q * flt :=
  (fst p + fst (pa_shift a), fadd (snd p) (Fin (snd (pa_shift a)))).

(** [style[0]] *)
Definition colour_of (style : string) : res string :=
  match style with String c _ => Ok (String c EmptyString) | EmptyString => Err EIndex end.
(** [style[:-1]] *)
Definition drop_last (style : string) : string := str_of (removelast (chars style)).

Definition note (a : plot_args) (style : string) (xp : string * (Q * flt)) : res drawing :=
  let* c := colour_of style in Ok (DText (fst xp) (text_pos a (snd xp)) c).

(** The state of the loop of L440-494: what was drawn, [max_eliminated] and
    [max_error]. *)
Record canvas : Type := MkCanvas { cv_draw : list drawing; cv_x : Z; cv_y : flt }.
Definition raise_x (v : canvas) (z : Z) : canvas := MkCanvas (cv_draw v) (if (cv_x v <? z)%Z then z else cv_x v) (cv_y v).
Definition raise_y (v : canvas) (y : flt) : canvas := MkCanvas (cv_draw v) (cv_x v) (if fltb (cv_y v) y then y else cv_y v).
Definition draw (v : canvas) (l : list drawing) : canvas := MkCanvas (cv_draw v ++ l)%list (cv_x v) (cv_y v).

(** L472-494: one dead end; [before] are the rows with smaller index. *)
Definition one_dead_end (a : plot_args) (m : Q) (style : string) (before : list hrow) (r : hrow) (v : canvas) : res canvas :=
  let v1 := raise_x (raise_y v (percent (h_base r))) (h_removed r) in
  match rev (filter (on_line m) before) with
  | [] => Err EIndex                                                        (* L477 *)
  | p :: _ =>
      let v2 := draw v1 [DLine [place p; place r] (drop_last style) None; DLine [place r] style None] in
      if pa_annotate a then
        match h_species r with
        | None => Err EAttribute                                            (* a missing name has no [replace] *)
        | Some x => let* t := note a style (prettify (pa_names a) x, place r) in Ok (draw v2 [t])
        end
      else Ok v2
  end.

Fixpoint dead_ends (a : plot_args) (m : Q) (style : string) (before rows : list hrow) (v : canvas) : res canvas :=
  match rows with
  | [] => Ok v
  | r :: rows' =>
      let* v' := if dead_end m r then one_dead_end a m style before r v else Ok v in
      dead_ends a m style (before ++ [r])%list rows' v'
  end.

(** L440-494: one run. *)
Definition plot_run (a : plot_args) (m : Q) (style dead label : string) (h : list hrow) (v : canvas) : res canvas :=
  let good := filter (on_line m) h in
  match rev good with
  | [] => Err EIndex                                                        (* L445 *)
  | l :: _ =>
      let v1 := raise_y v (percent (h_base l)) in
      let v2 := if pa_endpoints a
                then draw v1 [DLine [(inject_Z (h_removed l), Fin (- inject_Z (10 ^ 10))); (inject_Z (h_removed l), Fin (inject_Z (10 ^ 10)))] dead None]
                else v1 in
      let v3 := raise_x v2 (h_removed l) in
      let v4 := draw v3 [DLine (map place good) style (Some label)] in
      let* v5 := if pa_annotate a
                 then let* ts := mapM (note a style) (map (fun r => (prettify (pa_names a) (eliminated r), place r)) good) in
                      Ok (draw v4 ts)
                 else Ok v4 in
      if pa_dead_ends a then dead_ends a m dead [] h v5 else Ok v5
  end.

Fixpoint plot_runs (a : plot_args) (m : Q) (l : list (string * string * string * list hrow)) (v : canvas) : res canvas :=
  match l with
  | [] => Ok v
  | (style, dead, label, h) :: l' => let* v' := plot_run a m style dead label h v in plot_runs a m l' v'
  end.

(** [ax.set_ylim]: ValueError when a limit is infinite or not a number. *)
Definition finite_limit (e : flt) : res Q := match e with Fin q => Ok q | _ => Err EValue end.

(** L386-512 [compare_reduction_runs]; [s] are the files. *)
Definition compare_runs (s : gfs) (a : plot_args) (p : path) (ps : list path) : res figure :=
  let all := p :: ps in
  let styles := or_default (pa_styles a) default_styles in
  let dead := or_default (pa_dead_styles a) default_dead_styles in
  let labels := or_default (pa_labels a) (map (fun q => last q ""%string) all) in
  let n := List.length all in
  let* _ := raise_if (negb (Nat.leb n (List.length styles) && Nat.leb n (List.length dead) && Nat.leb n (List.length labels))) EAssertion in
  let* hm := read_run s p in
  let m := snd hm in
  let* hs := read_runs s m ps in
  let* v := plot_runs a m (combine (combine (combine styles dead) labels) (fst hm :: hs)) (MkCanvas [] 0 (Fin 0)) in
  let xl := or_default (pa_xlim a) (- (1 # 2), inject_Z (cv_x v) + (1 # 2)) in
  let top := if fltb (cv_y v) (Fin m) then Fin m else cv_y v in
  let* yl := match pa_ylim a with
             | Some l => Ok l
             | None => let* t := finite_limit (fadd top (Fin (9 # 10))) in Ok (- (9 # 10), t)
             end in
  let top_line := if pa_plot_max a
                  then [DLine [(fst xl, Fin m); (snd xl, Fin m)] "r--" (Some "maximal allowed reduction error"%string)]
                  else [] in
  Ok (MkFig (cv_draw v ++ top_line)%list xl yl).
