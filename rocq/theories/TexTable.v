(** Model of plaschem/latex.py L148-372: [TexTable], the text of LaTeX tables,
    and [ReactionsTable]. *)
From Verif Require Import Base Species Reactions Latex.

(** A data frame of texts: the columns and the rows with their labels. *)
Record frame : Type := MkFrame { f_cols : list string; f_rows : list (Z * list string) }.

(** L154-162 [__init__].  [t_decs] holds the decorators set since the frame
    was loaded, the last one first; elsewhere there is the identity (L164-166).
    [t_spacing] is the text of the number. *)
Record textable : Type := MkTexTable {
  t_frame : frame;
  t_decs : list ((Z * string) * (string -> string));
  t_notes : list (string * string);
  t_caption : string;
  t_type : string;
  t_label : string;
  t_spacing : string;
  t_font : string }.
Definition new_table (type spacing font : string) : textable :=
  MkTexTable (MkFrame [] []) [] [] "" type "" spacing font.

(** The methods that change a table. *)
Inductive texop :=
| TLoad (f : frame)
| TLabel (s : string)
| TNote (sup note : string)
| TCaption (s : string)
| TDecorate (i : Z) (col : string) (d : string -> string).

(** L164-178.  A decorator at labels that are not in the frame has no effect
    on the text (pandas enlarges the frame of decorators only). *)
Definition apply_tex (o : texop) (t : textable) : textable :=
  match o with
  | TLoad f => MkTexTable f [] (t_notes t) (t_caption t) (t_type t) (t_label t) (t_spacing t) (t_font t)
  | TLabel s => MkTexTable (t_frame t) (t_decs t) (t_notes t) (t_caption t) (t_type t) s (t_spacing t) (t_font t)
  | TNote s n => MkTexTable (t_frame t) (t_decs t) (sset s n (t_notes t)) (t_caption t) (t_type t) (t_label t) (t_spacing t) (t_font t)
  | TCaption s => MkTexTable (t_frame t) (t_decs t) (t_notes t) s (t_type t) (t_label t) (t_spacing t) (t_font t)
  | TDecorate i c d => MkTexTable (t_frame t) (((i, c), d) :: t_decs t) (t_notes t) (t_caption t) (t_type t) (t_label t) (t_spacing t) (t_font t)
  end.
Definition texrun (ops : list texop) (t : textable) : textable := fold_left (fun t o => apply_tex o t) ops t.

(** L181-186 [_get_caption_lines] *)
Definition caption_lines (t : textable) : list string :=
  (t_caption t ++ " \\")%string :: map (fun n => ("$^\mathrm{" ++ fst n ++ "}$ " ++ snd n ++ " \\")%string) (t_notes t).

(** L188-197 [_get_header_line] *)
Definition header_line (type : string) (t : textable) : res string :=
  let line wrap := (str_join " & " (map wrap (f_cols (t_frame t))) ++ " \\")%string in
  if String.eqb type "table" then Ok (line (fun c => ("\textbf{" ++ c ++ "}")%string))
  else if String.eqb type "longtable" then Ok (line (fun c => ("\multicolumn{1}{l}{\textbf{" ++ c ++ "}}")%string))
  else Err EValue.

(** [dataframe.at[index, col]] for labels of the frame; with repeated labels
    this is a Series, which cannot be decorated or joined: TypeError. *)
Definition frame_at (f : frame) (i : Z) (col : string) : res string :=
  match filter (fun r => Z.eqb (fst r) i) (f_rows f) with
  | [row] => match filter (fun c => String.eqb (fst c) col) (combine (f_cols f) (snd row)) with
             | [(_, x)] => Ok x
             | _ => Err EType
             end
  | _ => Err EType
  end.
(** [decorators.at[index, col]] *)
Fixpoint dec_at (ds : list ((Z * string) * (string -> string))) (i : Z) (col : string) : string -> string :=
  match ds with
  | [] => fun x => x
  | ((j, c), d) :: ds' => if Z.eqb j i && String.eqb c col then d else dec_at ds' i col
  end.

(** L199-207 [_get_body_lines] *)
Definition tex_body (t : textable) : res (list string) :=
  mapM (fun i =>
    let* cs := mapM (fun col => let* x := frame_at (t_frame t) i col in Ok (dec_at (t_decs t) i col x)) (f_cols (t_frame t)) in
    Ok (str_join " & " cs ++ " \\")%string) (map fst (f_rows (t_frame t))).

(** L209-215 [_get_sep_lines] *)
Definition sep_lines : list string := ["\noalign{\vskip 1mm}"; "\hline"; "\noalign{\vskip 1mm}"].

(** [n * 'l'] and [n * tab] *)
Fixpoint times (n : nat) (s : string) : string := match n with O => "" | S k => (s ++ times k s)%string end.
Definition newline : string := String (ascii_of_nat 10) "".

(** L217-265 [_str_table] *)
Definition str_table (tab : string) (t : textable) : res string :=
  let ind n s := (times n tab ++ s)%string in
  let* header := header_line (t_type t) t in
  let* body := tex_body t in
  let lines :=
    ["\begin{table}[!htb]"; ind 1%nat "\centering"; ind 1%nat "\caption{"] ++
    map (ind 2%nat) (caption_lines t) ++
    [ind 1%nat "}"; ind 1%nat ("\label{" ++ t_label t ++ "}")%string; "\begingroup";
     ("\renewcommand{\arraystretch}{" ++ t_spacing t ++ "}")%string;
     ind 1%nat "\resizebox{\textwidth}{!}{%";
     ind 1%nat ("\begin{tabular}{" ++ times (List.length (f_cols (t_frame t))) "l" ++ "}")%string;
     ind 2%nat header] ++
    map (ind 2%nat) sep_lines ++
    map (ind 2%nat) body ++
    map (ind 2%nat) sep_lines ++
    [ind 1%nat "\end{tabular}"; ind 1%nat "}"; ind 1%nat "\endgroup"; "\end{table}"] in
  Ok (str_join newline lines).

(** L267-321 [_str_longtable] *)
Definition str_longtable (tab : string) (t : textable) : res string :=
  let ind n s := (times n tab ++ s)%string in
  let cols := List.length (f_cols (t_frame t)) in
  let* header := header_line (t_type t) t in
  let* body := tex_body t in
  let lines :=
    [("\" ++ t_font t)%string; ("\begin{longtable}{" ++ times cols "l" ++ "}")%string; ind 1%nat "\caption{"] ++
    map (ind 2%nat) (caption_lines t) ++
    [ind 1%nat "}"; ind 1%nat ("\label{" ++ t_label t ++ "} \\")%string; ind 1%nat header] ++
    map (ind 1%nat) sep_lines ++
    [ind 1%nat "\endfirsthead"; "";
     ind 1%nat ("\multicolumn{" ++ show_int (Z.of_nat cols) ++ "}{c}{{\tablename\ \thetable{} (\textit{Continued})}} \\")%string;
     ind 1%nat header] ++
    map (ind 1%nat) sep_lines ++
    [ind 1%nat "\endhead"; ""] ++
    map (ind 1%nat) sep_lines ++
    [ind 1%nat ("\multicolumn{" ++ show_int (Z.of_nat cols) ++ "}{r}{\textit{Continued on next page}} \\")%string;
     ind 1%nat "\endfoot"; ""] ++
    map (ind 1%nat) sep_lines ++
    [ind 1%nat "\endlastfoot"; ""] ++
    map (ind 1%nat) body ++
    ["\end{longtable}"; "\normalsize"] in
  Ok (str_join newline lines).

(** L323-329 [__str__] *)
Definition tex_str (tab : string) (t : textable) : res string :=
  if String.eqb (t_type t) "table" then str_table tab t
  else if String.eqb (t_type t) "longtable" then str_longtable tab t
  else Err EValue.

(** L333-338 [get_note_decorator] *)
Definition note_decorator (sups : list string) (x : string) : string := (x ++ " $^\mathrm{" ++ str_join "," sups ++ "}$")%string.

(** L341-372 [ReactionsTable]: the frame of the enabled reactions, labelled by
    their ids (plaschem/chemistry.py L769-775); [reactions_table] has the
    cells. *)
Definition column_name (c : column) : string :=
  match c with
  | ColId => "ID" | ColReaction => "Reaction" | ColRate => "$k$" | ColLoss => "$\Delta E_\mathrm{e}$" | ColSource => "Source"
  end.
Definition new_reactions_table (E : env) (cols : list column) (rs : list reaction) : res textable :=
  let* rows := reactions_table E cols rs in
  Ok (apply_tex (TLoad (MkFrame (map column_name cols) (combine (map r_id rs) rows))) (new_table "longtable" "1.5" "tiny")).
