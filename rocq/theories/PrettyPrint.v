(** Model of plaschem/pretty_print.py: printing arrays indexed by ids of
    species or reactions, with labels and colours.

    Simplification: a DataFrame is a list of columns and a list of labelled
    rows, with distinct labels as in all arrays returned by a Chemistry. A
    ColorValue is its value and whether its colour is RED (the colours used
    here are RED and RESET). The text printed on the screen by [print]
    (L113-119) is not modelled, only the array it returns. *)
From Verif Require Import Base Species Reactions Chemistry.

Record frame (A : Type) : Type := MkFrame { fr_cols : list Z; fr_rows : list (Z * list A) }.
Arguments MkFrame {A}. Arguments fr_cols {A}. Arguments fr_rows {A}.
Definition fr_index {A} (t : frame A) : list Z := map fst (fr_rows t).

(** L6-31 [ColorValue]: a value of the array or a label. *)
Inductive content (A : Type) : Type := CVal (a : A) | CText (s : string).
Arguments CVal {A}. Arguments CText {A}.
Record cell (A : Type) : Type := MkCell { cl_val : content A; cl_red : bool }.
Arguments MkCell {A}. Arguments cl_val {A}. Arguments cl_red {A}.

Inductive group := GSpecies | GReactions.

(** plaschem/reactions.py L175-178 [__str__] on the view. *)
Definition rx_str (r : rx) : string :=
  (String.concat " + " (map sp_name (rx_lhs r)) ++ " > " ++ String.concat " + " (map sp_name (rx_rhs r)))%string.

(** [chemistry._species], [chemistry._reactions]: ids and [str(a)]. *)
Definition group_labels (c : chem) (g : group) : list (Z * string) :=
  match g with
  | GSpecies => map (fun s => (sp_id s, sp_name s)) (c_species c)
  | GReactions => map (fun r => (rx_id r, rx_str r)) (c_reactions c)
  end.
Definition group_ids (c : chem) (g : group) : list Z := map fst (group_labels c g).
(** L85, L90 [get_disabled_species().index], [get_disabled_reactions().index]. *)
Definition disabled_ids (c : chem) (g : group) : list Z :=
  match g with
  | GSpecies => map sp_id (get_disabled_species c)
  | GReactions => map rx_id (get_disabled_reactions c)
  end.

(** L63-69: species are tried first; without a match the key is missing from
    [structure], and the first use of it raises KeyError. *)
Definition detect (c : chem) (ids : list Z) : res group :=
  if forallb (fun i => memZ i (group_ids c GSpecies)) ids then Ok GSpecies
  else if forallb (fun i => memZ i (group_ids c GReactions)) ids then Ok GReactions
  else Err EKey.

(** [labels[ids]] on a Series: KeyError for a missing id. *)
Definition look_up (labels : list (Z * string)) (ids : list Z) : res (list string) :=
  mapM (fun i => match zget i labels with Some s => Ok s | None => Err EKey end) ids.

Definition plain {A} (x : content A) : cell A := MkCell x false.
(** L58-61 *)
Definition wrap {A} (t : frame A) : frame (cell A) :=
  MkFrame (fr_cols t) (map (fun row => (fst row, map (fun a => plain (CVal a)) (snd row))) (fr_rows t)).

(** L72-82: a column labelled -1 with the labels of the rows is put first
    ([insert] raises ValueError if the label is taken; with an id -1 among
    those of the columns the two Series hold -1 twice and pandas raises in
    L82, here also ValueError), then a row with the labels of the columns;
    [pd.DataFrame(series).T] has the row label 0. *)
Definition annotate {A} (c : chem) (gi gc : group) (t : frame (cell A)) : res (frame (cell A)) :=
  let* li := look_up (group_labels c gi) (fr_index t) in
  let* _ := raise_if (memZ (-1) (fr_cols t)) EValue in
  let* _ := raise_if (memZ (-1) (group_ids c gc)) EValue in
  let* lc := look_up (group_labels c gc) (fr_cols t) in
  Ok (MkFrame (-1 :: fr_cols t)
        ((0, plain (CText "") :: map (fun s => plain (CText s)) lc) ::
         map (fun sr => (fst (snd sr), plain (CText (fst sr)) :: snd (snd sr))) (combine li (fr_rows t)))).

Definition paint {A} (x : cell A) : cell A := MkCell (cl_val x) true.

(** L85-89 for one id: [to_print.at[i, c]] is one cell if the row label is
    unique, else a Series, which has no [set_color]. *)
Definition paint_row {A} (i : Z) (t : frame (cell A)) : res (frame (cell A)) :=
  let* _ := raise_if (Nat.ltb 1 (count_occ Z.eq_dec (fr_index t) i) && negb (Nat.eqb (List.length (fr_cols t)) 0)) EAttribute in
  Ok (MkFrame (fr_cols t) (map (fun row => if fst row =? i then (fst row, map paint (snd row)) else row) (fr_rows t))).

(** Is a label of the rows used twice? *)
Fixpoint twice (l : list Z) : bool := match l with [] => false | i :: l' => memZ i l' || twice l' end.

(** L90-94 for one id. *)
Definition paint_col {A} (j : Z) (t : frame (cell A)) : res (frame (cell A)) :=
  let* _ := raise_if (memZ j (fr_cols t) && twice (fr_index t)) EAttribute in
  Ok (MkFrame (fr_cols t)
        (map (fun row => (fst row, map (fun jx => if fst jx =? j then paint (snd jx) else snd jx) (combine (fr_cols t) (snd row)))) (fr_rows t))).

Fixpoint each {A} (f : Z -> A -> res A) (l : list Z) (a : A) : res A :=
  match l with [] => Ok a | i :: l' => let* a' := f i a in each f l' a' end.

(** Labels of the printed array. *)
Inductive label := LBlank | LId (z : Z).
Record pretty (A : Type) : Type := MkPretty { pp_index : list label; pp_cols : list label; pp_rows : list (list (cell A)) }.
Arguments MkPretty {A}. Arguments pp_index {A}. Arguments pp_cols {A}. Arguments pp_rows {A}.

(** L97-98 [['', ] + list(...)[1:]]: assigning more labels than there are
    rows or columns raises ValueError. *)
Definition blank_first (ids : list Z) : res (list label) :=
  match ids with [] => Err EValue | _ :: l => Ok (LBlank :: map LId l) end.

(** L46-103 [_get_pretty_dataframe], L105-121 [print]. *)
Definition pretty_frame {A} (c : chem) (array : frame A) (annotation : bool) : res (pretty A) :=
  let t := wrap array in
  let* gi := detect c (fr_index array) in
  let* gc := detect c (fr_cols array) in
  let* t := (if annotation then annotate c gi gc t else Ok t) in
  let* t := each paint_row (disabled_ids c gi) t in
  let* t := each paint_col (disabled_ids c gc) t in
  let* i := blank_first (fr_index t) in
  let* j := blank_first (fr_cols t) in
  Ok (MkPretty i j (map snd (fr_rows t))).

(** The stoichiometric matrix (plaschem/chemistry.py L873-893) as such an
    array. *)
Definition stoich_frame (c : chem) (disabled special : bool) (m : method) : frame Z :=
  MkFrame (map sp_id (get_species c disabled special true))
          (map (fun row => (fst row, map snd (snd row))) (get_stoichiomatrix c disabled special m)).
