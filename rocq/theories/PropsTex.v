(** LaTeX tables. *)
From Verif Require Import Base Species Reactions Chemistry ChemSpec MolSpec MolExamples Views ConserveSpec BalanceExamples
  Latex TexTable TexSpec TexProofs TexText TexNest TexReact TexDet TexColumns TexRows TexExamples.

(** C153: whatever the calls were, the text of a table has the last caption,
    the notes (each superscript once, in the order of first mention, with its
    last text), the last label, the headings and the rows of the frame loaded
    last, with the last decorators set since then, in this order; and as many
    column specifiers as columns. *)
Theorem C153_contents ops a fr b type tab spacing font :
  ops = a ++ TLoad fr :: b -> (forall o, In o b -> sel_frame o = None) -> regular fr -> In type ["table"; "longtable"] ->
  exists cap label notes rows ind pad p1 p2 p3 p4 p5 tl pre ls,
    latest sel_caption "" ops cap /\ latest sel_label "" ops label /\ notes_said ops notes /\
    Forall2 (fun r line => exists ys, shown_row b (f_cols fr) r ys /\ line = (ind ++ String.concat " & " ys ++ " \\")%string) (f_rows fr) rows /\
    tex_str tab (texrun ops (new_table type spacing font)) = Ok (String.concat newline
      (p1 ++ (pad ++ cap ++ " \\")%string :: map (fun n => (pad ++ "$^\mathrm{" ++ fst n ++ "}$ " ++ snd n ++ " \\")%string) notes ++
       p2 ++ (tab ++ "\label{" ++ label ++ "}" ++ tl)%string :: p3 ++
       (ind ++ String.concat " & " (map (heading type) (f_cols fr)) ++ " \\")%string :: p4 ++ rows ++ p5)) /\
    In (pre ++ ls ++ "}")%string (p1 ++ p3) /\ In pre [(tab ++ "\begin{tabular}{")%string; "\begin{longtable}{"] /\
    String.length ls = List.length (f_cols fr) /\ (forall c, In c (chars ls) -> c = "l"%char).
Proof. exact (text_contents ops a fr b type tab spacing font). Qed.

(** C153: tables of another type have no text. *)
Theorem C153_unknown_type ops type tab spacing font : ~ In type ["table"; "longtable"] ->
  tex_str tab (texrun ops (new_table type spacing font)) = Err EValue.
Proof. exact (unknown_type ops type tab spacing font). Qed.

Example C153_nonvacuous : (exists a b, ops_x = a ++ TLoad frame_x :: b /\ forall o, In o b -> sel_frame o = None) /\ regular frame_x.
Proof. split; [exact ops_x_split|exact frame_x_regular]. Qed.

(** C154: if the texts given keep the nesting of braces, groups and
    environments, the text of the table is nested: everything opened is
    closed in the reverse order. *)
Theorem C154_nested tab type spacing font ops s :
  (forall o, In o ops -> neutral_op o) -> neutral tab -> neutral spacing -> neutral ("\" ++ font) ->
  tex_str tab (texrun ops (new_table type spacing font)) = Ok s -> nested [] (chars s) [].
Proof. exact (text_nested tab type spacing font ops s). Qed.

(** C154: texts without special characters do so, and so do marks of notes. *)
Theorem C154_plain s : plain s -> neutral s.
Proof. exact (plain_neutral s). Qed.
Theorem C154_marks sups x : (forall s, In s sups -> neutral s) -> neutral x -> neutral (note_decorator sups x).
Proof. exact (note_neutral sups x). Qed.

(** C154: what is left open after a text is determined. *)
Theorem C154_determined st l a : nested st l a -> forall b, nested st l b -> a = b.
Proof. exact (nested_det st l a). Qed.

Example C154_nonvacuous : ((forall o, In o ops_x -> neutral_op o) /\ neutral "  " /\ neutral "1.5" /\ neutral "\tiny") /\
  tex_str "  " (texrun ops_x (new_table "longtable" "1.5" "tiny")) = Ok (String.concat newline
  ["\tiny"; "\begin{longtable}{ll}"; "  \caption{"; "    Reactions \\"; "    $^\mathrm{b}$ Measured. \\"; "    $^\mathrm{a}$ Fitted. \\"; "  }";
   "  \label{tab:r} \\"; "  \multicolumn{1}{l}{\textbf{ID}} & \multicolumn{1}{l}{\textbf{k}} \\";
   "  \noalign{\vskip 1mm}"; "  \hline"; "  \noalign{\vskip 1mm}"; "  \endfirsthead"; "";
   "  \multicolumn{2}{c}{{\tablename\ \thetable{} (\textit{Continued})}} \\"; "  \multicolumn{1}{l}{\textbf{ID}} & \multicolumn{1}{l}{\textbf{k}} \\";
   "  \noalign{\vskip 1mm}"; "  \hline"; "  \noalign{\vskip 1mm}"; "  \endhead"; "";
   "  \noalign{\vskip 1mm}"; "  \hline"; "  \noalign{\vskip 1mm}"; "  \multicolumn{2}{r}{\textit{Continued on next page}} \\"; "  \endfoot"; "";
   "  \noalign{\vskip 1mm}"; "  \hline"; "  \noalign{\vskip 1mm}"; "  \endlastfoot"; "";
   "  1 & $k_1$ \\"; "  2 & $k_2$ $^\mathrm{a,b}$ \\"; "\end{longtable}"; "\normalsize"]).
Proof. split; [exact ops_x_neutral|exact text_x]. Qed.

(** C155: the LaTeX text of a species without special characters in the name
    keeps the nesting, also for names the notation was not made for. *)
Theorem C155_species n t : plain n -> texify_species n = Ok t -> neutral t.
Proof. exact (species_neutral n t). Qed.

(** C155: the table of reactions is nested, if the LaTeX texts given to
    reactions and species and the DOIs are and the other species have names
    without special characters. *)
Theorem C155_reactions E cols rs t tab ops s :
  (forall f, plain (fshow E f)) -> (forall r, In r rs -> tame_reaction r) -> (forall o, In o ops -> neutral_op o) -> neutral tab ->
  new_reactions_table E cols rs = Ok t -> tex_str tab (texrun ops t) = Ok s -> nested [] (chars s) [].
Proof. exact (reactions_nested E cols rs t tab ops s). Qed.

Example C155_nonvacuous : ((forall f, plain (fshow E1 f)) /\ forall r, In r rxsB -> tame_reaction r) /\
  new_reactions_table E1 [ColId; ColReaction; ColRate; ColLoss; ColSource] rxsB = Ok tab_B /\
  exists s, tex_str "  " (texrun [TCaption "Reactions"] tab_B) = Ok s.
Proof. split; [exact rxsB_tame|]. split; [exact tab_B_ok|exact tab_B_text]. Qed.

(** C156: if there is no ampersand in headings and cells and no decorator adds
    one, every row has as many column separators as the header. *)
Theorem C156_columns b cols r ys type : shown_row b cols r ys -> List.length (snd r) = List.length cols ->
  (forall c, In c cols -> amps c = 0%nat) -> (forall x, In x (snd r) -> amps x = 0%nat) ->
  (forall i c d, In (TDecorate i c d) b -> forall x, amps x = 0%nat -> amps (d x) = 0%nat) ->
  amps (String.concat " & " ys ++ " \\") = pred (List.length cols) /\
  amps (String.concat " & " (map (heading type) cols) ++ " \\") = pred (List.length cols).
Proof. exact (columns b cols r ys type). Qed.

Example C156_nonvacuous : shown_row [TDecorate 2 "k" (note_decorator ["a"])] ["ID"; "k"] (2, ["2"; "$k_2$"]) ["2"; "$k_2$ $^\mathrm{a}$"].
Proof. exact row_x. Qed.

(** C157: in the table of reactions this fails: the DOI is not escaped. *)
Theorem C157_source_refuted : exists r t h row, rx_history E1 r /\ new_reactions_table E1 [ColId; ColSource] [r] = Ok t /\
  header_line "longtable" t = Ok h /\ tex_body t = Ok [row] /\ amps h = 1%nat /\ amps row = 2%nat.
Proof. exact doi_columns. Qed.

(** C158: the table of reactions of a chemistry does not show the
    pre-factors the chemistry is used with. *)
Theorem C158_adhoc_refuted : reachable E1 cT /\ objects E1 objsB rxsB cT /\ In rx_ion rxsB /\ r_id rx_ion = 1 /\
  (exists l, get_reactions_arrh_a cT false true = Ok l /\ zget 1 l = Some (SFlt (Fin (7 # 1000000)))) /\
  cell E1 ColRate rx_ion = Ok "$3 \times 10^{-6} \exp \left( -2/T_\mathrm{e} \right)$".
Proof. exact adhoc_not_shown. Qed.

(** C159: the table of reactions is a table into which a frame was loaded with
    the headings of the columns and, for each reaction, in their order, a row
    labelled by its id with its cells; so C153 says what its text is, and a
    decorator set at the id of a reaction changes the row of this reaction. *)
Theorem C159_reactions E cols rs t : new_reactions_table E cols rs = Ok t ->
  exists fr, t = texrun [TLoad fr] (new_table "longtable" "1.5" "tiny") /\
    Forall2 (fun c n => n = match c with ColId => "ID" | ColReaction => "Reaction" | ColRate => "$k$" | ColLoss => "$\Delta E_\mathrm{e}$" | ColSource => "Source" end%string)
      cols (f_cols fr) /\
    Forall2 (fun r row => fst row = r_id r /\ Forall2 (fun c x => cell E c r = Ok x) cols (snd row)) rs (f_rows fr) /\
    (NoDup cols -> NoDup (map r_id rs) -> regular fr).
Proof. exact (reactions_frame E cols rs t). Qed.

Example C159_nonvacuous : new_reactions_table E1 [ColId; ColReaction; ColRate; ColLoss; ColSource] rxsB = Ok tab_B /\
  NoDup [ColId; ColReaction; ColRate; ColLoss; ColSource] /\ NoDup (map r_id rxsB).
Proof. split; [exact tab_B_ok|exact tab_B_nodup]. Qed.

(** All theorems of this file at once (one traversal instead of one per
    theorem). *)
Definition all_theorems := (
  @C153_contents,
  @C153_unknown_type,
  @C154_nested,
  @C154_plain,
  @C154_marks,
  @C154_determined,
  @C155_species,
  @C155_reactions,
  @C156_columns,
  @C157_source_refuted,
  @C158_adhoc_refuted,
  @C159_reactions).
Print Assumptions all_theorems.
