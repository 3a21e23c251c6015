(** Property theorems about printed arrays (C131 - C133); the vocabulary is
    that of PrettySpec.v. *)
From Verif Require Import Base BaseLemmas Species Reactions Chemistry ChemSpec ChemInv ChemHist ChemLoad ChemExamples InitialExamples
  PrettyPrint PrettySpec PrettyProofs PrettyExamples PrettyMore.
Open Scope Z_scope.

(** C131: an array with rows and columns of species or reactions is printed with
    the ids kept, below a row of labels and beside a column of labels, the labels
    being the names of those species and the texts of those reactions; no value is
    lost, moved or changed; what belongs to something disabled is red and nothing
    else is. *)
Theorem C131_annotated {A} c gi gc (t : frame A) :
  rectangular t -> NoDup (fr_index t) -> ids_of c gi (fr_index t) -> ids_of c gc (fr_cols t) ->
  (forall i, In i (map sp_id (c_species c)) \/ In i (map rx_id (c_reactions c)) -> 0 <= i) -> ~ In 0 (fr_index t) -> ~ off c gi 0 ->
  exists header body,
    pretty_frame c t true = Ok (MkPretty (LBlank :: map LId (fr_index t)) (LBlank :: map LId (fr_cols t))
                                         ((MkCell (CText "") false :: header) :: body)) /\
    Forall2 (shows_label c gc) (fr_cols t) header /\
    Forall2 (fun row out => exists x xs, out = x :: xs /\ shows_label c gi (fst row) x /\
                              shows_values c gi gc (fr_cols t) (fst row) (snd row) xs) (fr_rows t) body.
Proof. exact (annotated c gi gc t). Qed.

(** The stoichiometric matrix of any chemistry, after any history: row by row the
    texts of the reactions and their coefficients. *)
Theorem C131_stoichiomatrix E c disabled special m :
  reachable E c ->
  (forall s, In s (c_species c) -> 0 <= sp_id s) -> (forall r, In r (c_reactions c) -> 0 < rx_id r) ->
  (exists r, In r (get_reactions c disabled) /\ ~ In (rx_id r) (map sp_id (c_species c))) ->
  exists header body,
    pretty_frame c (stoich_frame c disabled special m) true =
      Ok (MkPretty (LBlank :: map (fun r => LId (rx_id r)) (get_reactions c disabled))
                   (LBlank :: map (fun s => LId (sp_id s)) (get_species c disabled special true))
                   ((MkCell (CText "") false :: header) :: body)) /\
    Forall2 (fun s x => cl_val x = CText (sp_name s) /\ (cl_red x = true <-> c_en c (sp_id s) = false))
            (get_species c disabled special true) header /\
    Forall2 (fun r out => exists x xs, out = x :: xs /\
               cl_val x = CText (String.concat " + " (map sp_name (rx_lhs r)) ++ " > " ++ String.concat " + " (map sp_name (rx_rhs r)))%string /\
               (cl_red x = true <-> c_enr c (rx_id r) = false) /\
               Forall2 (fun s y => cl_val y = CVal (stoich_entry m r (sp_id s)) /\
                          (cl_red y = true <-> c_enr c (rx_id r) = false \/ c_en c (sp_id s) = false))
                       (get_species c disabled special true) xs)
            (get_reactions c disabled) body.
Proof. exact (fun R => printed_stoichiomatrix E c R disabled special m). Qed.

(** Rows that are neither species nor reactions of this chemistry: KeyError. *)
Theorem C131_foreign {A} c (t : frame A) annotation :
  ~ incl (fr_index t) (map sp_id (c_species c)) -> ~ incl (fr_index t) (map rx_id (c_reactions c)) ->
  pretty_frame c t annotation = Err EKey.
Proof. exact (foreign c t annotation). Qed.

Example C131_nonvacuous : reachable E0 (c_off 11) /\ (exists r, In r (get_reactions (c_off 11) true) /\ ~ In (rx_id r) (map sp_id (c_species (c_off 11)))) /\
  match pretty_frame (c_off 11) (stoich_frame (c_off 11) true true Net) true with
  | Ok p => pp_index p = [LBlank; LId 11; LId 12; LId 13; LId 14] /\
      map (fun r => map cl_red r) (pp_rows p) =
        [[false; false; false; false; true; false];
         [false; false; false; false; true; false];
         [false; false; false; false; true; false];
         [true; true; true; true; true; true];
         [false; false; false; false; true; false]] /\
      map (fun r => match r with x :: _ => cl_val x | [] => CVal 0 end) (pp_rows p) =
        [CText ""; CText "e + O2 > e + O2"; CText "e + O2 > e + e + O2+"; CText "e + O2 > O + O-"; CText "e + O > e + O"]%string
  | Err _ => False
  end.
Proof. exact c_11_printed. Qed.

(** C132 refuted: the rows of a stoichiometric matrix need not carry the texts
    and the colours of their reactions.  When the ids of the reactions are also ids of species the rows
    show the names and colours of species: row 4 is enabled, printed red and
    labelled O-; row 3 is disabled and not red. *)
Theorem C132_rows_are_reactions_refuted : exists c p, reachable E0 c /\
  (forall i, In i (map sp_id (c_species c)) \/ In i (map rx_id (c_reactions c)) -> 0 < i) /\
  pretty_frame c (stoich_frame c true true Net) true = Ok p /\
  nth_error (pp_rows p) 4 = Some [MkCell (CText "O-") true; MkCell (CVal 0) true; MkCell (CVal 0) true; MkCell (CVal 0) true; MkCell (CVal 0) true; MkCell (CVal 0) true]%string /\
  nth_error (pp_index p) 4 = Some (LId 4) /\ labelled c GReactions 4 "e + O > e + O" /\ ~ off c GReactions 4 /\
  off c GReactions 3 /\ (exists row x, nth_error (pp_rows p) 3 = Some row /\ In x row /\ cl_red x = false) /\ nth_error (pp_index p) 3 = Some (LId 3).
Proof. exact mislabelled. Qed.

(** And this happens to every chemistry all of whose printed reactions have
    the id of some species. *)
Theorem C132_when E c disabled special m :
  reachable E c ->
  (forall s, In s (c_species c) -> 0 <= sp_id s) -> (forall r, In r (c_reactions c) -> 0 < rx_id r) ->
  (forall s, In s (c_species c) -> sp_id s = 0 -> c_en c 0 = true) ->
  (forall r, In r (get_reactions c disabled) -> In (rx_id r) (map sp_id (c_species c))) ->
  exists p header, pretty_frame c (stoich_frame c disabled special m) true = Ok p /\
    pp_index p = LBlank :: map (fun r => LId (rx_id r)) (get_reactions c disabled) /\
    exists body, pp_rows p = header :: body /\
    Forall2 (fun r out => exists s x xs, In s (c_species c) /\ sp_id s = rx_id r /\ out = x :: xs /\
               cl_val x = CText (sp_name s) /\ (cl_red x = true <-> c_en c (sp_id s) = false))
            (get_reactions c disabled) body.
Proof. exact (fun R => rows_named_after_species E c R disabled special m). Qed.

(** C133: without annotations the values and colours are right and the labels
    of all rows and columns but the first are kept. *)
Theorem C133_unannotated_partial {A} c gi gc (t : frame A) :
  rectangular t -> NoDup (fr_index t) -> ids_of c gi (fr_index t) -> ids_of c gc (fr_cols t) ->
  fr_index t <> [] -> fr_cols t <> [] ->
  exists body,
    pretty_frame c t false = Ok (MkPretty (LBlank :: map LId (tl (fr_index t))) (LBlank :: map LId (tl (fr_cols t))) body) /\
    Forall2 (fun row out => shows_values c gi gc (fr_cols t) (fst row) (snd row) out) (fr_rows t) body.
Proof. exact (unannotated c gi gc t). Qed.

(** Refuted: the first row and column lose their labels. *)
Theorem C133_labels_kept_refuted : exists c p, reachable E0 c /\
  pretty_frame c (stoich_frame c true true Net) false = Ok p /\
  map rx_id (get_reactions c true) = [11; 12; 13; 14] /\ pp_index p = [LBlank; LId 12; LId 13; LId 14].
Proof. exact first_label_lost. Qed.

(** Refuted: not every array of a chemistry can be printed; if a reaction has the id
    0 (that of the row of labels), an AttributeError is raised. *)
Theorem C133_printable_refuted : exists c, reachable E0 c /\ ids_of c GReactions (fr_index (stoich_frame c true true Net)) /\
  pretty_frame c (stoich_frame c true true Net) true = Err EAttribute.
Proof. exact zero_crash. Qed.

(** All theorems of this file at once (one traversal instead of one per
    theorem). *)
Definition all_theorems := (
  @C131_annotated,
  @C131_stoichiomatrix,
  @C131_foreign,
  @C132_rows_are_reactions_refuted,
  @C132_when,
  @C133_unannotated_partial,
  @C133_labels_kept_refuted,
  @C133_printable_refuted).
Print Assumptions all_theorems.
