(** What a printed array should show. *)
From Verif Require Import Base Species Reactions Chemistry PrettyPrint.

(** All rows are as long as there are columns. *)
Definition rectangular {A} (t : frame A) : Prop := forall row, In row (fr_rows t) -> List.length (snd row) = List.length (fr_cols t).

(** The ids are those of species, respectively those of reactions and not
    all at the same time those of species. *)
Definition ids_of (c : chem) (g : group) (ids : list Z) : Prop :=
  match g with
  | GSpecies => incl ids (map sp_id (c_species c))
  | GReactions => incl ids (map rx_id (c_reactions c)) /\ ~ incl ids (map sp_id (c_species c))
  end.

(** [s] is the name of the species [i], or the text of the reaction [i]. *)
Definition labelled (c : chem) (g : group) (i : Z) (s : string) : Prop :=
  match g with
  | GSpecies => exists x, In x (c_species c) /\ sp_id x = i /\ s = sp_name x
  | GReactions => exists r, In r (c_reactions c) /\ rx_id r = i /\
      s = (String.concat " + " (map sp_name (rx_lhs r)) ++ " > " ++ String.concat " + " (map sp_name (rx_rhs r)))%string
  end.

(** The species or reaction [i] is disabled. *)
Definition off (c : chem) (g : group) (i : Z) : Prop :=
  match g with
  | GSpecies => In i (map sp_id (c_species c)) /\ c_en c i = false
  | GReactions => In i (map rx_id (c_reactions c)) /\ c_enr c i = false
  end.

(** A cell showing a label, red if [P]. *)
Definition shows_label {A} (c : chem) (g : group) (i : Z) (x : cell A) : Prop :=
  exists s, labelled c g i s /\ cl_val x = CText s /\ (cl_red x = true <-> off c g i).

(** A row of values. *)
Definition shows_values {A} (c : chem) (gi gc : group) (cols : list Z) (i : Z) (vs : list A) (xs : list (cell A)) : Prop :=
  Forall2 (fun ja y => cl_val y = CVal (snd ja) /\ (cl_red y = true <-> off c gi i \/ off c gc (fst ja))) (combine cols vs) xs.
