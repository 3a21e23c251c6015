(** Model of the methods of plaschem/xml_inputs.py that add species, reactions
    and chemistries from the QDB database (L57-101, L170-211, L295-430,
    L467-476).

    Simplifications: objects of the database are records of the fields and
    methods used. The reactions a lumped reaction stands for are given as a
    tree, so that there are no cycles among them. The methods that fit cross
    sections and read thresholds from them are fields with their results.
    Numbers in the database are floats. *)
From Verif Require Import Base Species Reactions Classification Xml Hpem.

(** A species of the database; [q_states] are the [state_str]s. *)
Record qrp : Type := MkQrp {
  q_pk : Z; q_formula : string; q_states : list string; q_mass : flt; q_charge : Z;
  q_hform : option flt; q_epsilon : option flt; q_sigma : option flt; q_hpem : option string }.

(** A parameter of a dataset: [meta.name], [value], [meta.units]. *)
Record qparam : Type := MkParam { p_name : string; p_value : flt; p_units : string }.

(** A dataset. [ds_fit]: the result of [fit_arrhenius]; [ds_thresh]: that of
    [get_thresh]; [ds_dois]: of the citations. *)
Record qds : Type := MkDs {
  ds_pk : Z; ds_type : Z; ds_xsec : bool; ds_arrhenius : bool; ds_fit : flt * flt * flt; ds_params : list qparam;
  ds_threshold : option flt; ds_thresh : flt; ds_entry : option Z; ds_dois : list (option string) }.

(** The species of a reaction; [m_all] is [get_all_rps()]. *)
Record qsides : Type := MkSides { m_pk : Z; m_lhs : list qrp; m_rhs : list qrp; m_all : list qrp }.

(** A reaction: its species, its [child_reactions], its datasets, and its
    [parent_reaction]s. *)
Inductive qrx : Type := QRx (m : qsides) (children : list qsides) (datasets : list qds) (parents : list qrx).

(** ** Names *)

(** L92-93 *)
Definition electron_name (s : string) : string := if String.eqb s "e-" then "e" else s.

(** [s.endswith(suf)] on lists of characters. *)
Definition ends_with (suf l : list ascii) : bool := prefixb (rev suf) (rev l).

(** L94-99, one pass of the inner loop. *)
Definition spell_charge (l : list ascii) (p : ascii * (ascii * nat)) : list ascii :=
  let suf := [fst p; fst (snd p)] in
  if ends_with suf l then firstn (List.length l - List.length suf) l ++ repeat (fst p) (snd (snd p)) else l.

(** L82-101 [_get_rp_stateless_from_qdb]. *)
Definition qdb_stateless (q : qrp) : string :=
  str_of (fold_left spell_charge [("+", ("2", 2%nat)); ("+", ("3", 3%nat)); ("-", ("2", 2%nat)); ("-", ("3", 3%nat))]%char
                    (chars (electron_name (q_formula q)))).

(** L68-80 [_get_rp_state_from_qdb]. *)
Definition is_star (c : ascii) : bool := Ascii.eqb c "*".
Definition qdb_state (q : qrp) : string :=
  let s := str_join "," (q_states q) in
  match rstrip_l is_star (lstrip_l is_star (chars s)) with
  | [] => s
  | _ :: _ => ("(" ++ s ++ ")")%string
  end.

(** L57-66 [_get_rp_name_from_qdb]. *)
Definition qdb_name (q : qrp) : string := (qdb_stateless q ++ qdb_state q)%string.

(** ** Species *)

(** [if x:] for an optional float. *)
Definition nonzero (x : option flt) : option flt :=
  match x with Some f => if truthy (VFlt f) then Some f else None | None => None end.
Definition entry {V} (k : string) (x : option V) : list (string * V) := match x with Some v => [(k, v)] | None => [] end.

(** L178-209 *)
Definition qdb_attrs (q : qrp) : list (string * pyval) :=
  [("name", VStr (qdb_name q))] ++
  match q_states q with [] => [] | _ :: _ => [("stateless", VStr (qdb_stateless q)); ("state", VStr (qdb_state q))] end ++
  [("mass", VFlt (q_mass q))] ++
  (if q_charge q =? 0 then [] else [("charge", VInt (q_charge q))]) ++
  entry "h_form" (option_map VFlt (nonzero (q_hform q))) ++
  entry "lj_epsilon" (option_map VFlt (nonzero (q_epsilon q))) ++
  entry "lj_sigma" (option_map VFlt (nonzero (q_sigma q))) ++
  match q_hpem q with Some h => if String.eqb h "" then [] else [("hpem_name", VStr h)] | None => [] end ++
  [("qdb_id", VInt (q_pk q))].
Definition qdb_units (q : qrp) : list (string * string) :=
  [("mass", "amu")] ++
  (if q_charge q =? 0 then [] else [("charge", "e")]) ++
  entry "h_form" (option_map (fun _ => "eV") (nonzero (q_hform q))) ++
  entry "lj_epsilon" (option_map (fun _ => "K") (nonzero (q_epsilon q))) ++
  entry "lj_sigma" (option_map (fun _ => "A") (nonzero (q_sigma q))).

(** ** Datasets *)

(** L327-347; XmlError without datasets. *)
Definition is_type (ts : list Z) (d : qds) : bool := memZ (ds_type d) ts.
Definition choose (electron : bool) (l : list qds) : res qds :=
  match l with
  | [] => Err EXml
  | [d] => Ok d
  | d :: _ => match filter (is_type (if electron then [2] else [1; 3])) l with p :: _ => Ok p | [] => Ok d end
  end.

(** [filter(meta__name__startswith='A')], [filter(meta__name='n')],
    [filter(meta__name__endswith='E')] *)
Definition starts_A (p : qparam) : bool := prefixb ["A"%char] (chars (p_name p)).
Definition is_n (p : qparam) : bool := String.eqb (p_name p) "n".
Definition ends_E (p : qparam) : bool := ends_with ["E"%char] (chars (p_name p)).

(** L351-388: A, its unit, n, E, its unit. *)
Definition rate_data (n : nat) (d : qds) : res (flt * string * flt * flt * string) :=
  if ds_xsec d then
    let '(a, b, c) := ds_fit d in
    match n with
    | 2%nat => Ok (a, "cm3.s-1", b, c, "eV")
    | 3%nat => Ok (a, "cm6.s-1", b, c, "eV")
    | _ => Err EXml
    end
  else if ds_arrhenius d then
    match filter starts_A (ds_params d), filter is_n (ds_params d), filter ends_E (ds_params d) with
    | pa :: _, pb :: _, pc :: _ => Ok (p_value pa, p_units pa, p_value pb, p_value pc, p_units pc)
    | _, _, _ => Err EXml
    end
  else Err EXml.

(** [sorted(reactants_names) == sorted(products_names)]: every name occurs
    as often on both sides. *)
Definition same_names (l r : list string) : bool :=
  forallb (fun n => Nat.eqb (count_occ string_dec l n) (count_occ string_dec r n)) (l ++ r).

(** [0 < x]; [max(0, x)] is [x] then, else 0. *)
Definition positive (x : flt) : bool := match x with Fin q => if Qlt_le_dec 0 q then true else false | PInf => true | _ => false end.

(** L390-408: the electron energy loss, None if it is zero and not stored. *)
Definition energy_loss (ls rs : list string) (d : qds) (c : flt) : res (option flt) :=
  if memS "e" ls && negb (same_names ls rs) && memS "e" rs then
    if ds_arrhenius d then Ok (if positive c then Some c else None)
    else if ds_xsec d then Ok (nonzero (Some (match ds_threshold d with Some t => t | None => ds_thresh d end)))
    else Err EXml
  else Ok None.

(** L417-420 *)
Fixpoint first_doi (l : list (option string)) : option string :=
  match l with
  | [] => None
  | Some s :: l' => if String.eqb s "None" then first_doi l' else Some s
  | None :: l' => first_doi l'
  end.

(** L349-428: attributes and units of a reaction. *)
Definition qdb_rx (master own : qsides) (d : qds) : res (list (string * pyval) * list (string * string)) :=
  let ls := map qdb_name (m_lhs master) in
  let rs := map qdb_name (m_rhs master) in
  let* x := rate_data (List.length ls) d in
  let '(a, ua, b, c, uc) := x in
  let* loss := energy_loss ls rs d c in
  Ok ([("arrh_a", VFlt a)] ++
      entry "arrh_b" (option_map VFlt (nonzero (Some b))) ++
      entry "arrh_c" (option_map VFlt (nonzero (Some c))) ++
      entry "el_en_loss" (option_map VFlt loss) ++
      match ds_entry d with Some z => if z <? 0 then [("special_number", VInt z)] else [] | None => [] end ++
      [("qdb_r_id", VInt (m_pk own)); ("qdb_ds_id", VInt (ds_pk d))] ++
      entry "doi" (option_map VStr (first_doi (ds_dois d))) ++
      (if m_pk master =? m_pk own then []
       else [("comments", VStr (str_join " + " (map qdb_name (m_lhs own)) ++ " > " ++ str_join " + " (map qdb_name (m_rhs own))))]),
      [("arrh_a", ua)] ++
      entry "arrh_c" (option_map (fun _ => uc) (nonzero (Some c))) ++
      entry "el_en_loss" (option_map (fun _ => "eV") loss)).

Section Import.
  Variables (E : env) (so : pyval -> string).

  (** L170-211 [add_rp_from_qdb]. *)
  Definition add_rp_from_qdb (q : qrp) (b : builder) : builder * res unit :=
    add_rp_from_attributes E so (Some (q_pk q)) (qdb_attrs q) [] (qdb_units q) b.

  (** L318-322 *)
  Fixpoint add_missing_qdb (l : list qrp) (b : builder) : builder * res unit :=
    match l with
    | [] => (b, Ok tt)
    | q :: l' =>
        if known b (SStr (qdb_name q)) then add_missing_qdb l' b
        else match add_rp_from_qdb q b with
             | (b', Ok _) => add_missing_qdb l' b'
             | (b', Err e) => (b', Err e)
             end
    end.

  (** L310-430: a reaction that stands for itself. *)
  Definition add_resolved (m : qsides) (children : list qsides) (datasets : list qds) (b : builder) : builder * res unit :=
    match children with
    | _ :: _ :: _ => (b, Err EXml)
    | _ =>
        let master := match children with c :: _ => c | [] => m end in
        match add_missing_qdb (m_all master) b with
        | (b', Err e) => (b', Err e)
        | (b', Ok _) =>
            let ls := map qdb_name (m_lhs master) in
            let rs := map qdb_name (m_rhs master) in
            match (let* d := choose (memS "e" ls) datasets in qdb_rx master m d) with
            | Err e => (b', Err e)
            | Ok (attrs, units) => add_reaction_from_attributes E so ls rs (Some (m_pk m)) attrs [] units b'
            end
        end
    end.

  (** L295-430 [add_reaction_from_qdb]: the reactions a lumped reaction
      stands for are added instead of it. *)
  Fixpoint add_reaction_from_qdb (r : qrx) (b : builder) : builder * res unit :=
    match r with
    | QRx m children datasets parents =>
        match parents with
        | [] => add_resolved m children datasets b
        | _ :: _ =>
            (fix all (l : list qrx) (b : builder) : builder * res unit :=
               match l with
               | [] => (b, Ok tt)
               | p :: l' => match add_reaction_from_qdb p b with
                            | (b', Ok _) => all l' b'
                            | (b', Err e) => (b', Err e)
                            end
               end) parents b
        end
    end.

  (** L467-476 [add_chemistry_from_qdb]. *)
  Fixpoint add_chemistry_from_qdb (l : list qrx) (b : builder) : builder * res unit :=
    match l with
    | [] => (b, Ok tt)
    | r :: l' => match add_reaction_from_qdb r b with
                 | (b', Ok _) => add_chemistry_from_qdb l' b'
                 | (b', Err e) => (b', Err e)
                 end
    end.

  (** Histories of calls of any kind. *)
  Inductive qop : Type := QCall (o : hop) | QSpecies (q : qrp) | QReaction (r : qrx) | QChemistry (l : list qrx).
  Definition qstep (b : builder) (o : qop) : builder * res unit :=
    match o with
    | QCall o => hstep E so b o
    | QSpecies q => add_rp_from_qdb q b
    | QReaction r => add_reaction_from_qdb r b
    | QChemistry l => add_chemistry_from_qdb l b
    end.
  Definition qhistory (b : builder) (l : list qop) : builder := fold_left (fun b o => fst (qstep b o)) l b.
End Import.
