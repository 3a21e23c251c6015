(** Model of plaschem/xml_inputs.py L478-563, [add_chemistry_from_hpem]: the
    import of HPEM input files into an XmlBuilder.

    Simplifications: a file is the list of its lines; opening it is not
    modelled, nor are the printed warnings. White space is ASCII white space. *)
From Verif Require Import Base Species Reactions Classification Xml.

(** ** The regular expressions (L502-503, L507-508, L523-524)

    [re] tries the longest match of each greedy group first and backtracks.
    The functions below do so for the only kinds of pieces used:
    [single_val] or [single_val_ws] before a delimiter [d] that is no white
    space. White space before a word can only be matched as a whole, and so
    can white space between a word and a delimiter. *)

(** The word of [single_val], white space and [d], followed by whatever [k]
    matches. *)
Fixpoint word {A} (d : ascii) (k : list ascii -> option A) (l : list ascii) : option (list ascii * A) :=
  match l with
  | [] => None
  | c :: l' =>
      if is_space c then None
      else match word d k l' with
           | Some (w, x) => Some (c :: w, x)
           | None => match lstrip_l is_space l' with
                     | e :: rest => if Ascii.eqb e d then match k rest with Some x => Some ([c], x) | None => None end else None
                     | [] => None
                     end
           end
  end.

(** [single_val_ws] and [d], followed by whatever [k] matches. *)
Fixpoint anything {A} (d : ascii) (k : list ascii -> option A) (l : list ascii) : option (list ascii * A) :=
  match l with
  | [] => None
  | c :: l' =>
      match anything d k l' with
      | Some (w, x) => Some (c :: w, x)
      | None => if Ascii.eqb c d then match k l' with Some x => Some ([], x) | None => None end else None
      end
  end.

(** A sequence of words, each with the delimiter after it, and the rest of
    the line (the last [single_val_ws]). *)
Fixpoint words (ds : list ascii) (l : list ascii) : option (list string) :=
  match ds with
  | [] => Some [str_of l]
  | d :: ds' =>
      match word d (words ds') (lstrip_l is_space l) with
      | Some (w, ws) => Some (str_of w :: ws)
      | None => None
      end
  end.

(** L507-508 [pattern_sp]. *)
Definition match_species (line : string) : option (list string) :=
  words [":"; ";"; "&"; "]"; "["; "@"; "!"]%char (chars line).

(** L523-524 [pattern_r]. *)
Definition match_reaction (line : string) : option (list string) :=
  match anything ">" (anything ":" (words [";"; "&"; "]"; "["; "!"]%char)) (chars line) with
  | Some (a, (b, ws)) => Some (str_of a :: str_of b :: ws)
  | None => None
  end.

(** ** Names, species and reactions *)

(** L489-493 [rename]. *)
Definition rename (n : string) : string :=
  let n := if String.eqb n "E" then "e" else n in
  str_of (map (fun c => if Ascii.eqb c "^" then "+"%char else c) (chars n)).

(** One entry of [species_dict] and one of [reactions]. *)
Record hsp : Type := MkHsp {
  h_name : string; h_charge : Z; h_mass : flt; h_stick : flt; h_flag : Z;
  h_rcoef : flt; h_rname : string; h_comments : string }.
Record hrx : Type := MkHrx {
  h_lhs : list string; h_rhs : list string; h_a : flt; h_b : flt; h_c : flt; h_heat : flt; h_special : Z; h_rcomments : string }.

Section Import.
  Variables (E : env) (so : pyval -> string).

  (** [int(val)], [float(val)]. *)
  Definition to_int (s : string) : res Z := match iparse E s with Some z => Ok z | None => Err EValue end.
  Definition to_float (s : string) : res flt := match fparse E s with Some f => Ok f | None => Err EValue end.

  (** L512-513: one line of species; IndexError if the line does not match. *)
  Definition species_line (line : string) : res hsp :=
    match match_species line with
    | Some [n; q; m; s; f; rc; rn; cm] =>
        let* q := to_int q in
        let* m := to_float m in
        let* s := to_float s in
        let* f := to_int f in
        let* rc := to_float rc in
        Ok (MkHsp (rename n) q m s f rc (rename rn) (str_strip cm))
    | _ => Err EIndex
    end.

  (** L529-532: one line of reactions. *)
  Definition reaction_line (line : string) : res hrx :=
    match match_reaction line with
    | Some [l; r; a; b; c; h; s; cm] =>
        let* a := to_float a in
        let* b := to_float b in
        let* c := to_float c in
        let* h := to_float h in
        let* s := to_int s in
        Ok (MkHrx (map rename (str_split " + " (str_strip l))) (map rename (str_split " + " (str_strip r))) a b c h s (str_strip cm))
    | _ => Err EIndex
    end.

  (** L516: the dictionary [species_dict]; a repeated name keeps its place. *)
  Definition species_dict (l : list hsp) : list (string * hsp) := supdate [] (map (fun h => (h_name h, h)) l).

  (** L498-500: lines before and after the first line that is '*'. *)
  Fixpoint cut_at_star (l : list string) : res (list string * list string) :=
    match l with
    | [] => Err EValue
    | x :: l' => if String.eqb x "*" then Ok ([], l')
                 else let* p := cut_at_star l' in Ok (x :: fst p, snd p)
    end.

  (** L533 *)
  Definition kept (skip : bool) (r : hrx) : bool := negb skip || memZ (h_special r) [-1; 1].

  (** L497-542: the species and the kept reactions of the file. *)
  Definition read_hpem (skip : bool) (lines : list string) : res (list (string * hsp) * list hrx) :=
    let* p := cut_at_star (map str_strip lines) in
    let* sps := mapM species_line (fst p) in
    let* rxs := mapM reaction_line (snd p) in
    Ok (species_dict sps, filter (kept skip) rxs).

  (** The dictionaries handed over to the builder (L512-515, L529-532). *)
  Definition hsp_attrs (h : hsp) : list (string * pyval) :=
    [("name", VStr (h_name h)); ("charge", VInt (h_charge h)); ("mass", VFlt (h_mass h)); ("stick_coef", VFlt (h_stick h));
     ("_", VInt (h_flag h)); ("return_coefficient", VFlt (h_rcoef h)); ("return_species", VStr (h_rname h));
     ("comments", VStr (h_comments h))] ++
    (if truthy (VFlt (h_stick h)) then [("ret_coefs", VDict [(h_rname h, SFlt (h_rcoef h))])] else []).
  Definition hrx_attrs (r : hrx) : list (string * pyval) :=
    [("reactants", VOther); ("products", VOther); ("arrh_a", VFlt (h_a r)); ("arrh_b", VFlt (h_b r)); ("arrh_c", VFlt (h_c r));
     ("gas_heat_contrib", VFlt (h_heat r)); ("special_number", VInt (h_special r)); ("comments", VStr (h_rcomments r))].

  (** L535-536 *)
  Definition present (rxs : list hrx) (n : string) : bool := memS n (flat_map (fun r => h_lhs r ++ h_rhs r) rxs).

  (** L545-552 *)
  Fixpoint add_hpem_species (rxs : list hrx) (l : list (string * hsp)) (b : builder) : builder * res unit :=
    match l with
    | [] => (b, Ok tt)
    | (n, h) :: l' =>
        if present rxs n then
          match add_rp_from_attributes E so None (hsp_attrs h) [] [("charge", "e"); ("mass", "amu")] b with
          | (b', Ok _) => add_hpem_species rxs l' b'
          | (b', Err e) => (b', Err e)
          end
        else add_hpem_species rxs l' b
    end.

  (** L521 [arrh_a_units]: KeyError for other numbers of reactants. *)
  Definition a_unit (n : nat) : res string :=
    match n with 1%nat => Ok "s-1" | 2%nat => Ok "cm3.s-1" | 3%nat => Ok "cm6.s-1" | _ => Err EKey end.

  (** L553-563 *)
  Fixpoint add_hpem_reactions (l : list hrx) (b : builder) : builder * res unit :=
    match l with
    | [] => (b, Ok tt)
    | r :: l' =>
        match a_unit (List.length (h_lhs r)) with
        | Err e => (b, Err e)
        | Ok u =>
            match add_reaction_from_attributes E so (h_lhs r) (h_rhs r) None (hrx_attrs r) []
                    [("gas_heat_contrib", "eV"); ("arrh_a", u); ("arrh_c", if memS "e" (h_lhs r) then "eV" else "K")] b with
            | (b', Ok _) => add_hpem_reactions l' b'
            | (b', Err e) => (b', Err e)
            end
        end
    end.

  Definition add_chemistry_from_hpem (skip : bool) (lines : list string) (b : builder) : builder * res unit :=
    match read_hpem skip lines with
    | Err e => (b, Err e)
    | Ok (sps, rxs) =>
        match add_hpem_species rxs sps b with
        | (b', Err e) => (b', Err e)
        | (b', Ok _) => add_hpem_reactions rxs b'
        end
    end.

  (** Calls on a builder, imports of HPEM files among them. *)
  Inductive hop : Type := HCall (o : bop) | HImport (skip : bool) (lines : list string).
  Definition hstep (b : builder) (o : hop) : builder * res unit :=
    match o with HCall o => bstep E so b o | HImport skip lines => add_chemistry_from_hpem skip lines b end.
  Definition hhistory (b : builder) (l : list hop) : builder := fold_left (fun b o => fst (hstep b o)) l b.
End Import.
