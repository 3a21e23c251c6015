(** Model of plaschem/species.py, class RP. *)
From Verif Require Import Base.

(** plaschem/species.py L21-36 [default_attributes] (keys, in order). *)
Definition rp_attr_keys : list string :=
  ["name"; "stateless"; "state"; "mass"; "charge"; "h_form"; "lj_epsilon"; "lj_sigma";
   "hpem_name"; "qdb_id"; "stick_coef"; "ret_coefs"; "comments"; "latex"].

(** plaschem/species.py L39-54 [allowed_attribute_types]. *)
Definition rp_attr_types (attr : string) : list pytype :=
  if memS attr ["mass"; "h_form"; "lj_epsilon"; "lj_sigma"; "stick_coef"]
  then [TFlt; TNp; TStr; TInt; TNone]
  else if memS attr ["charge"; "qdb_id"] then [TInt; TStr; TNone]
  else if memS attr ["ret_coefs"] then [TDict; TNone]
  else if memS attr ["name"; "stateless"; "state"; "hpem_name"; "comments"; "latex"]
  then [TStr; TNone]
  else [].

(** plaschem/species.py L56 [special_species_names]. *)
Definition special_names : list string := ["e"; "M"].

(** plaschem/species.py L61-67 [default_units]. *)
Definition rp_default_units : list (string * string) :=
  [("mass", "amu"); ("charge", "e"); ("h_form", "eV"); ("lj_epsilon", "K"); ("lj_sigma", "A")].

(** plaschem/species.py L68-74 [allowed_unit_values] (the None entry is
    irrelevant: it is only consulted for units that are not None). *)
Definition rp_unit_allowed (attr unit : string) : bool :=
  match sget attr rp_default_units with
  | Some u => String.eqb unit u
  | None => false
  end.

(** An RP instance: its identity as a Python object, its id, the private
    attributes [_name], [_mass], ... and the [_units] dictionary. *)
Record rp : Type := MkRP {
  rp_uid : nat;
  rp_id : Z;
  rp_attrs : list (string * pyval);
  rp_units : list (string * option string)
}.

(** plaschem/species.py L194-224 [RP.set_species_attribute].
    [attributes_with_mandatory_units] is empty (L60), so L213-214 never
    raises. A raised exception leaves the instance unchanged. *)
Definition set_species_attribute (r : rp) (attr : string) (v : pyval) (unit : option string)
  : res rp :=
  let* _ := match unit with
            | Some u => if is_none v then Ok tt
                        else if negb (shas attr rp_default_units) then Err ERPAttr
                        else raise_if (negb (rp_unit_allowed attr u)) ERPAttr
            | None => Ok tt
            end in
  let* _ := raise_if (negb (memS attr rp_attr_keys)) ERPAttr in
  let* _ := raise_if (negb (type_in v (rp_attr_types attr))) ERPAttr in
  Ok {| rp_uid := rp_uid r; rp_id := rp_id r;
        rp_attrs := sset attr v (rp_attrs r);
        rp_units := sset attr unit (rp_units r) |}.

(** Python truth value of an attribute value (used for [state], L127). *)
Definition truthy (v : pyval) : bool :=
  match v with
  | VSc SNone => false
  | VSc (SBool b) => b
  | VSc (SInt z) => negb (z =? 0)
  | VSc (SFlt f) | VSc (SNp f) => negb (feqb f fzero)
  | VSc (SStr s) => negb (String.eqb s "")
  | VDict d => match d with [] => false | _ => true end
  | VOther => true
  end.

(** plaschem/species.py L138 [set(all_attributes['name']) & invalid]: raises
    TypeError when the name is not iterable. *)
Definition name_invalid_chars (v : pyval) : res bool :=
  match v with
  | VSc (SStr s) => Ok (has_char "<" s || has_char ">" s)
  | VDict d => Ok (existsb (fun k => String.eqb k "<" || String.eqb k ">") (akeys d))
  | _ => Err EType
  end.

(** plaschem/species.py L161-166, the loop over [default_attributes]. *)
Fixpoint set_all_attributes (keys : list string) (attrs : list (string * pyval))
         (units : list (string * option string)) (r : rp) : res rp :=
  match keys with
  | [] => Ok r
  | k :: ks =>
      let unit := match sget k units with Some u => u | None => None end in
      let v := match sget k attrs with Some v => v | None => VNone end in
      let* r' := set_species_attribute r k v unit in
      set_all_attributes ks attrs units r'
  end.

(** plaschem/species.py L76-166 [RP.__init__]. [attrs] is the [attributes]
    dictionary, [more] the keyword arguments; [uid] is the identity of the
    new object. *)
Definition rp_init (uid : nat) (id : pyval) (attributes more : list (string * pyval))
           (units : list (string * option string)) : res rp :=
  let attrs := supdate attributes more in
  let* z := match id with
            | VSc (SInt z) => if z <? 0 then Err ERPInit else Ok z
            | _ => Err ERPInit
            end in
  let is_M := match sget "name" attrs with Some (VSc (SStr s)) => String.eqb s "M" | _ => false end in
  let mandatory :=
    "name" :: (if is_M then [] else ["mass"])
           ++ (match sget "state" attrs with
               | Some v => if truthy v then ["stateless"] else []
               | None => []
               end) in
  let* _ := raise_if (negb (subsetS mandatory (akeys attrs))) ERPAttr in
  let* bad := match sget "name" attrs with
              | Some v => name_invalid_chars v
              | None => Err EKey
              end in
  let* _ := raise_if bad ERPAttr in
  let* _ := raise_if (negb (subsetS (akeys attrs) rp_attr_keys)) ERPAttr in
  let unitful := filter (fun k => shas k attrs) (akeys rp_default_units) in
  let* _ := raise_if (negb (subsetS (akeys units) unitful)) ERPAttr in
  set_all_attributes rp_attr_keys attrs units
    {| rp_uid := uid; rp_id := z; rp_attrs := []; rp_units := [] |}.

(** Reading a private attribute. All keys are set by [rp_init]
    (lemma [rp_init_keys]), so the default is never used. *)
Definition rattr (r : rp) (k : string) : pyval :=
  match sget k (rp_attrs r) with Some v => v | None => VNone end.

(** A str-or-None attribute, after [str()]. Values of other types cannot be
    stored (L219). *)
Definition rstr (r : rp) (k : string) : option string :=
  match rattr r k with VSc (SStr s) => Some s | _ => None end.

(** plaschem/species.py L228-236 [RP.get_name]. *)
Definition get_name (r : rp) : res string :=
  match rstr r "name" with Some s => Ok s | None => Err ERPAttr end.

(** plaschem/species.py L174-175 [RP.is_special]. *)
Definition is_special (r : rp) : res bool :=
  let* n := get_name r in Ok (memS n special_names).

(** plaschem/species.py L254-263 [RP.get_state]. *)
Definition get_state (r : rp) : res (option string) :=
  let* sp := is_special r in
  Ok (if sp then None else rstr r "state").

(** plaschem/species.py L177-178 [RP.is_stateless]. *)
Definition is_stateless (r : rp) : res bool :=
  let* st := get_state r in
  Ok (match st with None => true | Some _ => false end).

(** plaschem/species.py L238-252 [RP.get_stateless]. *)
Definition get_stateless (r : rp) : res string :=
  let* sp := is_special r in
  if sp then get_name r
  else match rstr r "stateless" with
       | Some s => Ok s
       | None =>
           let* st := get_state r in
           match st with
           | Some _ => Err ERPAttr
           | None => get_name r
           end
       end.

Definition is_sign (c : ascii) : bool := Ascii.eqb c "+" || Ascii.eqb c "-".
Definition is_digit (c : ascii) : bool :=
  let n := nat_of_ascii c in Nat.leb 48 n && Nat.leb n 57.

(** Does the charge pattern [(?:[+-]+$|[+-]\d+$)] match at this position? *)
Definition charge_here (l : list ascii) : bool :=
  match l with
  | [] => false
  | c :: l' => is_sign c && (forallb is_sign l' ||
                             (match l' with [] => false | _ => forallb is_digit l' end))
  end.

Fixpoint strip_core (l : list ascii) : list ascii :=
  match l with
  | [] => []
  | c :: l' => if charge_here l then [] else c :: strip_core l'
  end.

(** plaschem/species.py L424-434 [RP.strip_charge]: [re.sub] removes the
    leftmost match (it reaches the end of the string, so there is only one);
    [$] also matches before a trailing newline. *)
Definition strip_charge (s : string) : string :=
  let l := chars s in
  match rev l with
  | c :: r => if Ascii.eqb c "010" then str_of (strip_core (rev r) ++ [c])
              else str_of (strip_core l)
  | [] => s
  end.

(** plaschem/species.py L265-275 [RP.get_mass]. *)
Definition get_mass (E : env) (r : rp) : res (option flt) :=
  let* n := get_name r in
  if String.eqb n "M" then Ok None
  else let v := rattr r "mass" in
       if is_none v then Err ERPAttr else let* f := py_float_v E v in Ok (Some f).

(** plaschem/species.py L277-287 [RP.get_charge]. *)
Definition get_charge (E : env) (r : rp) : res (option Z) :=
  let* n := get_name r in
  if String.eqb n "M" then Ok None
  else let v := rattr r "charge" in
       if is_none v then Ok (Some 0) else let* z := py_int_v E v in Ok (Some z).

(** plaschem/species.py L289-323 [RP.get_h_form], [get_lj_epsilon],
    [get_lj_sigma]: the three getters differ in the attribute and default. *)
Definition get_float_default (E : env) (k : string) (dflt : flt) (r : rp) : res (option flt) :=
  let* sp := is_special r in
  if sp then Ok None
  else let v := rattr r k in
       if is_none v then Ok (Some dflt) else let* f := py_float_v E v in Ok (Some f).
Definition get_h_form (E : env) := get_float_default E "h_form" (Fin 0).
Definition get_lj_epsilon (E : env) := get_float_default E "lj_epsilon" (Fin 0).
Definition get_lj_sigma (E : env) := get_float_default E "lj_sigma" (Fin 3).

(** [state is None and self.get_charge() == 0], L355 and L380. *)
Definition stateless_neutral (E : env) (r : rp) : res bool :=
  let* st := get_state r in
  match st with
  | Some _ => Ok false
  | None => let* c := get_charge E r in
            Ok (match c with Some z => z =? 0 | None => false end)
  end.

(** plaschem/species.py L343-358 [RP.get_stick_coef]. *)
Definition get_stick_coef (E : env) (r : rp) : res (option flt) :=
  let* sp := is_special r in
  if sp then Ok None
  else let v := rattr r "stick_coef" in
       if is_none v
       then let* n := stateless_neutral E r in Ok (Some (if n then fzero else fone))
       else let* f := py_float_v E v in Ok (Some f).

(** plaschem/species.py L360-383 [RP.get_ret_coefs]. *)
Definition get_ret_coefs (E : env) (r : rp) : res (option (list (string * flt))) :=
  let* sp := is_special r in
  if sp then Ok None
  else match rattr r "ret_coefs" with
       | VDict d =>
           let* l := mapM (fun kv => let* f := py_float E (snd kv) in Ok (fst kv, f)) d in
           Ok (Some l)
       | _ =>
           let* n := stateless_neutral E r in
           if n then Ok (Some [])
           else let* s := get_stateless r in Ok (Some [(strip_charge s, fone)])
       end.

(** plaschem/species.py L180-190 [RP.get_atoms]. *)
Definition get_atoms (E : env) (r : rp) : res (list (string * Z)) :=
  let* n := get_name r in
  if String.eqb n "e" then Ok []
  else if String.eqb n "M" then Ok [("M", 1)]
  else let* s := get_stateless r in formula_atoms E (strip_charge s).

(** plaschem/species.py L325-341, L385-392 [RP.get_hpem_name], [get_qdb_id],
    [get_comments]. *)
Definition get_hpem_name (r : rp) : option string := rstr r "hpem_name".
Definition get_comments (r : rp) : option string := rstr r "comments".
Definition get_qdb_id (E : env) (r : rp) : res (option Z) :=
  let v := rattr r "qdb_id" in
  if is_none v then Ok None else let* z := py_int_v E v in Ok (Some z).

(** plaschem/species.py L408-420 [RP.get_unit]. *)
Definition rp_get_unit (r : rp) (attr : string) : res string :=
  match sget attr rp_default_units with
  | None => Err ERPAttr
  | Some d => match sget attr (rp_units r) with
              | None => Err EKey
              | Some (Some u) => Ok u
              | Some None => Ok d
              end
  end.
