(** Model of plaschem/reactions.py, class Reaction. *)
From Verif Require Import Base Species.

(** plaschem/reactions.py L17-30 [default_attributes] (keys, in order). *)
Definition rx_attr_keys : list string :=
  ["arrh_a"; "arrh_b"; "arrh_c"; "elastic"; "el_en_loss"; "gas_heat_contrib";
   "special_number"; "qdb_r_id"; "qdb_ds_id"; "doi"; "comments"; "latex"].

(** plaschem/reactions.py L37-50 [allowed_attribute_types]. *)
Definition rx_attr_types (attr : string) : list pytype :=
  if memS attr ["arrh_a"; "arrh_b"; "arrh_c"; "el_en_loss"; "gas_heat_contrib"]
  then [TFlt; TNp; TStr; TInt; TNone]
  else if memS attr ["special_number"; "qdb_r_id"; "qdb_ds_id"] then [TInt; TStr; TNone]
  else if memS attr ["doi"; "comments"; "latex"] then [TStr; TNone]
  else if memS attr ["elastic"] then [TBool; TStr; TNone]
  else [].

(** plaschem/reactions.py L53-58 [default_units]. *)
Definition rx_default_units : list (string * option string) :=
  [("arrh_a", None); ("arrh_c", None); ("el_en_loss", Some "eV"); ("gas_heat_contrib", Some "eV")].

(** plaschem/reactions.py L59-64 [allowed_unit_values] (without None). *)
Definition rx_units_allowed (attr : string) : list string :=
  if String.eqb attr "arrh_a" then ["s-1"; "cm3.s-1"; "m3.s-1"; "cm6.s-1"; "m6.s-1"]
  else if String.eqb attr "arrh_c" then ["eV"; "K"]
  else if memS attr ["el_en_loss"; "gas_heat_contrib"] then ["eV"]
  else [].

(** plaschem/reactions.py L65-71 [si_conversion_factors['arrh_a']]. *)
Definition si_factors : list (string * Q) :=
  [("s-1", 1); ("m3.s-1", 1); ("m6.s-1", 1); ("cm3.s-1", 1 # 1000000);
   ("cm6.s-1", 1 # 1000000000000)]%Q.

(** plaschem/reactions.py L33 [allowed_attribute_values['elastic']]:
    membership in the set of None, truth values and their spellings.  A
    dictionary is unhashable (TypeError). The ints 0 and 1 equal False and
    True; they are rejected later by the type check. *)
Definition elastic_allowed (v : pyval) : res bool :=
  match v with
  | VSc SNone | VSc (SBool _) => Ok true
  | VSc (SInt z) => Ok ((z =? 0) || (z =? 1))
  | VSc (SFlt f) | VSc (SNp f) => Ok (feqb f fzero || feqb f fone)
  | VSc (SStr s) => Ok (memS s ["true"; "True"; "TRUE"; "false"; "False"; "FALSE"])
  | VDict _ => Err EType
  | VOther => Ok false
  end.

Record reaction : Type := MkReaction {
  r_id : Z;
  r_lhs : list rp;
  r_rhs : list rp;
  r_attrs : list (string * pyval);
  r_units : list (string * option string)
}.

Definition xattr (r : reaction) (k : string) : pyval :=
  match sget k (r_attrs r) with Some v => v | None => VNone end.

Inductive method := Lhs | Rhs | Net.

(** Names of the species of one side. *)
Definition names_of (l : list rp) : res (list string) := mapM get_name l.

(** plaschem/reactions.py L308-313 [is_electron_process]. *)
Definition is_electron_process (r : reaction) : res bool :=
  let* ns := names_of (r_lhs r) in Ok (memS "e" ns).

(** plaschem/reactions.py L418-471 [set_reaction_attribute]. *)
Definition set_reaction_attribute (E : env) (r : reaction) (attr : string) (v : pyval)
           (unit : option string) : res reaction :=
  let has_v := negb (is_none v) in
  (* L430-436 *)
  let* _ := match unit with
            | Some u => if has_v
                        then if negb (shas attr rx_default_units) then Err EReactionAttr
                             else raise_if (negb (memS u (rx_units_allowed attr))) EReactionAttr
                        else Ok tt
            | None => Ok tt
            end in
  (* L438-439 *)
  let* _ := raise_if (has_v && memS attr ["arrh_a"; "arrh_c"] &&
                      match unit with None => true | Some _ => false end) EReactionAttr in
  (* L442-446 *)
  let* _ := if String.eqb attr "arrh_c" && has_v
            then let* el := is_electron_process r in
                 let want := if el then "eV" else "K" in
                 raise_if (negb (match unit with Some u => String.eqb u want | None => false end))
                          EReactionAttr
            else Ok tt in
  (* L447-455 *)
  let* _ := if String.eqb attr "arrh_a" && has_v
            then match List.length (r_lhs r), unit with
                 | 1%nat, u => raise_if (negb (match u with Some u => String.eqb u "s-1"
                                                          | None => false end)) EReactionAttr
                 | 2%nat, Some u => raise_if (negb (endswith u "3.s-1")) EReactionAttr
                 | 3%nat, Some u => raise_if (negb (endswith u "6.s-1")) EReactionAttr
                 | 0%nat, _ => Ok tt
                 | 2%nat, None | 3%nat, None => Err EAttribute
                 | _, _ => Err EReactionInit
                 end
            else Ok tt in
  (* L458-459 *)
  let* _ := raise_if (negb (memS attr rx_attr_keys)) EReactionAttr in
  (* L460-461 *)
  let* _ := if String.eqb attr "elastic"
            then let* a := elastic_allowed v in raise_if (negb a) EReactionAttr
            else Ok tt in
  (* L462-464 *)
  let* _ := raise_if (negb (type_in v (rx_attr_types attr))) EReactionAttr in
  (* L465-467 *)
  let* _ := if String.eqb attr "arrh_a" && has_v
            then let* f := py_float_v E v in raise_if (fltb f fzero) EReactionAttr
            else Ok tt in
  Ok {| r_id := r_id r; r_lhs := r_lhs r; r_rhs := r_rhs r;
        r_attrs := sset attr v (r_attrs r);
        r_units := sset attr unit (r_units r) |}.

(** plaschem/reactions.py L165-170, the loop over [default_attributes]. *)
Fixpoint set_all_rattributes (E : env) (keys : list string) (attrs : list (string * pyval))
         (units : list (string * option string)) (r : reaction) : res reaction :=
  match keys with
  | [] => Ok r
  | k :: ks =>
      let unit := match sget k units with Some u => u | None => None end in
      let v := match sget k attrs with Some v => v | None => VNone end in
      let* r' := set_reaction_attribute E r k v unit in
      set_all_rattributes E ks attrs units r'
  end.

(** Charge sum of one side, the species M not counted (L353-354). Named
    species other than M always have an integer charge. *)
Fixpoint side_charge (E : env) (l : list rp) : res Z :=
  match l with
  | [] => Ok 0
  | s :: l' =>
      let* n := get_name s in
      if String.eqb n "M" then side_charge E l'
      else let* c := get_charge E s in
           let* t := side_charge E l' in
           Ok (match c with Some z => z | None => 0 end + t)
  end.

(** [try: d[atom] += n  except KeyError: d[atom] = n], L362-366. *)
Definition add_atom (d : list (string * Z)) (kv : string * Z) : list (string * Z) :=
  match sget (fst kv) d with
  | Some n => sset (fst kv) (n + snd kv) d
  | None => sset (fst kv) (snd kv) d
  end.

Fixpoint side_atoms (E : env) (d : list (string * Z)) (l : list rp) : res (list (string * Z)) :=
  match l with
  | [] => Ok d
  | s :: l' => let* a := get_atoms E s in side_atoms E (fold_left add_atom a d) l'
  end.

(** Equality of two dictionaries with distinct keys. *)
Definition dict_eqb (d e : list (string * Z)) : bool :=
  Nat.eqb (List.length d) (List.length e) &&
  forallb (fun kv => match sget (fst kv) e with Some n => n =? snd kv | None => false end) d.

(** plaschem/reactions.py L347-375 [assert_consistency]. *)
Definition reaction_consistency (E : env) (r : reaction) : res unit :=
  let* cl := side_charge E (r_lhs r) in
  let* cr := side_charge E (r_rhs r) in
  let* _ := raise_if (negb (cl =? cr)) EReactionValue in
  let* al := side_atoms E [] (r_lhs r) in
  let* ar := side_atoms E [] (r_rhs r) in
  raise_if (negb (dict_eqb al ar)) EReactionValue.

(** plaschem/reactions.py L73-173 [Reaction.__init__]. *)
Definition reaction_init (E : env) (id : pyval) (lhs rhs : list rp)
           (attributes more : list (string * pyval)) (units : list (string * option string))
  : res reaction :=
  let attrs := supdate attributes more in
  let* z := match id with
            | VSc (SInt z) => if z <=? 0 then Err EReactionInit else Ok z
            | _ => Err EReactionInit
            end in
  let* _ := raise_if (Nat.ltb (List.length lhs) 1 || Nat.ltb (List.length rhs) 1) EReactionInit in
  let* _ := raise_if (Nat.ltb 3 (List.length lhs)) EReactionInit in
  let* _ := raise_if (negb (shas "special_number" attrs) && negb (shas "arrh_a" attrs)) EReactionAttr in
  let* _ := raise_if (negb (subsetS (akeys attrs) rx_attr_keys)) EReactionAttr in
  let unitful := filter (fun k => shas k attrs) (akeys rx_default_units) in
  let* _ := raise_if (negb (subsetS (akeys units) unitful)) EReactionAttr in
  let mandatory_units := filter (fun k => shas k attrs) ["arrh_a"; "arrh_c"] in
  let* _ := raise_if (negb (subsetS mandatory_units (akeys units))) EReactionAttr in
  let* r := set_all_rattributes E rx_attr_keys attrs units
              {| r_id := z; r_lhs := lhs; r_rhs := rhs; r_attrs := []; r_units := [] |} in
  let* _ := reaction_consistency E r in
  Ok r.

(** plaschem/reactions.py L175-178 [__str__]. *)
Definition reaction_str (r : reaction) : res string :=
  let* ls := names_of (r_lhs r) in
  let* rs := names_of (r_rhs r) in
  Ok (str_join " + " ls ++ " > " ++ str_join " + " rs)%string.

(** [sorted(l)] on strings (insertion sort; the order is total, so the result
    does not depend on the algorithm). *)
Fixpoint sinsert (x : string) (l : list string) : list string :=
  match l with
  | [] => [x]
  | y :: l' => if String.leb x y then x :: l else y :: sinsert x l'
  end.
Fixpoint ssort (l : list string) : list string :=
  match l with [] => [] | x :: l' => sinsert x (ssort l') end.

(** plaschem/reactions.py L218-229 [unique_key]. *)
Definition unique_key (s : string) : res (list string * list string) :=
  match str_split " > " s with
  | [l; r] => Ok (ssort (map str_strip (str_split " + " l)),
                  ssort (map str_strip (str_split " + " r)))
  | _ => Err EValue
  end.

(** [d[k] += n] for a key that is present. *)
Definition zadd (n : Z) (d : list (Z * Z)) (k : Z) : list (Z * Z) :=
  match zget k d with Some v => zset k (v + n) d | None => d end.

(** plaschem/reactions.py L231-261 [get_stoich_coefs], with L286-306
    [get_rp_ids_set]; stated on lists of ids so that it can be shared with
    the chemistry-level view of reactions. *)
Definition stoich_coefs (m : method) (lhs rhs : list Z) : list (Z * Z) :=
  let zeros l := map (fun i => (i, 0)) (odedupZ l) in
  match m with
  | Lhs => fold_left (zadd 1) lhs (zeros lhs)
  | Rhs => fold_left (zadd 1) rhs (zeros rhs)
  | Net => fold_left (zadd (-1)) lhs (fold_left (zadd 1) rhs (zeros (lhs ++ rhs)))
  end.

Definition get_stoich_coefs (m : method) (r : reaction) : list (Z * Z) :=
  stoich_coefs m (map rp_id (r_lhs r)) (map rp_id (r_rhs r)).

(** plaschem/reactions.py L641-652 [get_unit]. *)
Definition rx_get_unit (r : reaction) (attr : string) : res (option string) :=
  match sget attr rx_default_units with
  | None => Err EReactionAttr
  | Some d => match sget attr (r_units r) with
              | None => Err EKey
              | Some (Some u) => Ok (Some u)
              | Some None => Ok d
              end
  end.

(** [si_conversion_factors['arrh_a'][unit]] *)
Definition si_factor (unit : option string) : res Q :=
  match unit with
  | Some u => match sget u si_factors with Some q => Ok q | None => Err EKey end
  | None => Err EKey
  end.

(** plaschem/reactions.py L475-488 [get_arrh_a]. *)
Definition get_arrh_a (E : env) (si : bool) (r : reaction) : res (option flt) :=
  let v := xattr r "arrh_a" in
  if is_none v then Ok None
  else let* f := py_float_v E v in
       if si then let* u := rx_get_unit r "arrh_a" in
                  let* q := si_factor u in Ok (Some (fmul f (Fin q)))
       else Ok (Some f).

(** plaschem/reactions.py L490-516 [get_arrh_b], [get_arrh_c]. *)
Definition get_arrh_bc (E : env) (k : string) (r : reaction) : res (option flt) :=
  let v := xattr r k in
  if is_none v
  then let* a := get_arrh_a E true r in
       Ok (match a with Some _ => Some fzero | None => None end)
  else let* f := py_float_v E v in Ok (Some f).

(** plaschem/reactions.py L533-555 [get_el_en_loss], [get_gas_heat_contrib]. *)
Definition get_rx_float (E : env) (k : string) (r : reaction) : res flt :=
  let v := xattr r k in if is_none v then Ok fzero else py_float_v E v.

(** Set equality of two lists of names (L526). *)
Definition set_eqb (l m : list string) : bool := subsetS l m && subsetS m l.

(** plaschem/reactions.py L518-531 [get_elastic]. *)
Definition get_elastic (r : reaction) : res bool :=
  match xattr r "elastic" with
  | VSc SNone =>
      let* ls := names_of (r_lhs r) in
      let* rs := names_of (r_rhs r) in
      Ok (set_eqb ls rs)
  | VSc (SBool b) => Ok b
  | VSc (SStr s) => Ok (memS s ["true"; "True"; "TRUE"])
  | _ => Ok false
  end.

(** plaschem/reactions.py L557-571 [get_special_number]. *)
Definition get_special_number (E : env) (r : reaction) : res Z :=
  let v := xattr r "special_number" in
  if is_none v then let* el := is_electron_process r in Ok (if el then 10 else 20)
  else py_int_v E v.

(** plaschem/reactions.py L193-210 [get_rp] by name or id. *)
Inductive rp_key := KName (s : string) | KId (z : Z).
Definition reaction_get_rp (r : reaction) (k : rp_key) : res rp :=
  let all := r_lhs r ++ r_rhs r in
  let* ns := names_of all in
  match k with
  | KName n =>
      match find (fun s => match get_name s with Ok m => String.eqb m n | Err _ => false end) all with
      | Some s => Ok s
      | None => Err EValue
      end
  | KId z =>
      match find (fun s => rp_id s =? z) all with Some s => Ok s | None => Err EValue end
  end.

(** plaschem/reactions.py L399-414 [get_electron_collision_partner]. *)
Fixpoint first_heavy (l : list rp) : res rp :=
  match l with
  | [] => Err EReactionValue
  | s :: l' => let* sp := is_special s in if sp then first_heavy l' else Ok s
  end.
Definition get_electron_collision_partner (r : reaction) : res rp :=
  let* el := is_electron_process r in
  if el then first_heavy (r_lhs r) else Err EReactionValue.
