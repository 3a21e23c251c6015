(** Model of plaschem/chemistry.py L948-1224: the tables
    [Chemistry.species_attributes] and [Chemistry.reactions_attributes] (the
    frame returned; not its rendering on the terminal).

    Simplifications: the chemistry is given by its objects and its state
    ([chem], on the views of the objects); a row of a frame is the list of its
    cells keyed by column; labels of rows are kept symbolic ([label]).  A frame
    with no row at all has the columns of one that has rows. *)
From Verif Require Import Base Species Reactions Chemistry Classification Latex.

(** ** Cells *)

(** Values returned by getters.  In a numeric column pandas replaces None by
    NaN; both are shown, compared and substituted alike, see [equal_sp]. *)
Inductive value :=
| CNone
| CNum (f : flt)                          (* int, float, numpy number *)
| CBool (b : bool)
| CText (s : string)
| CMap (d : list (string * flt)).

(** plaschem/pretty_print.py L5-30 [ColorValue], [colorama.Fore]. *)
Inductive color := Reset | Red | Blue | Yellow | Magenta.
Definition shown : Type := (color * value)%type.

Definition num_of_scalar (x : scalar) : value :=
  match x with
  | SNone => CNone
  | SBool b => CBool b
  | SInt z => CNum (Fin (inject_Z z))
  | SFlt f | SNp f => CNum f
  | SStr s => CText s
  end.
Definition cnum (o : option flt) : value := match o with Some f => CNum f | None => CNone end.
Definition cint (o : option Z) : value := match o with Some z => CNum (Fin (inject_Z z)) | None => CNone end.
Definition ctext (o : option string) : value := match o with Some s => CText s | None => CNone end.

(** ** Comparing what is saved with what is returned *)

(** The number a Python value compares as. *)
Definition vnum (v : pyval) : option flt :=
  match v with
  | VSc (SBool b) => Some (Fin (if b then 1 else 0))
  | VSc (SInt z) => Some (Fin (inject_Z z))
  | VSc (SFlt f) | VSc (SNp f) => Some f
  | _ => None
  end.
Definition cellnum (c : value) : option flt :=
  match c with
  | CNum f => Some f
  | CBool b => Some (Fin (if b then 1 else 0))
  | _ => None
  end.

(** [d == m] for a saved dictionary and a returned one: the same keys with
    equal values, in any order. *)
Definition coef_eq (d : list (string * scalar)) (m : list (string * flt)) : bool :=
  Nat.eqb (List.length d) (List.length m) &&
  forallb (fun kv => match sget (fst kv) m with
                     | Some f => match vnum (VSc (snd kv)) with Some g => feqb g f | None => false end
                     | None => false
                     end) d.

(** [saved == returned] *)
Definition py_eq (v : pyval) (c : value) : bool :=
  match vnum v, cellnum c with
  | Some a, Some b => feqb a b
  | _, _ =>
      match v, c with
      | VSc SNone, CNone => true
      | VSc (SStr s), CText t => String.eqb s t
      | VDict d, CMap m => coef_eq d m
      | _, _ => false
      end
  end.

(** [np.isnan(x)]: TypeError for anything but numbers. *)
Definition np_isnan (c : value) : res bool :=
  match cellnum c with Some f => Ok (is_nan f) | None => Err EType end.

(** [float(x)] of a returned value. *)
Definition cfloat (E : env) (c : value) : res flt :=
  match c with
  | CNum f => Ok f
  | CBool b => Ok (Fin (if b then 1 else 0))
  | CText s => match fparse E s with Some f => Ok f | None => Err EValue end
  | CNone | CMap _ => Err EType
  end.

(** [try: equal = ... except TypeError: pass], with [equal] False before. *)
Definition try_type (r : res bool) : res bool := match r with Err EType => Ok false | _ => r end.

Definition floats_equal (E : env) (v : pyval) (c : value) : res bool :=
  let* a := py_float_v E v in let* b := cfloat E c in Ok (feqb a b).

(** L1004-1021: is the returned value the saved one? *)
Definition equal_sp (E : env) (attr : string) (v : pyval) (c : value) : res bool :=
  if py_eq v c then Ok true
  else let* e := try_type (if is_none v then np_isnan c else Ok false) in
  if e then Ok true
  else let* e := try_type (floats_equal E v c) in
  if e then Ok true
  else if String.eqb attr "ret_coefs"
  then try_type (match v with
                 | VDict d =>
                     let* l := mapM (fun kv => let* f := py_float E (snd kv) in Ok (fst kv, f)) d in
                     Ok (match c with
                         | CMap m => coef_eq (map (fun kv => (fst kv, SFlt (snd kv))) l) m
                         | _ => false
                         end)
                 | _ => Err EType
                 end)
  else Ok false.

(** L1167-1184: the same for reactions.  [boxed] tells whether the cells of
    the column 'elastic' are Python booleans (as opposed to numpy ones, for
    which [is True] fails): this is up to pandas. *)
Definition equal_rx (E : env) (boxed : bool) (v : pyval) (c : value) : res bool :=
  if py_eq v c then Ok true
  else let* e := try_type (if is_none v then np_isnan c else Ok false) in
  if e then Ok true
  else match v with
       | VSc (SStr s) =>
           if memS s ["True"; "true"; "TRUE"]
           then Ok (match c with CBool b => boxed && b | _ => false end)
           else if memS s ["False"; "false"; "FALSE"]
           then Ok (match c with CBool b => boxed && negb b | _ => false end)
           else try_type (floats_equal E v c)
       | _ => try_type (floats_equal E v c)
       end.

(** L1032-1043 and L1194-1205: None and NaN are shown as '...'. *)
Definition subst_blank (c : value) : value :=
  match c with
  | CNone => CText "..."
  | _ => match np_isnan c with Ok true => CText "..." | _ => c end
  end.

(** ** Columns *)
Inductive col := CAttr (attr : string) | CUnit (attr : string) | CString.
Definition col_eqb (a b : col) : bool :=
  match a, b with
  | CAttr x, CAttr y | CUnit x, CUnit y => String.eqb x y
  | CString, CString => true
  | _, _ => false
  end.

(** L969-990: attributes that are not ignored, each followed by its unit when
    units are asked for and the attribute has one. *)
Definition sp_columns (units : bool) (ignored : list string) : list col :=
  flat_map (fun a => CAttr a :: (if units && shas a rp_default_units then [CUnit a] else []))
           (filter (fun a => negb (memS a ignored)) rp_attr_keys).

(** L1081-1106, likewise; the text of the reaction comes first. *)
Definition rx_columns (units : bool) (ignored : list string) : list col :=
  CString ::
  flat_map (fun a => CAttr a :: (if units && shas a rx_default_units then [CUnit a] else []))
           (filter (fun a => negb (memS a ignored)) rx_attr_keys).

Definition at_id {A} (l : list (Z * A)) (i : Z) : res A :=
  match zget i l with Some a => Ok a | None => Err EKey end.

(** L975-980: the chemistry-level getter where there is one (L641-746), the
    getter of the object otherwise; and L984-986 for units. *)
Definition sp_value (E : env) (c : chem) (disabled special : bool) (o : rp) (k : col) : res value :=
  match k with
  | CString => Err EAttribute
  | CUnit a => let* u := rp_get_unit o a in Ok (CText u)
  | CAttr a =>
      if String.eqb a "name" then let* n := at_id (get_species_name c disabled special true) (rp_id o) in Ok (CText n)
      else if String.eqb a "stateless" then let* s := get_stateless o in Ok (CText s)
      else if String.eqb a "state" then let* s := get_state o in Ok (ctext s)
      else if String.eqb a "mass" then let* m := at_id (get_species_mass c disabled special true) (rp_id o) in Ok (cnum m)
      else if String.eqb a "charge" then let* q := at_id (get_species_charge c disabled special true) (rp_id o) in Ok (cint q)
      else if String.eqb a "h_form" then let* x := get_h_form E o in Ok (cnum x)
      else if String.eqb a "lj_epsilon" then let* x := get_lj_epsilon E o in Ok (cnum x)
      else if String.eqb a "lj_sigma" then let* x := get_lj_sigma E o in Ok (cnum x)
      else if String.eqb a "hpem_name" then Ok (ctext (get_hpem_name o))
      else if String.eqb a "qdb_id" then let* z := get_qdb_id E o in Ok (cint z)
      else if String.eqb a "stick_coef"
           then let* x := at_id (get_species_stick_coef c disabled special true) (rp_id o) in Ok (num_of_scalar x)
      else if String.eqb a "ret_coefs"
           then let* d := at_id (get_species_ret_coefs c disabled special true) (rp_id o) in
                Ok (match d with Some m => CMap m | None => CNone end)
      else if String.eqb a "comments" then Ok (ctext (get_comments o))
      else if String.eqb a "latex" then let* s := rp_get_latex o in Ok (CText s)
      else Err EAttribute
  end.

(** A str-or-None attribute of a reaction after [str()] (reactions.py
    L593-610). *)
Definition xstr (r : reaction) (k : string) : option string :=
  match xattr r k with VSc (SStr s) => Some s | _ => None end.
(** plaschem/reactions.py L573-591 [get_qdb_r_id], [get_qdb_ds_id]. *)
Definition xint (E : env) (r : reaction) (k : string) : res (option Z) :=
  if is_none (xattr r k) then Ok None else let* z := py_int_v E (xattr r k) in Ok (Some z).

(** L1085-1106. [gas_heat_contrib] has no chemistry-level getter of that name
    (L819 is misspelt), so the object is asked. *)
Definition rx_value (E : env) (c : chem) (disabled : bool) (r : reaction) (k : col) : res value :=
  match k with
  | CString => let* s := reaction_str r in Ok (CText s)
  | CUnit a => let* u := rx_get_unit r a in Ok (ctext u)
  | CAttr a =>
      if String.eqb a "arrh_a"
      then let* l := get_reactions_arrh_a c disabled false in
           let* x := at_id l (r_id r) in Ok (num_of_scalar x)
      else if String.eqb a "arrh_b" then let* x := at_id (by_reaction rx_arrh_b c disabled) (r_id r) in Ok (cnum x)
      else if String.eqb a "arrh_c" then let* x := at_id (by_reaction rx_arrh_c c disabled) (r_id r) in Ok (cnum x)
      else if String.eqb a "elastic" then let* b := at_id (by_reaction rx_elastic c disabled) (r_id r) in Ok (CBool b)
      else if String.eqb a "el_en_loss" then let* x := at_id (by_reaction rx_el_en_loss c disabled) (r_id r) in Ok (CNum x)
      else if String.eqb a "gas_heat_contrib" then let* x := get_rx_float E "gas_heat_contrib" r in Ok (CNum x)
      else if String.eqb a "special_number" then let* z := get_special_number E r in Ok (CNum (Fin (inject_Z z)))
      else if memS a ["qdb_r_id"; "qdb_ds_id"] then let* z := xint E r a in Ok (cint z)
      else if memS a ["doi"; "comments"] then Ok (ctext (xstr r a))
      else if String.eqb a "latex" then let* s := rx_get_latex r in Ok (CText s)
      else Err EAttribute
  end.

(** ** Colours *)

Definition unit_color (saved : option (option string)) (c : value) : res color :=
  match saved with
  | None => Err EKey
  | Some u => Ok (match u, c with
                  | None, CNone => Reset
                  | Some s, CText t => if String.eqb s t then Reset else Blue
                  | _, _ => Blue
                  end)
  end.

(** L997-1031. *)
Definition sp_color (E : env) (c : chem) (o : rp) (k : col) (v : value) : res color :=
  if negb (c_en c (rp_id o)) then Ok Red
  else match k with
       | CAttr a => let* e := equal_sp E a (rattr o a) v in Ok (if e then Reset else Blue)
       | CUnit a => unit_color (sget a (rp_units o)) v
       | CString => Ok Reset
       end.

(** L1159-1193. *)
Definition rx_color (E : env) (boxed : bool) (c : chem) (r : reaction) (k : col) (v : value) : res color :=
  if negb (c_enr c (r_id r)) then Ok Red
  else match k with
       | CString => Ok Reset
       | CAttr a => let* e := equal_rx E boxed (xattr r a) v in Ok (if e then Reset else Blue)
       | CUnit a => unit_color (sget a (r_units r)) v
       end.

(** One row: L975-990, then L992-1043 when [pretty_print] is set. *)
Definition sp_row (E : env) (c : chem) (disabled special : bool) (cols : list col) (o : rp)
  : res (list (col * value)) :=
  mapM (fun k => let* v := sp_value E c disabled special o k in Ok (k, v)) cols.
Definition paint (f : col -> value -> res color) (row : list (col * value)) : res (list (col * shown)) :=
  mapM (fun kv => let* cl := f (fst kv) (snd kv) in Ok (fst kv, (cl, subst_blank (snd kv)))) row.
Definition plain (row : list (col * value)) : list (col * shown) :=
  map (fun kv => (fst kv, (Reset, snd kv))) row.

(** Objects of the species and reactions in the table; [get_species] and
    [get_reactions] return the objects selected by the masks (L614-639,
    L759-775). *)
Definition sp_objects (objs : list rp) (c : chem) (disabled special : bool) : list rp :=
  map fst (filter (fun p => sp_mask c disabled special true (snd p)) (combine objs (c_species c))).
Definition rx_objects (rxs : list reaction) (c : chem) (disabled : bool) : list reaction :=
  map fst (filter (fun p => disabled || c_enr c (rx_id (snd p))) (combine rxs (c_reactions c))).

Definition locs {A B} (eqb : A -> A -> bool) (l : list A) (frame : list (A * B)) : res (list (A * B)) :=
  mapM (fun i => match aget eqb i frame with Some row => Ok (i, row) | None => Err EKey end) l.

(** plaschem/chemistry.py L948-1058 [species_attributes]; rows keyed by
    species id. *)
Definition species_attributes (E : env) (objs : list rp) (c : chem)
    (disabled special pretty sort units : bool) (ignored : list string)
  : res (list (Z * list (col * shown))) :=
  let cols := sp_columns units ignored in
  let sps := sp_objects objs c disabled special in
  let* rows := mapM (fun o => let* r := sp_row E c disabled special cols o in Ok (rp_id o, (o, r))) sps in
  let* rows := if sort
               then let* cs := mapM (cs_view E) sps in
                    let k := sort_species (clf_new cs []) in
                    let* _ := snd k in
                    locs Z.eqb (map cs_id (k_species (fst k))) rows
               else Ok rows in
  mapM (fun ir => let* r := if pretty then paint (sp_color E c (fst (snd ir))) (snd (snd ir))
                            else Ok (plain (snd (snd ir))) in Ok (fst ir, r)) rows.

(** ** Reactions *)

(** Labels of rows: the id of a reaction, '(Ci)' and '(Ci.j)'. *)
Inductive label := LRx (id : Z) | LType (i : nat) | LCat (i j : nat).
Definition label_eqb (a b : label) : bool :=
  match a, b with
  | LRx x, LRx y => Z.eqb x y
  | LType i, LType j => Nat.eqb i j
  | LCat i j, LCat i' j' => Nat.eqb i i' && Nat.eqb j j'
  | _, _ => false
  end.
Definition frame : Type := list (label * list (col * value)).

(** [pd.Series([text] + [''] * (len(columns) - 1), index=columns)] *)
Definition heading (cols : list col) (text : string) : list (col * value) :=
  match cols with
  | [] => []
  | k :: ks => (k, CText text) :: map (fun k => (k, CText ""%string)) ks
  end.
(** [frame.loc[label] = row] *)
Definition set_row (l : label) (row : list (col * value)) (f : frame) : frame := aset label_eqb l row f.
(** [frame.loc[label, 'string'] = text]; a missing label is added with NaN in
    the other columns. *)
Definition set_text (cols : list col) (l : label) (text : string) (f : frame) : frame :=
  match aget label_eqb l f with
  | Some row => aset label_eqb l (aset col_eqb CString (CText text) row) f
  | None => aset label_eqb l (aset col_eqb CString (CText text) (map (fun k => (k, CNum NaN)) cols)) f
  end.

(** L1118-1139: the headings of one type: the frame, the new order of rows
    and the width of the first column so far. [i] and [j] count from 1. *)
Fixpoint add_categories (cols : list col) (i j : nat) (cats : list (string * list cr))
         (st : frame * list label * nat) : frame * list label * nat :=
  match cats with
  | [] => st
  | (cat, rs) :: cats' =>
      let '(f, order, w) := st in
      let st1 := if negb (String.eqb cat "None")
                 then (set_row (LCat i j) (heading cols cat) f, order ++ [LCat i j],
                       if Nat.ltb w (String.length cat) then String.length cat else w)
                 else (f, order, w) in
      let '(f1, order1, w1) := st1 in
      add_categories cols i (S j) cats' (f1, order1 ++ map (fun r => LRx (cr_id r)) rs, w1)
  end.
Fixpoint add_types (cols : list col) (i : nat) (t : table) (st : frame * list label * nat)
  : frame * list label * nat :=
  match t with
  | [] => st
  | (ty, cats) :: t' =>
      let '(f, order, w) := st in
      add_types cols (S i) t'
        (add_categories cols i 1 cats
           (set_row (LType i) (heading cols ty) f, order ++ [LType i],
            if Nat.ltb w (String.length ty) then String.length ty else w))
  end.

(** L1140-1145: the texts of the reactions, padded to the width so far. *)
Fixpoint align_all (cols : list col) (k : clf) (rs : list cr) (f : frame) (w : nat) : res (frame * nat) :=
  match rs with
  | [] => Ok (f, w)
  | r :: rs' =>
      match get_aligned k r with
      | (_, Err e) => Err e
      | (k', Ok s) =>
          align_all cols k' rs' (set_text cols (LRx (cr_id r)) (ljust s w) f)
                    (if Nat.ltb w (String.length s) then String.length s else w)
      end
  end.

(** L1146-1150: the names of the categories, padded. *)
Fixpoint pad_categories (cols : list col) (i j : nat) (cats : list (string * list cr)) (w : nat) (f : frame) : frame :=
  match cats with
  | [] => f
  | (cat, _) :: cats' => pad_categories cols i (S j) cats' w (set_text cols (LCat i j) (ljust cat w) f)
  end.
Fixpoint pad_types (cols : list col) (i : nat) (t : table) (w : nat) (f : frame) : frame :=
  match t with
  | [] => f
  | (_, cats) :: t' => pad_types cols (S i) t' w (pad_categories cols i 1 cats w f)
  end.

(** L1108-1155: sorting and classification. *)
Definition arrange (cols : list col) (species : list cs) (reactions : list cr) (sort classify : bool) (f : frame)
  : res frame :=
  if negb (sort || classify) then Ok f
  else
    let k := clf_new species reactions in
    let* k := if sort
              then match sort_species k with
                   | (_, Err e) => Err e
                   | (k1, Ok _) => match sort_reactions k1 with
                                   | (_, Err e) => Err e
                                   | (k2, Ok _) => Ok k2
                                   end
                   end
              else Ok k in
    if classify
    then match get_classified k with
         | (_, Err e) => Err e
         | (k1, Ok t) =>
             let '(f1, order, w) := add_types cols 1 t (f, [], O) in
             let* fw := align_all cols k1 reactions f1 w in
             locs label_eqb order (pad_types cols 1 t (snd fw) (fst fw))
         end
    else locs label_eqb (map (fun r => LRx (cr_id r)) (k_reactions k)) f.

(** L1157-1216: colours.  Rows of reactions are coloured by [rx_color], the
    first column of headings in yellow or magenta. *)
Definition paint_heading (cl : color) (row : list (col * value)) : list (col * shown) :=
  map (fun kv => (fst kv, (match fst kv with CString => cl | _ => Reset end, snd kv))) row.
Definition paint_row (E : env) (boxed : bool) (c : chem) (rxs : list reaction) (lr : label * list (col * value))
  : res (label * list (col * shown)) :=
  match fst lr with
  | LType _ => Ok (fst lr, paint_heading Yellow (snd lr))
  | LCat _ _ => Ok (fst lr, paint_heading Magenta (snd lr))
  | LRx i => match find (fun r => r_id r =? i) rxs with
             | None => Err EKey
             | Some r => let* row := paint (rx_color E boxed c r) (snd lr) in Ok (fst lr, row)
             end
  end.

(** plaschem/chemistry.py L1060-1224 [reactions_attributes].  The classifier
    gets the species selected by [get_species(disabled, special=True)]. *)
Definition reactions_attributes (E : env) (boxed : bool) (objs : list rp) (rxs : list reaction) (c : chem)
    (disabled pretty sort classify units : bool) (ignored : list string)
  : res (list (label * list (col * shown))) :=
  let cols := rx_columns units ignored in
  let rs := rx_objects rxs c disabled in
  let* f := mapM (fun r => let* row := mapM (fun k => let* v := rx_value E c disabled r k in Ok (k, v)) cols in
                           Ok (LRx (r_id r), row)) rs in
  let* f := if sort || classify
            then let* cs := mapM (cs_view E) (sp_objects objs c disabled true) in
                 let* crs := mapM (cr_view E) rs in
                 arrange cols cs crs sort classify f
            else Ok f in
  if pretty then mapM (paint_row E boxed c rs) f
  else Ok (map (fun lr => (fst lr, plain (snd lr))) f).
