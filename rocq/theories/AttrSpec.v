(** Vocabulary for the tables of attributes: when a returned value says the
    same as the one saved, what getters return, and how the table of classified
    reactions is laid out. *)
From Coq Require Import Permutation Sorted.
From Verif Require Import Base Species Reactions Chemistry Classification ClassSpec Latex AttrTable.

(** ** Saved and returned values *)

(** Numbers as saved (possibly as a text) and as returned. *)
Inductive saved_number (E : env) : pyval -> flt -> Prop :=
| sn_bool b : saved_number E (VSc (SBool b)) (Fin (if b then 1 else 0))
| sn_int z : saved_number E (VSc (SInt z)) (Fin (inject_Z z))
| sn_float f : saved_number E (VSc (SFlt f)) f
| sn_np f : saved_number E (VSc (SNp f)) f
| sn_text s f : fparse E s = Some f -> saved_number E (VSc (SStr s)) f.
Inductive returned_number (E : env) : value -> flt -> Prop :=
| rn_number f : returned_number E (CNum f) f
| rn_bool b : returned_number E (CBool b) (Fin (if b then 1 else 0))
| rn_text s f : fparse E s = Some f -> returned_number E (CText s) f.
Inductive same_number : flt -> flt -> Prop :=
| same_finite p q : (p == q)%Q -> same_number (Fin p) (Fin q)
| same_pinf : same_number PInf PInf
| same_ninf : same_number NInf NInf.

(** The returned value says the same as the saved one: nothing for nothing,
    the same text, equal numbers, or equal coefficients (dictionaries have
    distinct keys, so equally many entries with equal values are equal
    dictionaries). *)
Inductive says_same (E : env) : pyval -> value -> Prop :=
| ss_none : says_same E (VSc SNone) CNone
| ss_nan : says_same E (VSc SNone) (CNum NaN)
| ss_text s : says_same E (VSc (SStr s)) (CText s)
| ss_number v c f g : saved_number E v f -> returned_number E c g -> same_number f g -> says_same E v c
| ss_coefs d m :
    List.length d = List.length m ->
    (forall k x, In (k, x) d -> exists f g, sget k m = Some g /\ saved_number E (VSc x) f /\ same_number f g) ->
    says_same E (VDict d) (CMap m).

(** A text that cannot be read as a number has to be compared. *)
Inductive unreadable (E : env) : pyval -> value -> Prop :=
| ur_saved s c : fparse E s = None -> unreadable E (VSc (SStr s)) c
| ur_returned v f s : saved_number E v f -> fparse E s = None -> unreadable E v (CText s)
| ur_coef d c k s : In (k, SStr s) d -> fparse E s = None -> unreadable E (VDict d) c.

(** Spellings of truth values. *)
Inductive spells : pyval -> bool -> Prop :=
| sp_true s : In s ["true"; "True"; "TRUE"] -> spells (VSc (SStr s)) true
| sp_false s : In s ["false"; "False"; "FALSE"] -> spells (VSc (SStr s)) false.
Inductive says_same_rx (E : env) (boxed : bool) : pyval -> value -> Prop :=
| sr_other v c : (forall b, ~ spells v b) -> says_same E v c -> says_same_rx E boxed v c
| sr_text s : says_same_rx E boxed (VSc (SStr s)) (CText s)
| sr_truth v b : boxed = true -> spells v b -> says_same_rx E boxed v (CBool b).

(** ** What getters return, as cells *)
Definition number_cell (o : option flt) (v : value) : Prop :=
  match o with Some f => v = CNum f | None => v = CNone end.
Definition integer_cell (o : option Z) (v : value) : Prop :=
  match o with Some z => v = CNum (Fin (inject_Z z)) | None => v = CNone end.
Definition text_cell (o : option string) (v : value) : Prop :=
  match o with Some s => v = CText s | None => v = CNone end.
Definition adhoc_cell (x : scalar) (v : value) : Prop :=
  match x with
  | SNone => v = CNone
  | SBool b => v = CBool b
  | SInt z => v = CNum (Fin (inject_Z z))
  | SFlt f | SNp f => v = CNum f
  | SStr s => v = CText s
  end.

(** The cell of species [o] under a column: what the getter of the chemistry,
    or else that of the species, returns. *)
Inductive sp_returns (E : env) (c : chem) (disabled special : bool) (o : rp) : col -> value -> Prop :=
| gr_name n : get_name o = Ok n -> sp_returns E c disabled special o (CAttr "name") (CText n)
| gr_stateless n : get_stateless o = Ok n -> sp_returns E c disabled special o (CAttr "stateless") (CText n)
| gr_state t v : get_state o = Ok t -> text_cell t v -> sp_returns E c disabled special o (CAttr "state") v
| gr_mass m v : get_mass E o = Ok m -> number_cell m v -> sp_returns E c disabled special o (CAttr "mass") v
| gr_charge q v : get_charge E o = Ok q -> integer_cell q v -> sp_returns E c disabled special o (CAttr "charge") v
| gr_h_form x v : get_h_form E o = Ok x -> number_cell x v -> sp_returns E c disabled special o (CAttr "h_form") v
| gr_epsilon x v : get_lj_epsilon E o = Ok x -> number_cell x v -> sp_returns E c disabled special o (CAttr "lj_epsilon") v
| gr_sigma x v : get_lj_sigma E o = Ok x -> number_cell x v -> sp_returns E c disabled special o (CAttr "lj_sigma") v
| gr_hpem v : text_cell (get_hpem_name o) v -> sp_returns E c disabled special o (CAttr "hpem_name") v
| gr_qdb z v : get_qdb_id E o = Ok z -> integer_cell z v -> sp_returns E c disabled special o (CAttr "qdb_id") v
| gr_stick x v : zget (rp_id o) (get_species_stick_coef c disabled special true) = Some x -> adhoc_cell x v ->
    sp_returns E c disabled special o (CAttr "stick_coef") v
| gr_ret_none : zget (rp_id o) (get_species_ret_coefs c disabled special true) = Some None ->
    sp_returns E c disabled special o (CAttr "ret_coefs") CNone
| gr_ret m : zget (rp_id o) (get_species_ret_coefs c disabled special true) = Some (Some m) ->
    sp_returns E c disabled special o (CAttr "ret_coefs") (CMap m)
| gr_comments v : text_cell (get_comments o) v -> sp_returns E c disabled special o (CAttr "comments") v
| gr_latex t : rp_get_latex o = Ok t -> sp_returns E c disabled special o (CAttr "latex") (CText t)
| gr_unit a u : rp_get_unit o a = Ok u -> sp_returns E c disabled special o (CUnit a) (CText u).

(** Likewise for reactions; the rate coefficient is in its nominal units. *)
Inductive rx_returns (E : env) (c : chem) (disabled : bool) (r : reaction) : col -> value -> Prop :=
| rr_string s : reaction_str r = Ok s -> rx_returns E c disabled r CString (CText s)
| rr_a l x v : get_reactions_arrh_a c disabled false = Ok l -> zget (r_id r) l = Some x -> adhoc_cell x v ->
    rx_returns E c disabled r (CAttr "arrh_a") v
| rr_b x v : get_arrh_bc E "arrh_b" r = Ok x -> number_cell x v -> rx_returns E c disabled r (CAttr "arrh_b") v
| rr_c x v : get_arrh_bc E "arrh_c" r = Ok x -> number_cell x v -> rx_returns E c disabled r (CAttr "arrh_c") v
| rr_elastic b : get_elastic r = Ok b -> rx_returns E c disabled r (CAttr "elastic") (CBool b)
| rr_loss f : get_rx_float E "el_en_loss" r = Ok f -> rx_returns E c disabled r (CAttr "el_en_loss") (CNum f)
| rr_heat f : get_rx_float E "gas_heat_contrib" r = Ok f -> rx_returns E c disabled r (CAttr "gas_heat_contrib") (CNum f)
| rr_number z : get_special_number E r = Ok z ->
    rx_returns E c disabled r (CAttr "special_number") (CNum (Fin (inject_Z z)))
| rr_id_none a : In a ["qdb_r_id"; "qdb_ds_id"] -> xattr r a = VNone -> rx_returns E c disabled r (CAttr a) CNone
| rr_id a z : In a ["qdb_r_id"; "qdb_ds_id"] -> py_int_v E (xattr r a) = Ok z ->
    rx_returns E c disabled r (CAttr a) (CNum (Fin (inject_Z z)))
| rr_text_none a : In a ["doi"; "comments"] -> xattr r a = VNone -> rx_returns E c disabled r (CAttr a) CNone
| rr_text a s : In a ["doi"; "comments"] -> xattr r a = VStr s -> rx_returns E c disabled r (CAttr a) (CText s)
| rr_latex t : rx_get_latex r = Ok t -> rx_returns E c disabled r (CAttr "latex") (CText t)
| rr_unit a u v : rx_get_unit r a = Ok u -> text_cell u v -> rx_returns E c disabled r (CUnit a) v.

(** What is shown for a value: dots for a missing one. *)
Definition shows (v w : value) : Prop :=
  ((v = CNone \/ v = CNum NaN) /\ w = CText "...") \/ (v <> CNone /\ v <> CNum NaN /\ w = v).

(** ** Layout of the table of classified reactions *)

Definition is_type (l : label) : Prop := match l with LType _ => True | _ => False end.
Definition is_heading (l : label) : Prop := match l with LRx _ => False | _ => True end.

(** A name followed by blanks. *)
Definition padded (n s : string) : Prop := exists k, s = (n ++ spaces k)%string.

(** One side of an aligned reaction: the names in the order of the list of
    species, padded, then blank fields; the fields have the given widths. *)
Definition aligned_side (species side : list cs) (widths : list nat) (s : string) : Prop :=
  exists order places fields blanks,
    in_order species side order places /\ Forall2 padded (map cs_name order) fields /\ Forall (padded "") blanks /\
    map String.length (fields ++ blanks) = widths /\ s = str_join " + " (fields ++ blanks).

(** The rows of a classified table, given types, their categories and the
    reactions in them: a heading for each type and each category (but the one
    called 'None'), reactions under their heading. *)
Definition numbered {A} (n : nat) (l : list A) : list (nat * A) := combine (seq n (List.length l)) l.
Definition category_rows (i : nat) (jc : nat * (string * list Z)) : list label :=
  let '(j, (category, ids)) := jc in
  (if String.eqb category "None" then [] else [LCat i j]) ++ map LRx ids.
Definition type_rows (it : nat * (string * list (string * list Z))) : list label :=
  let '(i, (_, categories)) := it in
  LType i :: flat_map (category_rows i) (numbered 1 categories).
Definition layout (blocks : list (string * list (string * list Z))) : list label :=
  flat_map type_rows (numbered 1 blocks).
(** A classification of reactions, by their ids. *)
Definition ids_of (d : table) : list (string * list (string * list Z)) :=
  map (fun tc => (fst tc, map (fun cl => (fst cl, map cr_id (snd cl))) (snd tc))) d.
(** The text of a reaction of class [tc], for widths [W]. *)
Definition text_ok (species : list cs) (W : string * string -> option (list nat * list nat)) (r : cr) (s : string) : Prop :=
  exists tc w left right n, classify r = Ok tc /\ W tc = Some w /\
    s = (left ++ " > " ++ right ++ spaces n)%string /\
    aligned_side species (cr_lhs r) (fst w) left /\ aligned_side species (cr_rhs r) (snd w) right.


(** ** Columns, headings and order *)

(** The columns of a table: the text, the attributes not ignored and, if asked
    for, their units. *)
Definition rx_header (units : bool) (ignored : list string) (cols : list col) : Prop :=
  NoDup cols /\ In CString cols /\
  (forall a, In (CAttr a) cols <-> In a rx_attr_keys /\ ~ In a ignored) /\
  (forall a, In (CUnit a) cols <-> units = true /\ In a (akeys rx_default_units) /\ In a rx_attr_keys /\ ~ In a ignored).
(** A heading shows a text in a colour, in the first column only. *)
Definition heading_row (cl : color) (text : string) (row : list (col * shown)) : Prop :=
  forall k x w, In (k, (x, w)) row ->
    (k = CString /\ x = cl /\ w = CText text) \/ (k <> CString /\ x = Reset /\ w = CText "").

(** The species and reactions of the table, in order. *)
Definition shown_order (E : env) (objs : list rp) (rxs : list reaction) (c : chem) (disabled sort : bool) (species : list cs) (order : list cr) : Prop :=
  Permutation (map cs_id species) (map sp_id (get_species c disabled true true)) /\
  (forall s, In s species -> exists o, In o objs /\ cs_view E o = Ok s) /\
  Permutation (map cr_id order) (map rx_id (get_reactions c disabled)) /\
  (forall r, In r order -> exists x, In x rxs /\ cr_view E x = Ok r) /\
  if sort
  then ((forall s, In s species -> sortable s) -> StronglySorted (fun a b => ~ before b a) species) /\
       StronglySorted (fun a b => ~ earlier species b a) order
  else map cs_id species = map sp_id (get_species c disabled true true) /\
       map cr_id order = map rx_id (get_reactions c disabled).
