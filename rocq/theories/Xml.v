(** Model of plaschem/xml_inputs.py, classes XmlBuilder and XmlParser, without
    the methods that read the QDB database and HPEM files.

    Simplifications: elements are kept as a tree; the text of a file is not
    modelled, reading a file gives the elements that were written (Section
    Files), which is the case as long as the strings consist of characters
    that XML can represent and keep. Units are strings. *)
From Verif Require Import Base Species Reactions SortLemmas Classification.

(** ** Elements *)

(** A sub-element holds a text (None when there is none), or is the list of
    return species, one sub-sub-element 'r' each with the attribute 'rp'. *)
Inductive body : Type := BText (t : option string) | BRets (l : list (string * option string)).
Record item : Type := MkItem { it_tag : string; it_unit : option string; it_body : body }.
(** An element 'rp' or 'reaction' with its attribute 'id'. *)
Record element : Type := MkEl { el_id : string; el_items : list item }.

(** [element.text]; white space inside an element that has sub-elements is
    not modelled. *)
Definition it_text (i : item) : option string := match it_body i with BText t => t | BRets _ => None end.
Definition it_rets (i : item) : list (string * option string) := match it_body i with BText _ => [] | BRets l => l end.

(** [xml.find(tag)] *)
Definition find_tag (tag : string) (e : element) : option item :=
  find (fun i => String.eqb (it_tag i) tag) (el_items e).

Definition text_scalar (t : option string) : scalar := match t with Some s => SStr s | None => SNone end.

(** ** XmlBuilder *)

(** Equality of dictionary keys: numbers of different types are equal when
    their values are. *)
Definition number_of (x : scalar) : option flt :=
  match x with
  | SBool b => Some (Fin (if b then 1 else 0))
  | SInt z => Some (Fin (inject_Z z))
  | SFlt f | SNp f => Some f
  | _ => None
  end.
Definition key_eqb (x y : scalar) : bool :=
  match x, y with
  | SNone, SNone => true
  | SStr s, SStr t => String.eqb s t
  | _, _ => match number_of x, number_of y with Some f, Some g => feqb f g | _, _ => false end
  end.

(** L39-46. Only the keys of [species_dict] are ever looked at. *)
Record builder : Type := MkB { b_keys : list scalar; b_species : list element; b_reactions : list element }.
Definition b_empty : builder := MkB [] [] [].

Definition known (b : builder) (k : scalar) : bool := existsb (key_eqb k) (b_keys b).

Section Builder.
  (** [str()] of numbers is that of the environment, that of dictionaries and
      other objects is arbitrary. *)
  Variables (E : env) (show_other : pyval -> string).

  Definition show_scalar (x : scalar) : string :=
    match x with
    | SNone => "None"
    | SBool b => if b then "True" else "False"
    | SInt z => ishow E z
    | SFlt f | SNp f => fshow E f
    | SStr s => s
    end.
  Definition show (v : pyval) : string := match v with VSc x => show_scalar x | _ => show_other v end.

  (** [value not in [None, '']] *)
  Definition given (v : pyval) : bool :=
    match v with VSc SNone => false | VSc (SStr s) => negb (String.eqb s "") | _ => true end.

  (** L132-145, one attribute; [ret_coefs] is iterated over, TypeError unless
      it is a dictionary (simplification: other mappings). *)
  Definition rp_item (attrs : list (string * pyval)) (units : list (string * string)) (k : string) : res (list item) :=
    match sget k attrs with
    | None => Ok []
    | Some v =>
        if negb (given v) then Ok []
        else if String.eqb k "ret_coefs" then
          match v with
          | VDict d => Ok [MkItem k None (BRets (map (fun kv => (fst kv, Some (show_scalar (snd kv)))) d))]
          | _ => Err EType
          end
        else Ok [MkItem k (sget k units) (BText (Some (show v)))]
    end.

  (** L105-148 [add_rp_from_attributes]; [more] are the keyword arguments, an
      exception leaves the builder unchanged. *)
  Definition add_rp_from_attributes (rp_id : option Z) (attributes more : list (string * pyval)) (units : list (string * string))
      (b : builder) : builder * res unit :=
    let attrs := supdate attributes more in
    match sget "name" attrs with
    | None => (b, Err EKey)
    | Some (VDict _) => (b, Err EType)             (* not hashable *)
    | Some VOther => (b, Err EType)                (* simplification *)
    | Some (VSc k) =>
        if known b k then (b, Err EXml)
        else match mapM (rp_item attrs units) rp_attr_keys with
             | Err e => (b, Err e)
             | Ok items =>
                 (MkB (b_keys b ++ [k])
                      (b_species b ++ [MkEl (ishow E (match rp_id with Some z => z | None => 999 end)) (List.concat items)])
                      (b_reactions b), Ok tt)
             end
    end.

  (** The units dictionary built from [get_unit] (L162-167, L285-290); a unit
      None is never looked at, because the value is None then. *)
  Fixpoint units_of (get : string -> res (option string)) (keys : list string) : list (string * string) :=
    match keys with
    | [] => []
    | k :: ks => match get k with
                 | Ok (Some u) => (k, u) :: units_of get ks
                 | _ => units_of get ks
                 end
    end.

  (** L150-168 [add_rp_from_instance]. *)
  Definition add_rp_from_instance (r : rp) (b : builder) : builder * res unit :=
    add_rp_from_attributes (Some (rp_id r)) (map (fun k => (k, rattr r k)) rp_attr_keys) []
      (units_of (fun k => let* u := rp_get_unit r k in Ok (Some u)) rp_attr_keys) b.

  (** L253-259, one attribute. *)
  Definition rx_item (attrs : list (string * pyval)) (units : list (string * string)) (k : string) : list item :=
    match sget k attrs with
    | None => []
    | Some v => if given v then [MkItem k (sget k units) (BText (Some (show v)))] else []
    end.

  (** L215-261 [add_reaction_from_attributes]. *)
  Definition add_reaction_from_attributes (lhs rhs : list string) (r_id : option Z) (attributes more : list (string * pyval))
      (units : list (string * string)) (b : builder) : builder * res unit :=
    let attrs := supdate attributes more in
    if negb (forallb (fun n => known b (SStr n)) (lhs ++ rhs)) then (b, Err EXml)
    else (MkB (b_keys b) (b_species b)
              (b_reactions b ++ [MkEl (ishow E (match r_id with Some z => z | None => 999 end))
                 (MkItem "reactants" None (BText (Some (str_join ", " lhs))) ::
                  MkItem "products" None (BText (Some (str_join ", " rhs))) ::
                  flat_map (rx_item attrs units) rx_attr_keys)]), Ok tt).

  (** L271-274: the species that are not yet present are added. *)
  Fixpoint add_missing (l : list rp) (b : builder) : builder * res unit :=
    match l with
    | [] => (b, Ok tt)
    | r :: l' =>
        match get_name r with
        | Err e => (b, Err e)
        | Ok n =>
            if known b (SStr n) then add_missing l' b
            else match add_rp_from_instance r b with
                 | (b', Ok _) => add_missing l' b'
                 | (b', Err e) => (b', Err e)
                 end
        end
    end.

  (** L263-293 [add_reaction_from_instance]. *)
  Definition add_reaction_from_instance (r : reaction) (b : builder) : builder * res unit :=
    match add_missing (r_lhs r ++ r_rhs r) b with
    | (b', Err e) => (b', Err e)
    | (b', Ok _) =>
        match names_of (r_lhs r), names_of (r_rhs r) with
        | Ok ls, Ok rs =>
            add_reaction_from_attributes ls rs (Some (r_id r)) (map (fun k => (k, xattr r k)) rx_attr_keys) []
              (units_of (rx_get_unit r) rx_attr_keys) b'
        | Err e, _ => (b', Err e)
        | _, Err e => (b', Err e)
        end
    end.

  Fixpoint add_reactions (l : list reaction) (b : builder) : builder * res unit :=
    match l with
    | [] => (b, Ok tt)
    | r :: l' => match add_reaction_from_instance r b with
                 | (b', Ok _) => add_reactions l' b'
                 | (b', Err e) => (b', Err e)
                 end
    end.

  (** [int(s)], as of L446 and in the parser. *)
  Definition py_int_str (s : string) : res Z := match iparse E s with Some z => Ok z | None => Err EValue end.

  (** L434-446 [add_chemistry_from_instance]: [ids] are the ids of the enabled
      species, special ones included, [rxs] the enabled reactions. *)
  Definition add_chemistry_from_instance (ids : list Z) (rxs : list reaction) (b : builder) : builder * res unit :=
    match add_reactions rxs b with
    | (b', Err e) => (b', Err e)
    | (b', Ok _) =>
        match sort_by Z.leb (fun el => let* z := py_int_str (el_id el) in index_of Z.eqb z ids) (b_species b') with
        | Err e => (b', Err e)
        | Ok l => (MkB (b_keys b') l (b_reactions b'), Ok tt)
        end
    end.

  (** [rp_xml.find('name').text] *)
  Definition el_name (e : element) : res (option string) :=
    match find_tag "name" e with None => Err EAttribute | Some i => Ok (it_text i) end.

  (** L458-462, the species of a file. *)
  Fixpoint add_elements (l : list element) (b : builder) : builder * res unit :=
    match l with
    | [] => (b, Ok tt)
    | e :: l' =>
        match el_name e with
        | Err x => (b, Err x)
        | Ok t =>
            let k := text_scalar t in
            add_elements l' (if known b k then b else MkB (b_keys b ++ [k]) (b_species b ++ [e]) (b_reactions b))
        end
    end.

  (** L448-465 [add_chemistry_from_xml], given the elements of the file. *)
  Definition add_chemistry_from_xml (sps rxs : list element) (b : builder) : builder * res unit :=
    match add_elements sps b with
    | (b', Err e) => (b', Err e)
    | (b', Ok _) => (MkB (b_keys b') (b_species b') (b_reactions b' ++ rxs), Ok tt)
    end.

  (** L613-628 [assign_species_ids]: the ids are changed one by one. Result:
      the elements after the loop and whether it was completed. *)
  Fixpoint assign_from (next : Z) (l : list element) : list element * res unit :=
    match l with
    | [] => ([], Ok tt)
    | e :: l' =>
        match el_name e with
        | Err x => (l, Err x)
        | Ok t =>
            let special := match t with
                           | Some n => if String.eqb n "e" then Some 0 else if String.eqb n "M" then Some 999 else None
                           | None => None
                           end in
            let '(new, next') := match special with Some z => (z, next) | None => (next, next + 1) end in
            let (l1, r) := assign_from next' l' in (MkEl (ishow E new) (el_items e) :: l1, r)
        end
    end.
  Definition assign_species_ids (b : builder) : builder * res unit :=
    let (l, r) := assign_from 1 (b_species b) in (MkB (b_keys b) l (b_reactions b), r).

  (** L630-637 [assign_reactions_ids]. *)
  Fixpoint number_from (z : Z) (l : list element) : list element :=
    match l with [] => [] | e :: l' => MkEl (ishow E z) (el_items e) :: number_from (z + 1) l' end.
  Definition assign_reactions_ids (b : builder) : builder * res unit :=
    (MkB (b_keys b) (b_species b) (number_from 1 (b_reactions b)), Ok tt).

  (** L639-646 [assign_ids]. *)
  Definition assign_ids (b : builder) : builder * res unit :=
    match assign_species_ids b with
    | (b', Ok _) => assign_reactions_ids b'
    | (b', Err e) => (b', Err e)
    end.

  (** ** XmlParser *)

  (** A dictionary built by a comprehension: later entries replace earlier
      ones. *)
  Definition dict_of {V} (l : list (string * V)) : list (string * V) := supdate [] l.

  (** L706-724: one element 'rp'; [uid] is the identity of the new object. *)
  Definition rp_of (uid : nat) (e : element) : res rp :=
    let* z := py_int_str (el_id e) in
    let plain := filter (fun i => negb (String.eqb (it_tag i) "ret_coefs")) (el_items e) in
    let attrs := dict_of (map (fun i => (it_tag i, VSc (text_scalar (it_text i)))) plain) in
    let attrs := match find_tag "ret_coefs" e with
                 | Some i => sset "ret_coefs" (VDict (dict_of (map (fun kv => (fst kv, text_scalar (snd kv))) (it_rets i)))) attrs
                 | None => attrs
                 end in
    let units := dict_of (flat_map (fun i => match it_unit i with Some u => [(it_tag i, Some u)] | None => [] end) (el_items e)) in
    rp_init uid (VInt z) attrs [] units.

  (** The loop of L706-726: the species and the dictionary of names. *)
  Fixpoint read_species (uid : nat) (l : list element) : res (list rp) :=
    match l with
    | [] => Ok []
    | e :: l' =>
        let* r := rp_of uid e in
        let* _ := get_name r in
        let* rs := read_species (S uid) l' in
        Ok (r :: rs)
    end.

  (** [species_dict[name]]: the last species of that name. *)
  Definition lookup (sps : list rp) (n : string) : res rp :=
    match find (fun r => match get_name r with Ok m => String.eqb m n | Err _ => false end) (rev sps) with
    | Some r => Ok r
    | None => Err EKey
    end.

  (** L740-743: [xml.find(tag).text.split(',')], stripped and looked up. *)
  Definition side_of (sps : list rp) (tag : string) (e : element) : res (list rp) :=
    match find_tag tag e with
    | None => Err EAttribute
    | Some i => match it_text i with
                | None => Err EAttribute
                | Some s => mapM (lookup sps) (map str_strip (str_split "," s))
                end
    end.

  (** L731-749: one element 'reaction'. Both texts are split before any name
      is looked up. *)
  Definition reaction_of (sps : list rp) (e : element) : res reaction :=
    let* z := py_int_str (el_id e) in
    let plain := filter (fun i => negb (memS (it_tag i) ["reactants"; "products"])) (el_items e) in
    let attrs := dict_of (map (fun i => (it_tag i, VSc (text_scalar (it_text i)))) plain) in
    let* _ := match find_tag "reactants" e with Some (MkItem _ _ (BText (Some _))) => Ok tt | _ => Err EAttribute end in
    let* _ := match find_tag "products" e with Some (MkItem _ _ (BText (Some _))) => Ok tt | _ => Err EAttribute end in
    let* ls := side_of sps "reactants" e in
    let* rs := side_of sps "products" e in
    let units := dict_of (flat_map (fun i => match it_unit i with Some u => [(it_tag i, Some u)] | None => [] end) (el_items e)) in
    reaction_init E (VInt z) ls rs attrs [] units.

  (** L694-751 [get_species_and_reactions_from_xml_elements]. *)
  Definition parse (uid : nat) (sps rxs : list element) : res (list rp * list reaction) :=
    let* rs := read_species uid sps in
    let* qs := mapM (reaction_of rs) rxs in
    Ok (rs, qs).

  (** ** Sorting *)

  (** L567-611 [sort_elements]; [uid]: identities of the temporary objects.
      Every statement that changes something is a step, so that an exception
      leaves the changes made before it. *)
  Definition sorted_ids (uid : nat) (b : builder) : res (list string * list string) :=
    let* p := parse uid (b_species b) (b_reactions b) in
    let* ss := mapM (cs_view E) (fst p) in
    let* rs := mapM (cr_view E) (snd p) in
    match sort_species (clf_new ss rs) with
    | (_, Err e) => Err e
    | (k, Ok _) =>
        let sp_ids := map (fun s => ishow E (cs_id s)) (k_species k) in
        match sort_reactions k with
        | (_, Err e) => Err e
        | (k', Ok _) =>
            match get_classified k' with
            | (_, Err e) => Err e
            | (_, Ok d) =>
                Ok (sp_ids, map (fun r => ishow E (cr_id r)) (List.concat (map (fun tc => List.concat (map snd (snd tc))) d)))
            end
        end
    end.

  Definition sort_elements (uid : nat) (b : builder) : builder * res unit :=
    let again1 := negb (nodupSb (map el_id (b_species b))) in
    let again2 := negb (nodupSb (map el_id (b_reactions b))) in
    match (if again1 then assign_species_ids b else (b, Ok tt)) with
    | (b1, Err e) => (b1, Err e)
    | (b1, Ok _) =>
        let b2 := if again2 then fst (assign_reactions_ids b1) else b1 in
        match sorted_ids uid b2 with
        | Err e => (b2, Err e)
        | Ok (sp_ids, r_ids) =>
            match sort_by Z.leb (fun e => index_of String.eqb (el_id e) sp_ids) (b_species b2) with
            | Err e => (b2, Err e)
            | Ok ls =>
                let b3 := MkB (b_keys b2) ls (b_reactions b2) in
                match sort_by Z.leb (fun e => index_of String.eqb (el_id e) r_ids) (b_reactions b3) with
                | Err e => (b3, Err e)
                | Ok lr =>
                    let b4 := MkB (b_keys b3) (b_species b3) lr in
                    match (if again1 then assign_species_ids b4 else (b4, Ok tt)) with
                    | (b5, Err e) => (b5, Err e)
                    | (b5, Ok _) => if again2 then assign_reactions_ids b5 else (b5, Ok tt)
                    end
                end
            end
        end
    end.

  (** ** Files *)

  (** What is read back from a written text: an empty text is None. *)
  Definition reread_text (t : option string) : option string :=
    match t with Some s => if String.eqb s "" then None else Some s | None => None end.
  Definition reread_item (i : item) : item :=
    MkItem (it_tag i) (it_unit i)
      (match it_body i with
       | BText t => BText (reread_text t)
       | BRets l => BRets (map (fun kv => (fst kv, reread_text (snd kv))) l)
       end).
  Definition reread (e : element) : element := MkEl (el_id e) (map reread_item (el_items e)).

  (** Files holding chemistries: path to species and reactions. *)
  Definition xfiles : Type := list (string * (list element * list element)).

  (** L648-676 [dump_xml]. *)
  Definition dump_xml (path : string) (overwrite : bool) (b : builder) (fs : xfiles) : xfiles * res unit :=
    if shas path fs && negb overwrite then (fs, Err EXml)
    else (sset path (b_species b, b_reactions b) fs, Ok tt).

  (** L753-774 [get_species_and_reactions]. *)
  Definition get_species_and_reactions (uid : nat) (path : string) (fs : xfiles) : res (list rp * list reaction) :=
    match sget path fs with
    | None => Err EXml
    | Some (s, r) => parse uid (map reread s) (map reread r)
    end.

  (** ** Histories of a builder *)

  Inductive bop : Type :=
  | ORpAttrs (id : option Z) (attributes more : list (string * pyval)) (units : list (string * string))
  | ORp (r : rp)
  | ORxAttrs (lhs rhs : list string) (id : option Z) (attributes more : list (string * pyval)) (units : list (string * string))
  | ORx (r : reaction)
  | OChem (ids : list Z) (rxs : list reaction)
  | OXml (sps rxs : list element)
  | OSort (uid : nat)
  | OSpeciesIds
  | OReactionIds
  | OIds
  | OClear.

  (** L48-53 [reset_chemistry] is [OClear]. *)
  Definition bstep (b : builder) (o : bop) : builder * res unit :=
    match o with
    | ORpAttrs id a m u => add_rp_from_attributes id a m u b
    | ORp r => add_rp_from_instance r b
    | ORxAttrs l r id a m u => add_reaction_from_attributes l r id a m u b
    | ORx r => add_reaction_from_instance r b
    | OChem ids rxs => add_chemistry_from_instance ids rxs b
    | OXml s r => add_chemistry_from_xml s r b
    | OSort uid => sort_elements uid b
    | OSpeciesIds => assign_species_ids b
    | OReactionIds => assign_reactions_ids b
    | OIds => assign_ids b
    | OClear => (b_empty, Ok tt)
    end.
  Definition bhistory (b : builder) (l : list bop) : builder := fold_left (fun b o => fst (bstep b o)) l b.
End Builder.
