(** Model of plaschem/chemistry.py, class Chemistry (and of the subclass
    NeutralChemistry of pygmo_fwork/pygmol/neutral_model.py L12-38).

    Simplification: the chemistry works on views of its RP and Reaction
    objects, i.e. on the values their getters return ([sp], [rx] below). The
    Python code calls the getters again and again; the model assumes the RP
    and Reaction objects are not modified after construction of the
    chemistry and that their getters do not raise. File [Views.v] computes the views from the
    attribute-level models of Species.v and Reactions.v. *)
From Verif Require Import Base Species Reactions.

(** What the getters of an RP instance return (plaschem/species.py
    L228-383); [sp_uid] is the object identity, used by [is] comparisons. *)
Record sp : Type := MkSp {
  sp_uid : nat;
  sp_id : Z;
  sp_name : string;
  sp_charge : option Z;
  sp_mass : option flt;
  sp_stick : option flt;
  sp_ret : option (list (string * flt))
}.

(** plaschem/species.py L174-175 [is_special]. *)
Definition sp_special (s : sp) : bool := memS (sp_name s) special_names.

(** What the getters of a Reaction instance return; [rx_arrh_a] is in nominal
    units, [rx_unit] is [get_unit('arrh_a')]. *)
Record rx : Type := MkRx {
  rx_id : Z;
  rx_lhs : list sp;
  rx_rhs : list sp;
  rx_arrh_a : option flt;
  rx_unit : option string;
  rx_arrh_b : option flt;
  rx_arrh_c : option flt;
  rx_el_en_loss : flt;
  rx_gas_heat : flt;
  rx_elastic : bool
}.

(** [Chemistry] or [NeutralChemistry]. *)
Inductive kind := Plain | Neutral.
(** plaschem/chemistry.py L27, neutral_model.py L16 [requires_charge]. *)
Definition requires_charge (k : kind) : bool := match k with Plain => true | Neutral => false end.

(** State of a Chemistry instance. Boolean masks over ids are functions; only
    their values on ids of the chemistry matter. *)
Record chem : Type := MkChem {
  c_kind : kind;
  c_species : list sp;
  c_reactions : list rx;
  c_xml : option string;
  c_en : Z -> bool;                                   (* _enabled_sp *)
  c_prot : Z -> bool;                                 (* _protected_sp *)
  c_adprot : Z -> bool;                               (* _adhoc_protected_sp *)
  c_enr : Z -> bool;                                  (* _enabled_r *)
  c_stick : list (Z * scalar);                        (* adhoc 'stick_coef' *)
  c_ret : list (Z * list (string * flt));             (* adhoc 'ret_coefs' *)
  c_arrh : list (Z * scalar)                          (* adhoc 'arrh_a' *)
}.

Definition sp_ids (c : chem) : list Z := map sp_id (c_species c).
Definition r_ids (c : chem) : list Z := map rx_id (c_reactions c).

Definition with_en c f := MkChem (c_kind c) (c_species c) (c_reactions c) (c_xml c)
  f (c_prot c) (c_adprot c) (c_enr c) (c_stick c) (c_ret c) (c_arrh c).
Definition with_prot c f := MkChem (c_kind c) (c_species c) (c_reactions c) (c_xml c)
  (c_en c) f (c_adprot c) (c_enr c) (c_stick c) (c_ret c) (c_arrh c).
Definition with_adprot c f := MkChem (c_kind c) (c_species c) (c_reactions c) (c_xml c)
  (c_en c) (c_prot c) f (c_enr c) (c_stick c) (c_ret c) (c_arrh c).
Definition with_enr c f := MkChem (c_kind c) (c_species c) (c_reactions c) (c_xml c)
  (c_en c) (c_prot c) (c_adprot c) f (c_stick c) (c_ret c) (c_arrh c).
Definition with_stick c l := MkChem (c_kind c) (c_species c) (c_reactions c) (c_xml c)
  (c_en c) (c_prot c) (c_adprot c) (c_enr c) l (c_ret c) (c_arrh c).
Definition with_ret c l := MkChem (c_kind c) (c_species c) (c_reactions c) (c_xml c)
  (c_en c) (c_prot c) (c_adprot c) (c_enr c) (c_stick c) l (c_arrh c).
Definition with_arrh c l := MkChem (c_kind c) (c_species c) (c_reactions c) (c_xml c)
  (c_en c) (c_prot c) (c_adprot c) (c_enr c) (c_stick c) (c_ret c) l.

(** [mask[ids] = b] for ids present in the index. *)
Definition mset (ids : list Z) (b : bool) (m : Z -> bool) : Z -> bool :=
  fun i => if memZ i ids then b else m i.

(** ** Getters *)

(** plaschem/chemistry.py L614-629 [get_species_mask], at one species. *)
Definition sp_mask (c : chem) (disabled special protected : bool) (s : sp) : bool :=
  (disabled || c_en c (sp_id s)) &&
  (special || negb (sp_special s)) &&
  (protected || negb (c_prot c (sp_id s) || c_adprot c (sp_id s))).

(** plaschem/chemistry.py L631-639 [get_species]. *)
Definition get_species (c : chem) (disabled special protected : bool) : list sp :=
  filter (sp_mask c disabled special protected) (c_species c).

(** A per-species getter: the values of [f] indexed by species id
    (plaschem/chemistry.py L641-699 [get_species_name], [_charge], [_mass],
    ...). *)
Definition by_species {A} (f : sp -> A) (c : chem) (disabled special protected : bool)
  : list (Z * A) :=
  map (fun s => (sp_id s, f s)) (get_species c disabled special protected).

Definition get_species_name := by_species sp_name.
Definition get_species_charge := by_species sp_charge.
Definition get_species_mass := by_species sp_mass.

(** plaschem/chemistry.py L769-775 [get_reactions]. *)
Definition get_reactions (c : chem) (disabled : bool) : list rx :=
  filter (fun r => disabled || c_enr c (rx_id r)) (c_reactions c).

(** Per-reaction getters (plaschem/chemistry.py L795-833). *)
Definition by_reaction {A} (f : rx -> A) (c : chem) (disabled : bool) : list (Z * A) :=
  map (fun r => (rx_id r, f r)) (get_reactions c disabled).

(** plaschem/chemistry.py L323-346. *)
Definition get_protected_species (c : chem) : list sp :=
  filter (fun s => c_prot c (sp_id s) || c_adprot c (sp_id s)) (c_species c).
Definition get_disabled_species (c : chem) : list sp :=
  filter (fun s => negb (c_en c (sp_id s))) (c_species c).
Definition get_disabled_reactions (c : chem) : list rx :=
  filter (fun r => negb (c_enr c (rx_id r))) (c_reactions c).

(** [pd.notna] on an ad-hoc value. *)
Definition notna (x : scalar) : bool :=
  match x with SNone => false | SFlt f | SNp f => negb (is_nan f) | _ => true end.

(** [series.update(other)]: values of [other] that are not NaN replace those
    under the same label; no label is added. *)
Definition series_update (s other : list (Z * scalar)) : list (Z * scalar) :=
  map (fun kv => match zget (fst kv) other with
                 | Some v => if notna v then (fst kv, v) else kv
                 | None => kv
                 end) s.

Definition scalar_of_opt (o : option flt) : scalar :=
  match o with Some f => SFlt f | None => SNone end.

(** plaschem/chemistry.py L701-711 [get_species_stick_coef]. *)
Definition get_species_stick_coef (c : chem) (disabled special protected : bool)
  : list (Z * scalar) :=
  series_update (by_species (fun s => scalar_of_opt (sp_stick s)) c disabled special protected)
                (c_stick c).

(** Python [x == 0.]. *)
Definition eq_zero (x : scalar) : bool :=
  match x with
  | SBool b => negb b
  | SInt z => z =? 0
  | SFlt f | SNp f => feqb f fzero
  | _ => false
  end.

Definition any_disabled (c : chem) : bool :=
  existsb (fun s => negb (c_en c (sp_id s))) (c_species c).

(** Names of the enabled species, special ones included. *)
Definition name_pool (c : chem) : list string :=
  map sp_name (get_species c false true true).

(** plaschem/chemistry.py L713-746 [get_species_ret_coefs]. Note that L728
    asks for the sticking coefficients without passing [protected] on. *)
Definition get_species_ret_coefs (c : chem) (disabled special protected : bool)
  : list (Z * option (list (string * flt))) :=
  let base := by_species sp_ret c disabled special protected in
  let with_adhoc := fold_left (fun acc kv => zset (fst kv) (Some (snd kv)) acc) (c_ret c) base in
  let sticks := get_species_stick_coef c disabled special true in
  let zeroed := fold_left (fun acc kv => if eq_zero (snd kv) then zset (fst kv) (Some []) acc else acc)
                          sticks with_adhoc in
  if any_disabled c
  then map (fun kv => (fst kv, match snd kv with
                               | Some d => Some (filter (fun nf => memS (fst nf) (name_pool c)) d)
                               | None => None
                               end)) zeroed
  else zeroed.

(** ** Consistency *)

Definition rx_sps (r : rx) : list sp := rx_lhs r ++ rx_rhs r.

Definition count_distinct (l : list string) : nat := List.length (odedupS l).

Definition positive (s : sp) : bool := match sp_charge s with Some z => z >? 0 | None => false end.

(** plaschem/chemistry.py L121-172 [Chemistry.assert_consistency]. The check
    of duplicate ids (L141) cannot fail once the ids are unique (L54). *)
Definition assert_consistency_base (c : chem) : res unit :=
  let species := get_species c false true true in
  let names := map sp_name species in
  let* _ := if requires_charge (c_kind c)
            then let* _ := raise_if (negb (memS "e" names)) EChemConsistency in
                 raise_if (negb (existsb positive (get_species c false false true))) EChemConsistency
            else Ok tt in
  let* _ := raise_if (negb (nodupSb names)) EChemConsistency in
  let* _ := raise_if (negb (nodupZb (map sp_id species))) EChemConsistency in
  let involved := flat_map rx_sps (get_reactions c false) in
  let* _ := raise_if (negb (forallb (fun s => memN (sp_uid s) (map sp_uid species)) involved))
                     EChemConsistency in
  let* _ := raise_if (negb (Nat.eqb (List.length species) (count_distinct (map sp_name involved))))
                     EChemConsistency in
  let ret_names := flat_map (fun kv => match snd kv with Some d => map fst d | None => [] end)
                            (get_species_ret_coefs c false true true) in
  raise_if (negb (subsetS ret_names names)) EChemConsistency.

(** plaschem/chemistry.py L121, overridden in neutral_model.py L18-24. *)
Definition assert_consistency (c : chem) : res unit :=
  match c_kind c with
  | Plain => assert_consistency_base c
  | Neutral =>
      let* _ := raise_if (negb (forallb (fun s => match sp_charge s with Some z => z =? 0 | None => false end)
                                        (get_species c false false true))) EChemConsistency in
      assert_consistency_base c
  end.

(** ** Lookup *)

(** How a caller may identify a species: id, name or RP instance. *)
Inductive ref := RId (z : Z) | RName (n : string) | RObj (u : nat).

(** plaschem/chemistry.py L174-189 [get_rp]. *)
Definition get_rp (c : chem) (r : ref) : res sp :=
  let found := match r with
               | RId z => find (fun s => sp_id s =? z) (c_species c)
               | RName n => find (fun s => String.eqb (sp_name s) n) (c_species c)
               | RObj u => find (fun s => Nat.eqb (sp_uid s) u) (c_species c)
               end in
  match found with Some s => Ok s | None => Err ESpeciesNotPresent end.

(** plaschem/chemistry.py L191-202 [get_reaction]. *)
Definition get_reaction (c : chem) (z : Z) : res rx :=
  match find (fun r => rx_id r =? z) (c_reactions c) with
  | Some r => Ok r
  | None => Err EReactionNotPresent
  end.

(** ** Stoichiometric matrices *)

(** plaschem/reactions.py L231-261 on the view. *)
Definition rx_stoich (m : method) (r : rx) : list (Z * Z) :=
  stoich_coefs m (map sp_id (rx_lhs r)) (map sp_id (rx_rhs r)).

(** Entry of the stoichiomatrix, [fillna(0)] included. *)
Definition stoich_entry (m : method) (r : rx) (sid : Z) : Z :=
  match zget sid (rx_stoich m r) with Some n => n | None => 0 end.

(** plaschem/chemistry.py L873-893 [get_stoichiomatrix]: rows by reaction id,
    each row a list of (species id, coefficient). *)
Definition get_stoichiomatrix (c : chem) (disabled special : bool) (m : method)
  : list (Z * list (Z * Z)) :=
  let cols := map sp_id (get_species c disabled special true) in
  map (fun r => (rx_id r, map (fun sid => (sid, stoich_entry m r sid)) cols))
      (get_reactions c disabled).

(** plaschem/chemistry.py L897-918, neutral_model.py L26-38
    [get_reactions_stoich_coefs_electron]. *)
Definition get_stoich_electron (c : chem) (disabled : bool) (m : method) : res (list (Z * Z)) :=
  match c_kind c with
  | Plain =>
      let* e := get_rp c (RName "e") in
      Ok (map (fun r => (rx_id r, stoich_entry m r (sp_id e))) (get_reactions c disabled))
  | Neutral => Ok (map (fun r => (rx_id r, 0)) (get_reactions c disabled))
  end.

(** plaschem/chemistry.py L920-944 [get_reactions_stoich_coefs_arbitrary]. *)
Definition get_stoich_arbitrary (c : chem) (disabled : bool) (m : method) : list (Z * Z) :=
  match get_rp c (RName "M") with
  | Ok s => map (fun r => (rx_id r, stoich_entry m r (sp_id s))) (get_reactions c disabled)
  | Err _ => map (fun r => (rx_id r, 0)) (get_reactions c disabled)
  end.

(** plaschem/chemistry.py L844-871 [get_return_matrix] for [special=False]
    (GraphInit.v models [special=True], where the special species are set
    to NaN). [ret_mat.at[i, j] = v] with an unknown row label
    appends a row. *)
Record rmatrix : Type := { rm_rows : list Z; rm_cols : list Z; rm_entries : list ((Z * Z) * flt) }.
Definition zz_eqb (a b : Z * Z) : bool := (fst a =? fst b) && (snd a =? snd b).
Definition rm_get (m : rmatrix) (i j : Z) : flt :=
  match aget zz_eqb (i, j) (rm_entries m) with Some f => f | None => fzero end.

Definition rm_set (m : rmatrix) (i j : Z) (f : flt) : rmatrix :=
  {| rm_rows := if memZ i (rm_rows m) then rm_rows m else rm_rows m ++ [i];
     rm_cols := rm_cols m;
     rm_entries := aset zz_eqb (i, j) f (rm_entries m) |}.

Fixpoint rm_fill_col (c : chem) (j : Z) (d : list (string * flt)) (m : rmatrix) : res rmatrix :=
  match d with
  | [] => Ok m
  | (n, f) :: d' => let* s := get_rp c (RName n) in rm_fill_col c j d' (rm_set m (sp_id s) j f)
  end.

Fixpoint rm_fill (c : chem) (l : list (Z * option (list (string * flt)))) (m : rmatrix) : res rmatrix :=
  match l with
  | [] => Ok m
  | (j, Some d) :: l' => let* m' := rm_fill_col c j d m in rm_fill c l' m'
  | (_, None) :: l' => rm_fill c l' m
  end.

Definition get_return_matrix (c : chem) (disabled : bool) : res rmatrix :=
  let rc := get_species_ret_coefs c disabled false true in
  rm_fill c rc {| rm_rows := map fst rc; rm_cols := map fst rc; rm_entries := [] |}.

(** ** Protection *)

(** plaschem/chemistry.py L218-232 [set_protected_species]: if every argument
    is an id of the index the mask is set directly, otherwise the arguments
    are resolved with [get_rp] first; both paths set the same ids. *)
Definition set_protected_species (c : chem) (args : list ref) : chem * res unit :=
  match mapM (fun a => let* s := get_rp c a in Ok (sp_id s)) args with
  | Ok ids => (with_prot c (mset ids true (c_prot c)), Ok tt)
  | Err e => (c, Err e)
  end.

(** ** Disabling *)

Definition sumZ (l : list Z) : Z := fold_right Z.add 0 l.

(** plaschem/chemistry.py L262-264, one entry of [network_matrix]. *)
Definition network (r : rx) (sid : Z) : Z := stoich_entry Lhs r sid + stoich_entry Rhs r sid.

(** plaschem/chemistry.py L266-267. *)
Definition disconnected_species (c : chem) : list Z :=
  filter (fun sid => sumZ (map (fun r => network r sid) (get_reactions c false)) =? 0)
         (map sp_id (filter (fun s => c_en c (sp_id s)) (c_species c))).

(** plaschem/chemistry.py L268-269. *)
Definition disconnected_reactions (c : chem) : list Z :=
  map rx_id (filter (fun r => sumZ (map (fun s => network r (sp_id s)) (get_disabled_species c)) >? 0)
                    (get_reactions c false)).

(** plaschem/chemistry.py L234-278 [_disable_recursively]. The recursion is
    on fuel; [EFuel] is shown never to be returned by [disable]. *)
Fixpoint disable_recursively (fuel : nat) (c : chem) (spids rids : list Z) : chem * res unit :=
  match fuel with
  | O => (c, Err EFuel)
  | S fuel' =>
      let dis_sp := filter (c_en c) spids in
      let dis_r := filter (c_enr c) rids in
      match dis_sp, dis_r with
      | [], [] => (c, Ok tt)                                         (* L245-246 *)
      | _, _ =>
          if existsb (fun s => memZ (sp_id s) spids) (get_protected_species c)
          then (c, Err EChemDisable)                                 (* L248-249 *)
          else
            let c1 := with_enr (with_en c (mset dis_sp false (c_en c)))
                               (mset dis_r false (c_enr c)) in       (* L251-252 *)
            let continue c2 :=
              let ds := disconnected_species c2 in
              let dr := disconnected_reactions c2 in
              match ds, dr with
              | [], [] => (c2, Ok tt)                                (* L272-273 *)
              | _, _ => disable_recursively fuel' c2 ds dr           (* L276-278 *)
              end in
            if requires_charge (c_kind c1)
            then match filter positive (get_species c1 false false true) with
                 | [] => (c1, Err EChemDisable)                      (* L256-257 *)
                 | [ion] => continue (with_adprot c1 (mset [sp_id ion] true (c_adprot c1)))
                                                                     (* L258-260 *)
                 | _ => continue c1
                 end
            else continue c1
      end
  end.

(** Number of rounds always sufficient. *)
Definition disable_fuel (c : chem) : nat :=
  S (List.length (c_species c) + List.length (c_reactions c)).

(** plaschem/chemistry.py L280-313 [disable]. *)
Definition disable (c : chem) (species : list ref) (reactions : list Z) : chem * res unit :=
  match (let* si := mapM (fun a => let* s := get_rp c a in Ok (sp_id s)) species in
         let* ri := mapM (fun z => let* r := get_reaction c z in Ok (rx_id r)) reactions in
         Ok (si, ri)) with
  | Err e => (c, Err e)
  | Ok (si, ri) =>
      match disable_recursively (disable_fuel c) c si ri with
      | (c', Ok _) => (c', assert_consistency c')
      | (c', Err EChemDisable) =>
          (* back track the four masks, L306-310 *)
          (with_adprot (with_prot (with_enr (with_en c' (c_en c)) (c_enr c)) (c_prot c)) (c_adprot c),
           Err EChemDisable)
      | (c', Err e) => (c', Err e)
      end
  end.

(** plaschem/chemistry.py L315-321 [reset]. *)
Definition reset (c : chem) : chem :=
  with_adprot (with_enr (with_en c (fun _ => true)) (fun _ => true)) (fun _ => false).

(** ** Construction and copy *)

(** plaschem/chemistry.py L29-92 [__init__] with species and reactions given
    (the xml branch L48-49 is the parser, modelled in Xml.v). *)
Definition init (k : kind) (species : list sp) (reactions : list rx) (xml : option string) : res chem :=
  let* _ := raise_if (negb (nodupZb (map sp_id species)) || negb (nodupZb (map rx_id reactions)))
                     EChemConsistency in
  let c := {| c_kind := k; c_species := species; c_reactions := reactions; c_xml := xml;
              c_en := fun _ => true; c_prot := fun _ => false; c_adprot := fun _ => false;
              c_enr := fun _ => true; c_stick := []; c_ret := []; c_arrh := [] |} in
  let* _ := assert_consistency c in
  if requires_charge k
  then
    match set_protected_species c [RName "e"] with
    | (_, Err e) => Err e
    | (c1, Ok _) =>
        match filter positive (get_species c1 false false true) with
        | [ion] => match set_protected_species c1 [RObj (sp_uid ion)] with
                   | (_, Err e) => Err e
                   | (c2, Ok _) => Ok c2
                   end
        | _ => Ok c1
        end
    end
  else Ok c.

(** plaschem/chemistry.py L94-119 [copy]: always builds a base-class
    [Chemistry] (L99), also when called on a NeutralChemistry. *)
Definition copy (c : chem) : res chem :=
  let* c0 := init Plain (c_species c) (c_reactions c) (c_xml c) in
  Ok (with_arrh (with_ret (with_stick (with_enr (with_adprot (with_prot (with_en c0
        (c_en c)) (c_prot c)) (c_adprot c)) (c_enr c)) (c_stick c)) (c_ret c)) (c_arrh c)).

(** ** Ad-hoc attributes *)

(** [type(value) == np.float64] -> [float(value)], L374-375, L426-427. *)
Definition np_to_float (x : scalar) : scalar := match x with SNp f => SFlt f | _ => x end.

(** plaschem/chemistry.py L350-386 [set_adhoc_species_attributes]. The value
    is stored before the final consistency check. *)
Definition set_adhoc_species (E : env) (c : chem) (attrib : string) (r : ref) (v : pyval)
  : chem * res unit :=
  match get_rp c r with
  | Err e => (c, Err e)
  | Ok s =>
      let sid := sp_id s in
      if negb (memS attrib ["stick_coef"; "ret_coefs"]) then (c, Err ERPAttr)
      else if negb (type_in v (rp_attr_types attrib)) then (c, Err ERPAttr)
      else if String.eqb attrib "ret_coefs" then
        match v with
        | VDict d =>
            if negb (subsetS (akeys d) (name_pool c)) then (c, Err EChemConsistency)
            else match mapM (fun kv => let* f := py_float E (snd kv) in Ok (fst kv, f)) d with
                 | Err e => (c, Err e)
                 | Ok d' => let c' := with_ret c (zset sid d' (c_ret c)) in
                            (c', assert_consistency c')
                 end
        | _ => (c, Err EAttribute)          (* None.keys() *)
        end
      else
        match v with
        | VSc x => let c' := with_stick c (zset sid (np_to_float x) (c_stick c)) in
                   (c', assert_consistency c')
        | _ => (c, Err ERPAttr)
        end
  end.

(** plaschem/chemistry.py L388-401 [reset_adhoc_species_attributes]. *)
Definition reset_adhoc_species (c : chem) (attrib : string) : chem * res unit :=
  if String.eqb attrib "all" then (with_ret (with_stick c []) [], Ok tt)
  else if String.eqb attrib "stick_coef" then (with_stick c [], Ok tt)
  else if String.eqb attrib "ret_coefs" then (with_ret c [], Ok tt)
  else (c, Err ERPAttr).

(** plaschem/chemistry.py L403-428 [set_adhoc_reactions_attributes]. *)
Definition set_adhoc_reactions (c : chem) (attrib : string) (rid : Z) (v : pyval) : chem * res unit :=
  if negb (memZ rid (r_ids c)) then (c, Err EReactionNotPresent)
  else if negb (String.eqb attrib "arrh_a") then (c, Err EReactionAttr)
  else match v with
       | VSc x => if type_in v (rx_attr_types "arrh_a")
                  then (with_arrh c (zset rid (np_to_float x) (c_arrh c)), Ok tt)
                  else (c, Err EReactionAttr)
       | _ => (c, Err EReactionAttr)
       end.

(** plaschem/chemistry.py L430-443 [reset_adhoc_reactions_attributes]. *)
Definition reset_adhoc_reactions (c : chem) (attrib : string) : chem * res unit :=
  if String.eqb attrib "all" || String.eqb attrib "arrh_a" then (with_arrh c [], Ok tt)
  else (c, Err EReactionAttr).

(** plaschem/reactions.py L475-488 [get_arrh_a] on the view. *)
Definition rx_get_arrh_a (si : bool) (r : rx) : res (option flt) :=
  match rx_arrh_a r with
  | None => Ok None
  | Some f => if si then let* q := si_factor (rx_unit r) in Ok (Some (fmul f (Fin q)))
              else Ok (Some f)
  end.

(** [x *= factor] on an ad-hoc value, L791. *)
Definition scalar_mul (x : scalar) (q : Q) : res scalar :=
  match x with
  | SFlt f | SNp f => Ok (SFlt (fmul f (Fin q)))
  | SInt z => Ok (SFlt (Fin (inject_Z z * q)))
  | SBool b => Ok (SFlt (Fin ((if b then 1 else 0) * q)))
  | SNone | SStr _ => Err EType
  end.

(** plaschem/chemistry.py L777-793 [get_reactions_arrh_a]. *)
Definition get_reactions_arrh_a (c : chem) (disabled si : bool) : res (list (Z * scalar)) :=
  let* native := mapM (fun r => let* a := rx_get_arrh_a si r in Ok (rx_id r, scalar_of_opt a))
                      (get_reactions c disabled) in
  let* adhoc := if si
                then mapM (fun kv => let* r := get_reaction c (fst kv) in
                                     let* q := si_factor (rx_unit r) in
                                     let* x := scalar_mul (snd kv) q in
                                     Ok (fst kv, x)) (c_arrh c)
                else Ok (c_arrh c) in
  Ok (series_update native adhoc).

(** ** Saving and restoring *)

(** The dictionary of plaschem/chemistry.py L487-494; the yaml file is
    identified with it (yaml.load after yaml.dump gives an equal
    dictionary). *)
Record cattrs : Type := MkAttrs {
  a_en : list Z; a_dis : list Z; a_prot : list Z; a_adprot : option (list Z);
  a_enr : list Z; a_disr : list Z;
  a_sp : list (string * Z * pyval);
  a_rx : list (string * Z * pyval);
  a_path : option string;
  a_hash : option string
}.

(** plaschem/chemistry.py L584-598 [xml_hash]; [fhash p] is the md5 of the
    file at path [p], None when there is no file. *)
Definition xml_hash (fhash : string -> option string) (p : option string) : res (option string) :=
  match p with
  | None => Ok None
  | Some s => match fhash s with Some h => Ok (Some h) | None => Err EChemAttr end
  end.

(** [str(self.xml_path) if self.xml_path else None], L484. *)
Definition path_or_none (p : option string) : option string :=
  match p with Some s => if String.eqb s "" then None else Some s | None => None end.

(** plaschem/chemistry.py L447-496 [_chemistry_attributes]. *)
Definition chemistry_attributes (E : env) (fhash : string -> option string) (c : chem) : res cattrs :=
  let* st := mapM (fun kv => let* f := py_float E (snd kv) in
                             Ok ("stick_coef", fst kv, VFlt f)) (c_stick c) in
  let rt := map (fun kv => ("ret_coefs", fst kv, VDict (map (fun nf => (fst nf, SFlt (snd nf))) (snd kv))))
                (c_ret c) in
  let* rx := mapM (fun kv => let* f := py_float E (snd kv) in
                             Ok ("arrh_a", fst kv, VFlt f)) (c_arrh c) in
  let path := path_or_none (c_xml c) in
  let* h := xml_hash fhash path in
  Ok {| a_en := filter (c_en c) (sp_ids c);
        a_dis := filter (fun i => negb (c_en c i)) (sp_ids c);
        a_prot := filter (c_prot c) (sp_ids c);
        a_adprot := Some (filter (c_adprot c) (sp_ids c));
        a_enr := filter (c_enr c) (r_ids c);
        a_disr := filter (fun i => negb (c_enr c i)) (r_ids c);
        a_sp := st ++ rt; a_rx := rx; a_path := path; a_hash := h |}.

(** [mask[ids] = b] on a pd.Series: KeyError if some id is not in the index. *)
Definition series_set (index ids : list Z) (b : bool) (m : Z -> bool) : res (Z -> bool) :=
  if forallb (fun i => memZ i index) ids then Ok (mset ids b m) else Err EKey.

Definition opt_str_eqb (a b : option string) : bool :=
  match a, b with
  | Some x, Some y => String.eqb x y
  | None, None => true
  | _, _ => false
  end.

(** Apply a state-changing call to every element until one raises. *)
Fixpoint steps {A} (f : chem -> A -> chem * res unit) (c : chem) (l : list A) : chem * res unit :=
  match l with
  | [] => (c, Ok tt)
  | a :: l' => match f c a with
               | (c', Ok _) => steps f c' l'
               | (c', Err e) => (c', Err e)
               end
  end.

(** plaschem/chemistry.py L565-572: the eight mask assignments, in order. *)
Definition load_masks (c : chem) (f : cattrs) : chem * res unit :=
  let setm (upd : chem -> (Z -> bool) -> chem) (get : chem -> Z -> bool) (index : list Z) ids b c :=
    match series_set index ids b (get c) with
    | Ok m => (upd c m, Ok tt)
    | Err e => (c, Err e)
    end in
  let adp := match a_adprot f with Some l => l | None => [] end in
  steps (fun c g => g c) c
    [ setm with_en c_en (sp_ids c) (a_en f) true;
      setm with_en c_en (sp_ids c) (a_dis f) false;
      (fun c => (with_prot c (fun _ => false), Ok tt));
      setm with_prot c_prot (sp_ids c) (a_prot f) true;
      (fun c => (with_adprot c (fun _ => false), Ok tt));
      setm with_adprot c_adprot (sp_ids c) adp true;
      setm with_enr c_enr (r_ids c) (a_enr f) true;
      setm with_enr c_enr (r_ids c) (a_disr f) false ].

(** plaschem/chemistry.py L517-582 [load_chemistry_attributes] of an existing
    and complete yaml file. *)
Definition load (E : env) (fhash : string -> option string) (c : chem) (f : cattrs) (check_hash : bool)
  : chem * res unit :=
  match (if check_hash
         then let* _ := raise_if (negb (opt_str_eqb (a_path f) (c_xml c))) EChemAttr in
              let* h := xml_hash fhash (c_xml c) in
              raise_if (negb (opt_str_eqb (a_hash f) h)) EChemAttr
         else Ok tt) with
  | Err e => (c, Err e)
  | Ok _ =>
      match load_masks c f with
      | (c1, Err e) => (c1, Err e)
      | (c1, Ok _) =>
          let c2 := with_ret (with_stick c1 []) [] in
          match steps (fun c t => set_adhoc_species E c (fst (fst t)) (RId (snd (fst t))) (snd t)) c2 (a_sp f) with
          | (c3, Err e) => (c3, Err e)
          | (c3, Ok _) =>
              let c4 := with_arrh c3 [] in
              match steps (fun c t => set_adhoc_reactions c (fst (fst t)) (snd (fst t)) (snd t)) c4 (a_rx f) with
              | (c5, Err e) => (c5, Err e)
              | (c5, Ok _) => (c5, assert_consistency c5)
              end
          end
      end
  end.

(** Python [==] on the dumped dictionaries. *)
Definition listZ_eqb := fix go (l m : list Z) : bool :=
  match l, m with
  | [], [] => true
  | x :: l', y :: m' => (x =? y) && go l' m'
  | _, _ => false
  end.

Definition scalar_eqb (x y : scalar) : bool :=
  match x, y with
  | SNone, SNone => true
  | SBool a, SBool b => Bool.eqb a b
  | SInt a, SInt b => a =? b
  | (SFlt a | SNp a), (SFlt b | SNp b) => feqb a b
  | SStr a, SStr b => String.eqb a b
  | _, _ => false
  end.

(** Equality of two return-coefficient dictionaries: same key set, equal
    values. *)
Definition sdict_eqb (d e : list (string * scalar)) : bool :=
  Nat.eqb (List.length d) (List.length e) &&
  forallb (fun kv => match sget (fst kv) e with Some x => scalar_eqb (snd kv) x | None => false end) d.

Definition pyval_eqb (v w : pyval) : bool :=
  match v, w with
  | VSc x, VSc y => scalar_eqb x y
  | VDict d, VDict e => sdict_eqb d e
  | _, _ => false
  end.

Definition triples_eqb := fix go (l m : list (string * Z * pyval)) : bool :=
  match l, m with
  | [], [] => true
  | (a, i, v) :: l', (b, j, w) :: m' => String.eqb a b && (i =? j) && pyval_eqb v w && go l' m'
  | _, _ => false
  end.

Definition cattrs_eqb (f g : cattrs) : bool :=
  listZ_eqb (a_en f) (a_en g) && listZ_eqb (a_dis f) (a_dis g) &&
  listZ_eqb (a_prot f) (a_prot g) &&
  match a_adprot f, a_adprot g with
  | Some l, Some m => listZ_eqb l m
  | None, None => true
  | _, _ => false
  end &&
  listZ_eqb (a_enr f) (a_enr g) && listZ_eqb (a_disr f) (a_disr g) &&
  triples_eqb (a_sp f) (a_sp g) && triples_eqb (a_rx f) (a_rx g) &&
  opt_str_eqb (a_path f) (a_path g) && opt_str_eqb (a_hash f) (a_hash g).

(** plaschem/chemistry.py L600-610 [check_coherence]. *)
Definition check_coherence (E : env) (fhash : string -> option string) (c : chem) (f : cattrs) : res bool :=
  let* g := chemistry_attributes E fhash c in Ok (cattrs_eqb f g).

(** ** Histories of calls *)

Inductive op : Type :=
| ODisable (species : list ref) (reactions : list Z)
| OProtect (args : list ref)
| OReset
| OSetSp (attrib : string) (r : ref) (v : pyval)
| OResetSp (attrib : string)
| OSetRx (attrib : string) (rid : Z) (v : pyval)
| OResetRx (attrib : string).

(** One public call on a chemistry: new state and normal return or exception. *)
Definition step (E : env) (c : chem) (o : op) : chem * res unit :=
  match o with
  | ODisable ss rs => disable c ss rs
  | OProtect args => set_protected_species c args
  | OReset => (reset c, Ok tt)
  | OSetSp a r v => set_adhoc_species E c a r v
  | OResetSp a => reset_adhoc_species c a
  | OSetRx a i v => set_adhoc_reactions c a i v
  | OResetRx a => reset_adhoc_reactions c a
  end.

(** A caller that catches every exception and goes on. *)
Definition run (E : env) (c : chem) (ops : list op) : chem :=
  fold_left (fun c o => fst (step E c o)) ops c.
