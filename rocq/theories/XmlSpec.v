(** Vocabulary for the properties of XML files and their builder. *)
From Verif Require Import Base Species Reactions MolSpec Classification Xml.

(** [str] followed by [float] or [int] gives the number back, and no number is
    written as the empty string. *)
Definition numbers_readable (E : env) : Prop :=
  (forall f, fparse E (fshow E f) = Some f) /\
  (forall z, fparse E (ishow E z) = Some (Fin (inject_Z z))) /\
  (forall z, iparse E (ishow E z) = Some z) /\
  (forall f, fshow E f <> "") /\ (forall z, ishow E z <> "").

(** Names that survive the comma separated lists and are legal names. *)
Definition writable_name (n : string) : Prop :=
  n <> "" /\ str_strip n = n /\ ~ contains n "," /\ ~ contains n "<" /\ ~ contains n ">".

(** Species that can be written: legal name, the mandatory data are there, no
    attribute is the empty string, and the return coefficients are a
    dictionary of numbers or texts. *)
Record writable_species (r : rp) : Prop := {
  ws_history : sp_history r;
  ws_name : exists n, get_name r = Ok n /\ writable_name n /\ (n <> "M" -> rattr r "mass" <> VNone);
  ws_state : rattr r "state" <> VNone -> rattr r "stateless" <> VNone;
  ws_texts : forall k, In k rp_attr_keys -> rattr r k <> VStr "";
  ws_rets : forall d, rattr r "ret_coefs" = VDict d ->
    NoDup (map fst d) /\ forall n x, In (n, x) d -> x <> SNone /\ x <> SStr "" /\ forall b, x <> SBool b
}.

Record writable_reaction (E : env) (r : reaction) : Prop := {
  wr_history : rx_history E r;
  wr_rate : xattr r "arrh_a" <> VNone \/ xattr r "special_number" <> VNone;
  wr_texts : forall k, In k rx_attr_keys -> xattr r k <> VStr ""
}.

(** Two species of which all getters return the same. *)
Record same_species (E : env) (r r' : rp) : Prop := {
  ss_id : rp_id r' = rp_id r;
  ss_name : get_name r' = get_name r;
  ss_stateless : get_stateless r' = get_stateless r;
  ss_state : get_state r' = get_state r;
  ss_mass : get_mass E r' = get_mass E r;
  ss_charge : get_charge E r' = get_charge E r;
  ss_h_form : get_h_form E r' = get_h_form E r;
  ss_lj_epsilon : get_lj_epsilon E r' = get_lj_epsilon E r;
  ss_lj_sigma : get_lj_sigma E r' = get_lj_sigma E r;
  ss_stick : get_stick_coef E r' = get_stick_coef E r;
  ss_ret : get_ret_coefs E r' = get_ret_coefs E r;
  ss_atoms : get_atoms E r' = get_atoms E r;
  ss_hpem : get_hpem_name r' = get_hpem_name r;
  ss_qdb : get_qdb_id E r' = get_qdb_id E r;
  ss_comments : get_comments r' = get_comments r;
  ss_latex : rattr r' "latex" = rattr r "latex";
  ss_units : forall k, rattr r k <> VNone -> rp_get_unit r' k = rp_get_unit r k
}.

(** An optional integer attribute (plaschem/reactions.py [get_qdb_r_id],
    [get_qdb_ds_id]). *)
Definition int_attribute (E : env) (k : string) (r : reaction) : res (option Z) :=
  if is_none (xattr r k) then Ok None else let* z := py_int_v E (xattr r k) in Ok (Some z).

Record same_reaction (E : env) (r r' : reaction) : Prop := {
  sr_id : r_id r' = r_id r;
  sr_lhs : Forall2 (same_species E) (r_lhs r) (r_lhs r');
  sr_rhs : Forall2 (same_species E) (r_rhs r) (r_rhs r');
  sr_a : forall si, get_arrh_a E si r' = get_arrh_a E si r;
  sr_b : get_arrh_bc E "arrh_b" r' = get_arrh_bc E "arrh_b" r;
  sr_c : get_arrh_bc E "arrh_c" r' = get_arrh_bc E "arrh_c" r;
  sr_loss : get_rx_float E "el_en_loss" r' = get_rx_float E "el_en_loss" r;
  sr_heat : get_rx_float E "gas_heat_contrib" r' = get_rx_float E "gas_heat_contrib" r;
  sr_elastic : get_elastic r' = get_elastic r;
  sr_special : get_special_number E r' = get_special_number E r;
  sr_qdb_r : int_attribute E "qdb_r_id" r' = int_attribute E "qdb_r_id" r;
  sr_qdb_ds : int_attribute E "qdb_ds_id" r' = int_attribute E "qdb_ds_id" r;
  sr_doi : xattr r' "doi" = xattr r "doi";
  sr_comments : xattr r' "comments" = xattr r "comments";
  sr_latex : xattr r' "latex" = xattr r "latex";
  sr_units : forall k, xattr r k <> VNone -> rx_get_unit r' k = rx_get_unit r k
}.

(** All steps succeed. *)
Fixpoint performed (E : env) (so : pyval -> string) (b : builder) (l : list bop) (b' : builder) : Prop :=
  match l with
  | [] => b' = b
  | o :: l' => exists b1, bstep E so b o = (b1, Ok tt) /\ performed E so b1 l' b'
  end.

(** The name in an element. *)
Definition named (e : element) (n : string) : Prop := el_name e = Ok (Some n).

(** The species listed in an element 'reaction' are among [ns]. *)
Definition side_lists (e : element) (tag : string) (l : list string) : Prop :=
  exists i, find_tag tag e = Some i /\ it_text i = Some (str_join ", " l).
Definition refers (ns : list string) (e : element) : Prop :=
  exists ls rs, side_lists e "reactants" ls /\ side_lists e "products" rs /\ incl (ls ++ rs) ns.

(** Calls in which species have a name: a non-empty string. In files, the
    species named in reactions are listed as species. *)
Definition nonempty_name (s : rp) : Prop := exists n, get_name s = Ok n /\ n <> "".
Definition well_named (o : bop) : Prop :=
  match o with
  | ORpAttrs _ a m _ => forall v, sget "name" (supdate a m) = Some v -> exists n, v = VStr n /\ n <> ""
  | ORp s => nonempty_name s
  | ORx r => forall s, In s (r_lhs r ++ r_rhs r) -> nonempty_name s
  | OChem _ rxs => forall r s, In r rxs -> In s (r_lhs r ++ r_rhs r) -> nonempty_name s
  | OXml sps rxs => exists ns, Forall2 named sps ns /\ forall e, In e rxs -> refers ns e
  | _ => True
  end.

(** A builder whose species are named [ns]. *)
Record species_named (E : env) (so : pyval -> string) (b : builder) (ns : list string) : Prop := {
  sn_names : Forall2 named (b_species b) ns;
  sn_distinct : NoDup ns;
  (** a species is refused iff its name is there, a reaction accepted iff all
      its species are there *)
  sn_species : forall id a m u n, sget "name" (supdate a m) = Some (VStr n) ->
    (snd (add_rp_from_attributes E so id a m u b) = Err EXml <-> In n ns);
  sn_accepts : forall ls rs id a m u, snd (add_reaction_from_attributes E so ls rs id a m u b) = Ok tt <-> incl (ls ++ rs) ns;
  sn_reactions : forall e, In e (b_reactions b) -> refers ns e
}.

(** The contents of the builder are read as [sps'] and [rxs'], directly and
    from any file they may be written to; other files are left alone. *)
Definition reads (E : env) (uid : nat) (b : builder) (sps' : list rp) (rxs' : list reaction) : Prop :=
  parse E uid (b_species b) (b_reactions b) = Ok (sps', rxs') /\
  forall path overwrite fs, (shas path fs = true -> overwrite = true) ->
    exists fs', dump_xml path overwrite b fs = (fs', Ok tt) /\ get_species_and_reactions E uid path fs' = Ok (sps', rxs') /\
      forall p, p <> path -> sget p fs' = sget p fs.
