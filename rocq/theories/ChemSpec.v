(** Vocabulary of the chemistry properties, independent of the algorithms of
    Chemistry.v: only the data of a chemistry (species, reactions, masks) is
    mentioned. *)
From Verif Require Import Base Species Reactions Chemistry.

(** Species [s] is a reactant or product of reaction [r]. *)
Definition takes_part (s : sp) (r : rx) : Prop := In s (rx_lhs r) \/ In s (rx_rhs r).

(** The argument [a] of a call denotes species [s] of the chemistry. *)
Definition denotes (c : chem) (a : ref) (s : sp) : Prop :=
  In s (c_species c) /\
  match a with
  | RId z => sp_id s = z
  | RName n => sp_name s = n
  | RObj u => sp_uid s = u
  end.

(** The reaction id [z] denotes reaction [r] of the chemistry. *)
Definition denotes_r (c : chem) (z : Z) (r : rx) : Prop :=
  In r (c_reactions c) /\ rx_id r = z.

(** Python object identity is coherent: objects with the same identity have
    the same data. *)
Definition heap_ok (species : list sp) (reactions : list rx) : Prop :=
  forall s s',
    In s species \/ (exists r, In r reactions /\ takes_part s r) ->
    In s' species \/ (exists r, In r reactions /\ takes_part s' r) ->
    sp_uid s = sp_uid s' -> s = s'.

(** Static well-formedness of a chemistry: what the constructor establishes
    and no method changes. *)
Record wf (c : chem) : Prop := {
  wf_ids : NoDup (map sp_id (c_species c));
  wf_rids : NoDup (map rx_id (c_reactions c));
  wf_names : NoDup (map sp_name (c_species c));
  wf_uids : NoDup (map sp_uid (c_species c));
  wf_inst : forall r s, In r (c_reactions c) -> takes_part s r -> In s (c_species c)
}.

(** The species ids [S] and reaction ids [R] select a closed and connected
    sub-network: selected reactions only involve selected species, and every
    selected species is involved in a selected reaction. *)
Definition subnetwork (c : chem) (S R : Z -> Prop) : Prop :=
  (forall r s, In r (c_reactions c) -> R (rx_id r) -> takes_part s r -> S (sp_id s)) /\
  (forall s, In s (c_species c) -> S (sp_id s) ->
     exists r, In r (c_reactions c) /\ R (rx_id r) /\ takes_part s r).

(** The enabled part of a chemistry. *)
Definition on_sp (c : chem) (i : Z) : Prop := c_en c i = true.
Definition on_r (c : chem) (i : Z) : Prop := c_enr c i = true.

Definition closed (c : chem) : Prop := subnetwork c (on_sp c) (on_r c).

Definition protected (c : chem) (s : sp) : Prop :=
  c_prot c (sp_id s) = true \/ c_adprot c (sp_id s) = true.

(** An ordinary (non-special) species with positive charge. *)
Definition pos_ion (s : sp) : Prop :=
  ~ In (sp_name s) ["e"; "M"] /\ exists z, sp_charge s = Some z /\ z > 0.

(** The data [disable] and [reset] must never touch. *)
Definition same_data (c c' : chem) : Prop :=
  c_kind c' = c_kind c /\ c_species c' = c_species c /\ c_reactions c' = c_reactions c /\
  c_xml c' = c_xml c /\ c_stick c' = c_stick c /\ c_ret c' = c_ret c /\ c_arrh c' = c_arrh c.

(** Two chemistries are observably in the same state: same data, and masks
    that agree on all ids of the chemistry. *)
Definition same_state (c c' : chem) : Prop :=
  same_data c c' /\
  (forall i, In i (sp_ids c) ->
     c_en c' i = c_en c i /\ c_prot c' i = c_prot c i /\ c_adprot c' i = c_adprot c i) /\
  (forall i, In i (r_ids c) -> c_enr c' i = c_enr c i).

(** Every return species declared by a species of the chemistry is itself a
    species of the chemistry. *)
Definition declared_exist (c : chem) : Prop :=
  forall s d n, In s (c_species c) -> sp_ret s = Some d -> In n (map fst d) ->
    exists s', In s' (c_species c) /\ sp_name s' = n.

(** Two chemistries over the same species and reactions. *)
Definition same_input (c d : chem) : Prop :=
  c_kind d = c_kind c /\ c_species d = c_species c /\ c_reactions d = c_reactions c.

(** Every state a user can bring a chemistry into: constructed, any public
    call (successful or failing), copied, or loaded from a file that was
    dumped by such a chemistry of the same input. *)
Inductive reachable (E : env) : chem -> Prop :=
| reach_init k species reactions xml c :
    heap_ok species reactions -> init k species reactions xml = Ok c -> reachable E c
| reach_step c o : reachable E c -> reachable E (fst (step E c o))
| reach_copy c c' : reachable E c -> copy c = Ok c' -> reachable E c'
| reach_load fhash fhash' c d f check_hash :
    reachable E c -> reachable E d -> same_input c d ->
    chemistry_attributes E fhash d = Ok f ->
    reachable E (fst (load E fhash' c f check_hash)).
