(** Property theorems about the data of single species and reactions
    (C168 - C172); the vocabulary is that of RecordsSpec.v and MolSpec.v. *)
From Verif Require Import Base Species Reactions MolSpec SpeciesProofs ReactionProofs RecordsSpec RecordsProofs RecordsReact MolExamples RecordsExamples.

(** C168: whatever assignments follow the construction of a species, its getters
    report what was said last and accepted, and else the documented defaults. *)
Theorem C168_reports E uid id attributes more units r0 calls : NoDup (akeys more) -> rp_init uid id attributes more units = Ok r0 ->
  exists val unit, (forall k, sp_value k (VSc SNone) -> told sp_accepts (given_or_none attributes more) (unit_given units) calls k (val k) (unit k)) /\
    sp_reports E (sp_assigns r0 calls) val unit.
Proof. exact (species_told E uid id attributes more units r0 calls). Qed.

(** C168, C170: there is only one such value. *)
Theorem C168_unique acc start units calls k v u v' u' : told acc start units calls k v u -> told acc start units calls k v' u' -> v = v' /\ u = u'.
Proof. exact (told_fun acc start units calls k v u v' u'). Qed.

(** C168: an assignment is accepted if and only if the attribute exists, the
    type is a documented one and the unit fits; else it raises. The identity of
    the species never changes. *)
Theorem C168_accepted r k v u : ((exists r', set_species_attribute r k v u = Ok r') <-> sp_accepts k v u) /\
  (~ sp_accepts k v u -> set_species_attribute r k v u = Err ERPAttr) /\
  forall r', set_species_attribute r k v u = Ok r' -> rp_uid r' = rp_uid r /\ rp_id r' = rp_id r.
Proof. exact (set_species_both r k v u). Qed.

(** C169: a species can be made if and only if its arguments are in order. *)
Theorem C169_construct uid id attributes more units : NoDup (akeys more) ->
  ((exists r, rp_init uid id attributes more units = Ok r) <-> sp_arguments id attributes more units).
Proof. exact (sp_init_iff uid id attributes more units). Qed.

Example C168_case : exists r0 r, rp_init 0 (VInt 3) ar_attrs [("lj_epsilon", VInt 2)]%string ar_units = Ok r0 /\ r = sp_assigns r0 ar_calls /\
  sp_arguments (VInt 3) ar_attrs [("lj_epsilon", VInt 2)]%string ar_units /\
  get_lj_sigma E1 r0 = Ok (Some (Fin 3)) /\ get_lj_sigma E1 r = Ok (Some (Fin 4)) /\ get_lj_epsilon E1 r = Ok (Some (Fin 2)) /\
  get_charge E1 r0 = Ok (Some 0) /\ get_charge E1 r = Ok (Some 1) /\ rp_get_unit r "lj_sigma" = Ok "A" /\ rp_get_unit r "h_form" = Ok "kJ" /\
  rp_get_unit r "name" = Err ERPAttr /\ get_state r = Ok (Some "4s").
Proof. exact ar_example. Qed.

(** C170: the same for reactions: the sides never change, and the getters report
    what was said last. *)
Theorem C170_reports E id lhs rhs attributes more units r0 calls : NoDup (akeys more) -> reaction_init E id lhs rhs attributes more units = Ok r0 ->
  exists names val unit, names_of lhs = Ok names /\ r_lhs (assigns E r0 calls) = lhs /\ r_rhs (assigns E r0 calls) = rhs /\
    (forall k, rx_value k (VSc SNone) -> told (rx_accepts E names) (given_or_none attributes more) (unit_given units) calls k (val k) (unit k)) /\
    rx_reports E (assigns E r0 calls) names val unit.
Proof. exact (reaction_told E id lhs rhs attributes more units r0 calls). Qed.

Theorem C170_accepted E r names k v u : names_of (r_lhs r) = Ok names -> (1 <= List.length (r_lhs r) <= 3)%nat ->
  ((exists r', set_reaction_attribute E r k v u = Ok r') <-> rx_accepts E names k v u).
Proof. exact (set_rx_iff E r names k v u). Qed.

(** C171: a reaction can be made if and only if its arguments are in order; it
    has to conserve charge and atoms. *)
Theorem C171_construct E id lhs rhs attributes more units names : good_formulas E -> NoDup (akeys more) -> names_of lhs = Ok names ->
  ((exists r, reaction_init E id lhs rhs attributes more units = Ok r) <-> rx_arguments E names id lhs rhs attributes more units).
Proof. exact (rx_init_iff E id lhs rhs attributes more units names). Qed.

Example C170_case : exists r0 r, reaction_init E1 (VInt 1) [sp_e; sp_O] [sp_e; sp_Op; sp_e] ion_attrs [] ion_units = Ok r0 /\ r = assigns E1 r0 ion_calls /\
  names_of [sp_e; sp_O] = Ok ["e"; "O"]%string /\ good_formulas E1 /\
  get_arrh_a E1 false r = Ok (Some (Fin 5)) /\ get_arrh_bc E1 "arrh_c" r = Ok (Some (Fin 2)) /\ get_arrh_bc E1 "arrh_b" r = Ok (Some (Fin 0)) /\
  get_rx_float E1 "el_en_loss" r = Ok (Fin 4) /\ get_rx_float E1 "gas_heat_contrib" r = Ok (Fin 0) /\ get_special_number E1 r = Ok 10 /\
  rx_get_unit r "arrh_a" = Ok (Some "m3.s-1")%string /\ rx_get_unit r "el_en_loss" = Ok (Some "eV")%string.
Proof. exact ion_case. Qed.

(** C172: a species that was accepted need not have what is mandatory: the
    constructor asks for the keys only, not for values. *)
Theorem C172_mass_refuted : exists r, rp_init 0 (VInt 1) [("name", VStr "Ar"); ("mass", VNone)]%string [] [] = Ok r /\ forall E, get_mass E r = Err ERPAttr.
Proof. exact no_mass. Qed.
Theorem C172_stateless_refuted : exists r, rp_init 0 (VInt 1) [("name", VStr "Ar*"); ("mass", VInt 40); ("state", VStr "4s"); ("stateless", VNone)]%string [] [] = Ok r /\
  get_stateless r = Err ERPAttr /\ forall E, get_atoms E r = Err ERPAttr.
Proof. exact no_stateless. Qed.
Theorem C172_text_refuted : exists r, rp_init 0 (VInt 1) [("name", VStr "Ar"); ("mass", VStr "heavy")]%string [] [] = Ok r /\ forall E, fparse E "heavy" = None -> get_mass E r = Err EValue.
Proof. exact text_mass. Qed.

(** All theorems of this file at once (one traversal instead of one per
    theorem). *)
Definition all_theorems := (
  @C168_reports,
  @C168_unique,
  @C168_accepted,
  @C169_construct,
  @C170_reports,
  @C170_accepted,
  @C171_construct,
  @C172_mass_refuted,
  @C172_stateless_refuted,
  @C172_text_refuted).
Print Assumptions all_theorems.
