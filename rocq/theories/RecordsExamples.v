(** Main statements about the data of species and reactions, and examples. *)
From Verif Require Import Base BaseLemmas Species Reactions MolSpec SpeciesProofs ReactionProofs RecordsSpec RecordsProofs RecordsReact MolExamples.

Lemma sp_keys k : sp_value k (VSc SNone) <-> In k rp_attr_keys.
Proof.
  split; [|apply spv_none]. intros H. apply sp_value_iff in H. now apply memS_In.
Qed.
Lemma rx_keys k : rx_value k (VSc SNone) <-> In k rx_attr_keys.
Proof. split; [|apply rxv_none]. intros H. apply rx_value_iff in H. now apply memS_In. Qed.

Lemma start_accepted uid id attributes more units r : NoDup (akeys more) -> rp_init uid id attributes more units = Ok r ->
  forall k, In k rp_attr_keys -> sp_accepts k (given_or_none attributes more k) (unit_given units k).
Proof.
  intros N H k I. assert (X : sp_arguments id attributes more units) by (apply (sp_init_iff uid); [exact N|now exists r]). unfold given_or_none.
  destruct (given attributes more k) as [v|] eqn:G; [exact (sa_values _ _ _ _ X k v G)|].
  assert (UG : unit_given units k = None).
  { unfold unit_given. destruct (sget k units) as [u|] eqn:SU; [|reflexivity]. exfalso. apply (aget_In _ Seqb_spec) in SU.
    destruct (sa_units _ _ _ _ X k (in_map fst _ _ SU)) as [_ Y]. contradiction. }
  rewrite UG. now apply accepts_none.
Qed.

Theorem species_told E uid id attributes more units r0 calls : NoDup (akeys more) -> rp_init uid id attributes more units = Ok r0 ->
  exists val unit, (forall k, sp_value k (VSc SNone) -> told sp_accepts (given_or_none attributes more) (unit_given units) calls k (val k) (unit k)) /\
    sp_reports E (sp_assigns r0 calls) val unit.
Proof.
  intros N H. pose proof (sp_stored_assigns _ _ calls _ (sp_stored_init _ _ _ _ _ _ N H)) as S.
  destruct (sp_reports_ok E _ _ S) as (val & unit & A & B).
  - intros k v u I T. exact (told_accepted rp_attr_keys _ _ _ _ _ _ _ (start_accepted _ _ _ _ _ _ N H) I T).
  - exists val, unit. split; [|exact B]. intros k I. apply A. now apply sp_keys.
Qed.

Theorem reaction_told E id lhs rhs attributes more units r0 calls : NoDup (akeys more) -> reaction_init E id lhs rhs attributes more units = Ok r0 ->
  exists names val unit, names_of lhs = Ok names /\ r_lhs (assigns E r0 calls) = lhs /\ r_rhs (assigns E r0 calls) = rhs /\
    (forall k, rx_value k (VSc SNone) -> told (rx_accepts E names) (given_or_none attributes more) (unit_given units) calls k (val k) (unit k)) /\
    rx_reports E (assigns E r0 calls) names val unit.
Proof.
  intros N H. destruct (init_names _ _ _ _ _ _ _ _ H) as (names & NM). pose proof (reaction_init_parts _ _ _ _ _ _ _ _ H) as (_ & _ & LH & RH & L & _).
  assert (NM0 : names_of (r_lhs r0) = Ok names) by now rewrite LH. assert (L0 : (1 <= List.length (r_lhs r0) <= 3)%nat) by now rewrite LH.
  destruct (rx_stored_assigns E names _ _ calls r0 NM0 L0 (rx_stored_init _ _ _ _ _ _ _ _ _ N H)) as [LA S].
  destruct (rx_reports_ok E (assigns E r0 calls) names _ ltac:(rewrite LA; exact NM0) S) as (val & unit & A & B).
  - intros k v u I T. exact (told_accepted rx_attr_keys _ _ _ _ _ _ _ (init_accepted _ _ _ _ _ _ _ _ _ N H NM) I T).
  - exists names, val, unit. split; [exact NM|]. split; [congruence|]. split.
    + destruct (assigns_keeps E calls r0) as (_ & _ & X). now rewrite X.
    + split; [|exact B]. intros k I. apply A. now apply rx_keys.
Qed.

Lemma set_species_both r k v u : ((exists r', set_species_attribute r k v u = Ok r') <-> sp_accepts k v u) /\
  (~ sp_accepts k v u -> set_species_attribute r k v u = Err ERPAttr) /\
  forall r', set_species_attribute r k v u = Ok r' -> rp_uid r' = rp_uid r /\ rp_id r' = rp_id r.
Proof.
  split; [apply set_species_iff|]. split; [apply set_species_error|]. intros r' H. destruct (set_species_all _ _ _ _ _ H) as (A & B & _). auto.
Qed.

(** A species, changed twice; one assignment is refused. *)
Definition ar_attrs : list (string * pyval) := [("name", VStr "Ar*"); ("mass", VStr "40"); ("state", VStr "4s"); ("stateless", VStr "Ar")]%string.
Definition ar_units : list (string * option string) := [("mass", Some "amu")]%string.
Definition ar_calls : list assignment :=
  [("lj_sigma", VFlt (Fin 4), Some "A"); ("lj_sigma", VFlt (Fin 5), Some "m"); ("mass", VSc (SBool true), None); ("charge", VInt 1, None); ("h_form", VNone, Some "kJ")]%string.
Lemma ar_example : exists r0 r, rp_init 0 (VInt 3) ar_attrs [("lj_epsilon", VInt 2)]%string ar_units = Ok r0 /\ r = sp_assigns r0 ar_calls /\
  sp_arguments (VInt 3) ar_attrs [("lj_epsilon", VInt 2)]%string ar_units /\
  get_lj_sigma E1 r0 = Ok (Some (Fin 3)) /\ get_lj_sigma E1 r = Ok (Some (Fin 4)) /\ get_lj_epsilon E1 r = Ok (Some (Fin 2)) /\
  get_charge E1 r0 = Ok (Some 0) /\ get_charge E1 r = Ok (Some 1) /\ rp_get_unit r "lj_sigma" = Ok "A" /\ rp_get_unit r "h_form" = Ok "kJ" /\
  rp_get_unit r "name" = Err ERPAttr /\ get_state r = Ok (Some "4s").
Proof.
  eexists _, _. split; [vm_compute; reflexivity|]. split; [vm_compute; reflexivity|]. split.
  { apply (proj1 (sp_init_iff 0 (VInt 3) ar_attrs [("lj_epsilon", VInt 2)]%string ar_units ltac:(constructor; [intros []|constructor]))). eexists. vm_compute. reflexivity. }
  repeat (split; [vm_compute; reflexivity|]). vm_compute. reflexivity.
Qed.

(** Accepted, but without a mass, or without a stateless name. *)
Lemma no_mass : exists r, rp_init 0 (VInt 1) [("name", VStr "Ar"); ("mass", VNone)]%string [] [] = Ok r /\ forall E, get_mass E r = Err ERPAttr.
Proof. eexists. split; [vm_compute; reflexivity|]. intros E. vm_compute. reflexivity. Qed.
Lemma no_stateless : exists r, rp_init 0 (VInt 1) [("name", VStr "Ar*"); ("mass", VInt 40); ("state", VStr "4s"); ("stateless", VNone)]%string [] [] = Ok r /\
  get_stateless r = Err ERPAttr /\ forall E, get_atoms E r = Err ERPAttr.
Proof. eexists. split; [vm_compute; reflexivity|]. split; [vm_compute; reflexivity|]. intros E. vm_compute. reflexivity. Qed.
Lemma text_mass : exists r, rp_init 0 (VInt 1) [("name", VStr "Ar"); ("mass", VStr "heavy")]%string [] [] = Ok r /\ forall E, fparse E "heavy" = None -> get_mass E r = Err EValue.
Proof. eexists. split; [vm_compute; reflexivity|]. intros E H. unfold get_mass. cbn. now rewrite H. Qed.

(** A reaction, changed by hand. *)
Definition ion_attrs : list (string * pyval) := [("arrh_a", VFlt (Fin 3)); ("arrh_c", VInt 2)]%string.
Definition ion_units : list (string * option string) := [("arrh_a", Some "cm3.s-1"); ("arrh_c", Some "eV")]%string.
Definition ion_calls : list assignment :=
  [("arrh_a", VInt 7, Some "cm6.s-1"); ("arrh_a", VInt 5, Some "m3.s-1"); ("arrh_a", VInt (-1), Some "m3.s-1"); ("arrh_c", VInt 1, Some "K"); ("el_en_loss", VInt 4, None)]%string.
Lemma ion_case : exists r0 r, reaction_init E1 (VInt 1) [sp_e; sp_O] [sp_e; sp_Op; sp_e] ion_attrs [] ion_units = Ok r0 /\ r = assigns E1 r0 ion_calls /\
  names_of [sp_e; sp_O] = Ok ["e"; "O"]%string /\ good_formulas E1 /\
  get_arrh_a E1 false r = Ok (Some (Fin 5)) /\ get_arrh_bc E1 "arrh_c" r = Ok (Some (Fin 2)) /\ get_arrh_bc E1 "arrh_b" r = Ok (Some (Fin 0)) /\
  get_rx_float E1 "el_en_loss" r = Ok (Fin 4) /\ get_rx_float E1 "gas_heat_contrib" r = Ok (Fin 0) /\ get_special_number E1 r = Ok 10 /\
  rx_get_unit r "arrh_a" = Ok (Some "m3.s-1")%string /\ rx_get_unit r "el_en_loss" = Ok (Some "eV")%string.
Proof.
  eexists _, _. split; [vm_compute; reflexivity|]. split; [vm_compute; reflexivity|]. split; [vm_compute; reflexivity|]. split; [exact E1_good|].
  repeat (split; [vm_compute; reflexivity|]). vm_compute. reflexivity.
Qed.
