(** Imports from the QDB database. *)
From Verif Require Import Base Species Reactions MolSpec Classification Xml XmlSpec XmlExamples Hpem Qdb QdbSpec QdbMain QdbBuilder QdbExamples.

(** C138: the reactions of a chemistry, lumped ones replaced by those they
    stand for, are imported into a new builder; what is read back, directly or
    from an XML file, are these reactions with the data of the database, and
    the species that take part in them. *)
Theorem C138_read_back E so uid l objs robjs : numbers_readable E ->
  (forall s, In s objs -> writable_species s) -> NoDup (map get_name objs) ->
  Forall2 (qrx_object E objs) (flat_map resolved l) robjs -> (forall r, In r robjs -> writable_reaction E r) ->
  exists b u sps' rxs', add_chemistry_from_qdb E so l b_empty = (b, Ok tt) /\
    NoDup u /\ (forall s, In s u <-> In s objs /\ exists r, In r robjs /\ In s (r_lhs r ++ r_rhs r)) /\
    reads E uid b sps' rxs' /\ Forall2 (same_species E) u sps' /\ Forall2 (same_reaction E) robjs rxs' /\
    (forall r', In r' rxs' -> incl (r_lhs r' ++ r_rhs r') sps').
Proof. exact (qdb_read_back E so uid l objs robjs). Qed.

Example C138_nonvacuous : numbers_readable E2 /\ (forall s, In s qobjs -> writable_species s) /\ NoDup (map get_name qobjs) /\
  Forall2 (qrx_object E2 qobjs) (flat_map resolved db1) [qr_ion; qr_res] /\ (forall r, In r [qr_ion; qr_res] -> writable_reaction E2 r).
Proof. exact db1_nonvacuous. Qed.

(** C139: whatever is called, the builder stays consistent. *)
Theorem C139_consistent E so l : (forall o, In o l -> op_well_formed o) -> exists ns, species_named E so (qhistory E so b_empty l) ns.
Proof. exact (qdb_consistent E so l). Qed.

(** C139: an import only adds. It is accepted exactly if every reaction that
    stands for itself has at most one lumped reaction and a dataset with a
    rate; then each is added once. Otherwise there is an XmlError. *)
Theorem C139_accepted E so h l b b' r :
  (forall o, In o h -> op_well_formed o) -> b = qhistory E so b_empty h -> (forall x, In x l -> well_formed x) ->
  add_chemistry_from_qdb E so l b = (b', r) ->
  (exists k, b_species b' = b_species b ++ k) /\ (exists k, b_reactions b' = b_reactions b ++ k) /\
  (r = Ok tt \/ r = Err EXml) /\
  (r = Ok tt <-> forall x m ch ds, In x l -> leaf_of x m ch ds -> importable m ch ds) /\
  (r = Ok tt -> List.length (b_reactions b') = (List.length (flat_map resolved l) + List.length (b_reactions b))%nat).
Proof. exact (qdb_accepts E so h l b b' r). Qed.

Example C139_nonvacuous : (forall o, In o qops1 -> op_well_formed o) /\ (forall x, In x db1 -> well_formed x) /\
  (exists b', add_chemistry_from_qdb E2 so2 db1 (qhistory E2 so2 b_empty qops1) = (b', Ok tt) /\ List.length (b_species b') = 4%nat /\ List.length (b_reactions b') = 3%nat) /\
  (exists b' e, add_chemistry_from_qdb E2 so2 (db1 ++ [QRx s_ion [] [] []]) (qhistory E2 so2 b_empty qops1) = (b', Err e)).
Proof. exact qops1_ok. Qed.

(** C140: what is imported without an error cannot always be read: not if a
    species has two states, since there is a comma in its name; *)
Theorem C140_states_refuted : exists E so b, numbers_readable E /\
  add_chemistry_from_qdb E so [QRx s_two [] [d_rate] []] b_empty = (b, Ok tt) /\ parse E 0 (b_species b) (b_reactions b) = Err EKey.
Proof. exact (ex_intro _ E2 (ex_intro _ so2 two_states_E)). Qed.

(** and not if the activation energy of an electron collision is in kelvin. *)
Theorem C140_kelvin_refuted : exists E so b, numbers_readable E /\
  add_chemistry_from_qdb E so [QRx s_exc [] [d_kelvin] []] b_empty = (b, Ok tt) /\ parse E 0 (b_species b) (b_reactions b) = Err EReactionAttr.
Proof. exact (ex_intro _ E2 (ex_intro _ so2 kelvin_E)). Qed.

(** C141: a reaction that is listed, and also stands for a lumped one, is
    there twice, with the same id. *)
Theorem C141_once_refuted : exists E so b sps r r', add_chemistry_from_qdb E so [QRx s_lumped [] [] [r_resolved]; r_resolved] b_empty = (b, Ok tt) /\
  parse E 0 (b_species b) (b_reactions b) = Ok (sps, [r; r']) /\ r_id r = 21 /\ r_id r' = 21.
Proof. exact (ex_intro _ E2 (ex_intro _ so2 added_twice)). Qed.

(** C141: of two species with the same formula and states the second is taken
    for the first. *)
Theorem C141_distinguished_refuted : exists E so b sps r r' s,
  add_chemistry_from_qdb E so [QRx s_ion [] [d_xsec] []; QRx s_iso [] [d_xsec] []] b_empty = (b, Ok tt) /\
  parse E 0 (b_species b) (b_reactions b) = Ok (sps, [r; r']) /\ In q_iso (m_lhs s_iso) /\ q_mass q_iso = Fin 34 /\
  r_id r' = m_pk s_iso /\ hd_error (r_lhs r') = Some s /\ get_mass E s = Ok (Some (Fin 32)).
Proof. exact (ex_intro _ E2 (ex_intro _ so2 first_counts)). Qed.

(** C141: a reaction without data leaves its species behind. *)
Theorem C141_all_or_nothing_refuted : exists E so b, add_chemistry_from_qdb E so [QRx s_ion [] [] []] b_empty = (b, Err EXml) /\
  List.length (b_species b) = 3%nat /\ snd (add_rp_from_qdb E so q_O2 b) = Err EXml.
Proof. exact (ex_intro _ E2 (ex_intro _ so2 species_left)). Qed.

(** All theorems of this file at once (one traversal instead of one per
    theorem). *)
Definition all_theorems := (
  @C138_read_back,
  @C139_consistent,
  @C139_accepted,
  @C140_states_refuted,
  @C140_kelvin_refuted,
  @C141_once_refuted,
  @C141_distinguished_refuted,
  @C141_all_or_nothing_refuted).
Print Assumptions all_theorems.
