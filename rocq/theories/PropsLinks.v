(** The numbers a simulation works with are those of the chemistry. *)
From Coq Require Import Reals Qreals.
From Verif Require Import Base Species Reactions Chemistry ChemSpec ChemGetters MolSpec ExtReal Equations Views ConserveSpec
  LinkSpec Links MolExamples BalanceExamples.

(** C105: entry [j] of every array over reactions belongs to the [j]-th enabled
    reaction: the rate coefficient in force times its unit, the other
    parameters of the Reaction object, and how often the third body, the
    electron and each ordinary enabled species occur in it. *)
Theorem C105_reactions E objs rxs c v j r :
  reachable E c -> objects E objs rxs c -> view_of E objs c = Ok v -> nth_error (get_reactions c false) j = Some r ->
  (exists n f u, denotes_number (eff_arrh c r) n /\ rx_unit r = Some u /\ unit_in_si u f /\ nth_error (v_a v) j = Some (n * f)%R) /\
  (exists ro b k l, In ro rxs /\ view_reaction E ro = Ok r /\
    get_arrh_bc E "arrh_b" ro = Ok (Some (Fin b)) /\ nth_error (v_b v) j = Some (Q2R b) /\
    get_arrh_bc E "arrh_c" ro = Ok (Some (Fin k)) /\ nth_error (v_c v) j = Some (Q2R k) /\
    get_rx_float E "el_en_loss" ro = Ok (Fin l) /\ nth_error (v_loss v) j = Some (Q2R l) /\
    exists el, get_elastic ro = Ok el /\ nth_error (v_elastic v) j = Some el) /\
  nth_error (v_m_lhs v) j = Some (occurrences "M" (rx_lhs r)) /\
  (c_kind c = Plain ->
    nth_error (v_e_lhs v) j = Some (occurrences "e" (rx_lhs r)) /\
    nth_error (v_e_net v) j = Some (occurrences "e" (rx_rhs r) - occurrences "e" (rx_lhs r))%Z) /\
  exists row net, nth_error (v_lhs v) j = Some row /\ nth_error (v_net v) j = Some net /\
    forall i s, nth_error (get_species c false false true) i = Some s ->
      nth_error row i = Some (occurrences (sp_name s) (rx_lhs r)) /\
      nth_error net i = Some (occurrences (sp_name s) (rx_rhs r) - occurrences (sp_name s) (rx_lhs r))%Z.
Proof. exact (fun R O V => reaction_linked E objs rxs c v R O V j r). Qed.

(** C105: entry [i] of every array over species belongs to the [i]-th ordinary
    enabled species. *)
Theorem C105_species E objs rxs c v i s :
  reachable E c -> objects E objs rxs c -> view_of E objs c = Ok v -> nth_error (get_species c false false true) i = Some s ->
  exists p q m g, In p objs /\ view_rp E p = Ok s /\ nth_error (v_names v) i = Some (sp_name s) /\
    get_name p = Ok (sp_name s) /\
    get_charge E p = Ok (Some q) /\ nth_error (v_charge v) i = Some q /\
    get_mass E p = Ok (Some (Fin m)) /\ nth_error (v_mass v) i = Some (Q2R m) /\
    get_lj_sigma E p = Ok (Some (Fin g)) /\ nth_error (v_sigma v) i = Some (Q2R g) /\
    exists k, denotes_number (eff_stick c s) k /\ nth_error (v_stick v) i = Some k.
Proof. exact (fun R O V => species_linked E objs rxs c v R O V i s). Qed.

Example C105_nonvacuous : exists r s, reachable E1 cB /\ objects E1 objsB rxsB cB /\ view_of E1 objsB cB = Ok vB /\ c_kind cB = Plain /\
  nth_error (get_reactions cB false) 0 = Some r /\ nth_error (get_species cB false false true) 1 = Some s /\
  occurrences "e" (rx_lhs r) = 1%Z /\ occurrences "e" (rx_rhs r) = 2%Z /\ sp_name s = "O+"%string.
Proof.
  eexists. eexists. split; [exact cB_reachable|]. split; [exact cB_objects|]. split; [exact vB_ok|]. split; [vm_compute; reflexivity|].
  split; [vm_compute; reflexivity|]. split; [vm_compute; reflexivity|]. repeat split.
Qed.

(** All theorems of this file at once (one traversal instead of one per
    theorem). *)
Definition all_theorems := (
  @C105_reactions,
  @C105_species).
Print Assumptions all_theorems.
