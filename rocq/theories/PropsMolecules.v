(** Property theorems about single species and reactions (C18, C20 - C24).
    The vocabulary is that of MolSpec.v. *)
From Coq Require Import Permutation.
From Verif Require Import Base BaseLemmas Species Reactions MolSpec SpeciesProofs ReactionProofs MolExamples.

(** C18 *)
Theorem C18_reactions_conserve E r :
  good_formulas E -> rx_history E r -> conserves E (r_lhs r) (r_rhs r).
Proof. exact (history_conserves E r). Qed.

Theorem C18_only_imbalance_is_reported E id lhs rhs attributes more units :
  good_formulas E ->
  reaction_init E id lhs rhs attributes more units = Err EReactionValue -> ~ conserves E lhs rhs.
Proof. exact (init_value_error E id lhs rhs attributes more units). Qed.

(** C20 *)
Theorem C20_prefactor_unit E r :
  rx_history E r -> xattr r "arrh_a" <> VNone ->
  exists f w q, rx_get_unit r "arrh_a" = Ok (Some w) /\ prefactor_unit (List.length (r_lhs r)) w /\
    si_value w q /\ get_arrh_a E false r = Ok (Some f) /\ get_arrh_a E true r = Ok (Some (fmul f (Fin q))) /\
    fltb f fzero = false.
Proof. exact (history_arrh_a E r). Qed.

Theorem C20_activation_unit E r :
  rx_history E r -> xattr r "arrh_c" <> VNone ->
  exists b, is_electron_process r = Ok b /\ rx_get_unit r "arrh_c" = Ok (Some (if b then "eV" else "K")).
Proof. exact (history_arrh_c E r). Qed.

Theorem C20_assignment_is_local E r k v u r' :
  set_reaction_attribute E r k v u = Ok r' ->
  r_id r' = r_id r /\ r_lhs r' = r_lhs r /\ r_rhs r' = r_rhs r /\
  xattr r' k = v /\ sget k (r_units r') = Some u /\
  (forall k', k' <> k -> xattr r' k' = xattr r k' /\ sget k' (r_units r') = sget k' (r_units r)).
Proof. exact (set_rx_shape E r k v u r'). Qed.

(** C54: units are only checked together with a value. *)
Theorem C54_units_supported_refuted :
  exists r, rx_history E1 r /\ rx_get_unit r "arrh_c" = Ok (Some "furlong").
Proof. exact stored_unit_unsupported. Qed.

(** "Needs to be non-negative" lets NaN through. *)
Theorem C54_prefactor_not_nan_refuted : exists r, rx_history E1 r /\ get_arrh_a E1 true r = Ok (Some NaN).
Proof. exact prefactor_nan. Qed.

(** C21 *)
Theorem C21_unique_key E r1 r2 l1 l2 p1 p2 s1 s2 :
  rx_history E r1 -> rx_history E r2 ->
  names_of (r_lhs r1) = Ok l1 -> names_of (r_rhs r1) = Ok p1 ->
  names_of (r_lhs r2) = Ok l2 -> names_of (r_rhs r2) = Ok p2 ->
  (forall n, In n (l1 ++ p1 ++ l2 ++ p2) -> clean_name n) ->
  reaction_str r1 = Ok s1 -> reaction_str r2 = Ok s2 ->
  (exists k, unique_key s1 = Ok k) /\ (exists k, unique_key s2 = Ok k) /\
  (unique_key s1 = unique_key s2 <-> Permutation l1 l2 /\ Permutation p1 p2).
Proof. exact (unique_key_iff E r1 r2 l1 l2 p1 p2 s1 s2). Qed.

(** Names without the separators inside and without surrounding blanks are
    not enough. *)
Theorem C21_unique_key_refuted :
  exists r1 r2 l1 l2 p s, rx_history E1 r1 /\ rx_history E1 r2 /\
    names_of (r_lhs r1) = Ok l1 /\ names_of (r_lhs r2) = Ok l2 /\
    names_of (r_rhs r1) = Ok p /\ names_of (r_rhs r2) = Ok p /\
    (forall n, In n (l1 ++ l2 ++ p) -> str_strip n = n /\ ~ contains n " + " /\ ~ contains n " > ") /\
    reaction_str r1 = Ok s /\ reaction_str r2 = Ok s /\ ~ Permutation l1 l2.
Proof. exact key_collision. Qed.

(** C22 *)
Theorem C22_strip_charge_base b t :
  charge_suffix t -> ~ ends_in_sign b -> strip_charge (b ++ t)%string = b.
Proof. exact (strip_charge_base b t). Qed.

Theorem C22_strip_charge_numbered b c l :
  sign c -> l <> [] -> (forall d, In d l -> digit d) ->
  strip_charge (b ++ str_of (c :: l))%string = b.
Proof. exact (strip_charge_numbered b c l). Qed.

(** All other strings are unchanged, and the leftmost suffix is removed. *)
Theorem C22_strip_charge_exact s :
  ~ ends_in_newline s ->
  (exists t, s = (strip_charge s ++ t)%string /\ charge_suffix t /\
     forall b' t', s = (b' ++ t')%string -> charge_suffix t' ->
       (String.length (strip_charge s) <= String.length b')%nat) \/
  ((forall b t, s = (b ++ t)%string -> ~ charge_suffix t) /\ strip_charge s = s).
Proof. exact (strip_charge_spec s). Qed.

Theorem C22_strip_charge_newline s :
  ~ ends_in_newline s ->
  strip_charge (s ++ String "010" "")%string = (strip_charge s ++ String "010" "")%string.
Proof. exact (strip_charge_newline s). Qed.

(** C53 *)
Theorem C53_idempotent_refuted : exists s, strip_charge (strip_charge s) <> strip_charge s.
Proof. exact strip_charge_twice_refuted. Qed.

(** C23 *)
Theorem C23_constructor_stores uid id attributes more units r :
  rp_init uid id attributes more units = Ok r ->
  NoDup (akeys more) ->
  rp_uid r = uid /\ id = VInt (rp_id r) /\ 0 <= rp_id r /\
  (forall k, In k rp_attr_keys ->
     rattr r k = match sget k more with
                 | Some v => v
                 | None => match sget k attributes with Some v => v | None => VNone end
                 end) /\
  (forall k, In k rp_attr_keys -> type_in (rattr r k) (rp_attr_types k) = true) /\
  (exists n, rattr r "name" = VStr n /\ has_char "<" n = false /\ has_char ">" n = false).
Proof. exact (rp_init_spec uid id attributes more units r). Qed.

Theorem C23_special_species E r n :
  get_name r = Ok n -> n = "e" \/ n = "M" -> get_stick_coef E r = Ok None /\ get_ret_coefs E r = Ok None.
Proof. exact (special_no_surface E r n). Qed.

Theorem C23_default_sticking E r n st q :
  get_name r = Ok n -> n <> "e" /\ n <> "M" -> get_state r = Ok st -> get_charge E r = Ok (Some q) ->
  rattr r "stick_coef" = VNone ->
  get_stick_coef E r = Ok (Some (Fin (if match st with None => q =? 0 | Some _ => false end then 0 else 1))).
Proof. exact (fun H1 H2 H3 H4 => default_stick E r n H1 H2 st q H3 H4). Qed.

Theorem C23_default_return_ground E r n :
  get_name r = Ok n -> n <> "e" /\ n <> "M" -> get_state r = Ok None -> get_charge E r = Ok (Some 0) ->
  rattr r "ret_coefs" = VNone -> get_ret_coefs E r = Ok (Some []).
Proof. exact (fun H1 H2 H3 H4 H5 => default_ret_ground E r n H1 H2 None 0 H3 H4 H5 eq_refl eq_refl). Qed.

(** The returned ground-state neutral has the atoms of the species. *)
Theorem C23_default_return E r n st q :
  sp_history r ->
  get_name r = Ok n -> n <> "e" /\ n <> "M" -> get_state r = Ok st -> get_charge E r = Ok (Some q) ->
  rattr r "ret_coefs" = VNone -> st <> None \/ q <> 0 ->
  rattr r "stateless" <> VNone \/ st = None ->
  exists s, get_stateless r = Ok s /\
    get_ret_coefs E r = Ok (Some [(strip_charge s, Fin 1)]) /\
    get_atoms E r = formula_atoms E (strip_charge s).
Proof.
  exact (fun H0 H1 H2 H3 H4 H5 H6 H7 =>
    match stateless_total r n H0 H1 H2 st H3 H7 with
    | ex_intro _ s Hs => ex_intro _ s (conj Hs (default_ret_other E r n H1 H2 st q H3 H4 s H5 H6 Hs))
    end).
Qed.

Theorem C23_explicit_sticking E r n v :
  get_name r = Ok n -> n <> "e" /\ n <> "M" -> rattr r "stick_coef" = v -> v <> VNone ->
  get_stick_coef E r = (let* f := py_float_v E v in Ok (Some f)).
Proof. exact (fun H1 H2 => explicit_stick E r n H1 H2 v). Qed.

Theorem C23_explicit_return E r n d :
  get_name r = Ok n -> n <> "e" /\ n <> "M" -> rattr r "ret_coefs" = VDict d ->
  get_ret_coefs E r =
    (let* l := mapM (fun kv => let* f := py_float E (snd kv) in Ok (fst kv, f)) d in Ok (Some l)).
Proof. exact (fun H1 H2 => explicit_ret E r n H1 H2 d). Qed.

(** The state '' is accepted without a stateless name, then the return
    coefficients cannot be read. *)
Theorem C23_default_return_refuted :
  exists r n st q, sp_history r /\ get_name r = Ok n /\ n <> "e" /\ n <> "M" /\ get_state r = Ok st /\
    get_charge E1 r = Ok (Some q) /\ rattr r "ret_coefs" = VNone /\ get_ret_coefs E1 r = Err ERPAttr.
Proof. exact ret_coefs_unreadable. Qed.

(** C24 *)
Theorem C24_default_elastic_set r ls rs :
  xattr r "elastic" = VNone -> names_of (r_lhs r) = Ok ls -> names_of (r_rhs r) = Ok rs ->
  exists b, get_elastic r = Ok b /\ (b = true <-> (forall n, In n ls <-> In n rs)).
Proof. exact (default_elastic r ls rs). Qed.

Theorem C24_default_elastic_two r ls rs :
  xattr r "elastic" = VNone -> names_of (r_lhs r) = Ok ls -> names_of (r_rhs r) = Ok rs ->
  (List.length ls <= 2)%nat -> List.length ls = List.length rs ->
  exists b, get_elastic r = Ok b /\ (b = true <-> Permutation ls rs).
Proof. exact (default_elastic_two r ls rs). Qed.

Theorem C24_default_elastic_refuted :
  exists r ls rs, rx_history E1 r /\ xattr r "elastic" = VNone /\
    names_of (r_lhs r) = Ok ls /\ names_of (r_rhs r) = Ok rs /\ get_elastic r = Ok true /\
    ~ Permutation ls rs.
Proof. exact elastic_not_multiset. Qed.

(** ** The hypotheses are met by concrete cases *)

Example C18_nonvacuous :
  good_formulas E1 /\ rx_history E1 rx_ion /\
  reaction_init E1 (VInt 1) [sp_e; sp_O] [sp_Op] k3 [] [("arrh_a", Some "m3.s-1")] = Err EReactionValue.
Proof. exact (conj E1_good (conj (proj1 examples_rx) (proj1 unbalanced))). Qed.

Example C20_nonvacuous :
  let r := assigns E1 rx_ion [("arrh_a", VFlt (Fin (-1)), Some "cm3.s-1"); ("arrh_a", VInt 5, Some "s-1");
                              ("arrh_c", VInt 5, Some "K"); ("arrh_a", VStr "0.5", Some "m3.s-1")] in
  get_arrh_a E1 true r = Ok (Some (Fin (1 # 2))) /\ xattr r "arrh_c" = VInt 2 /\ rx_history E1 r.
Proof. exact assign_example. Qed.

Example C21_nonvacuous :
  (forall n, In n ["O"; "O"; "O*"] -> clean_name n) /\
  (let* s := reaction_str rx_3a in unique_key s) = Ok (["O"; "O"; "O*"], ["O"; "O*"; "O*"]) /\
  (let* s := reaction_str rx_3b in unique_key s) = Ok (["O"; "O"; "O*"], ["O"; "O*"; "O*"]).
Proof. exact (conj clean_example (conj eq_refl eq_refl)). Qed.

Example C22_nonvacuous :
  strip_charge "H2O++" = "H2O" /\ strip_charge "O-2" = "O" /\ strip_charge "C4F8" = "C4F8" /\
  strip_charge "A+B" = "A+B".
Proof. repeat split; vm_compute; reflexivity. Qed.

Example C23_nonvacuous :
  sp_history sp_Op /\ get_stick_coef E1 sp_O = Ok (Some (Fin 0)) /\
  get_stick_coef E1 sp_Op = Ok (Some (Fin 1)) /\ get_ret_coefs E1 sp_Op = Ok (Some [("O", Fin 1)]).
Proof.
  exact (conj (proj1 (proj2 (proj2 (proj2 (proj2 examples_history))))) (conj eq_refl (conj eq_refl eq_refl))).
Qed.

Example C24_nonvacuous : get_elastic rx_el = Ok true /\ get_elastic rx_ion = Ok false.
Proof. split; vm_compute; reflexivity. Qed.

(** All theorems of this file at once (one traversal instead of one per
    theorem). *)
Definition all_theorems := (
  @C18_reactions_conserve,
  @C18_only_imbalance_is_reported,
  @C20_prefactor_unit,
  @C20_activation_unit,
  @C20_assignment_is_local,
  @C54_units_supported_refuted,
  @C54_prefactor_not_nan_refuted,
  @C21_unique_key,
  @C21_unique_key_refuted,
  @C22_strip_charge_base,
  @C22_strip_charge_numbered,
  @C22_strip_charge_exact,
  @C22_strip_charge_newline,
  @C53_idempotent_refuted,
  @C23_constructor_stores,
  @C23_special_species,
  @C23_default_sticking,
  @C23_default_return_ground,
  @C23_default_return,
  @C23_explicit_sticking,
  @C23_explicit_return,
  @C23_default_return_refuted,
  @C24_default_elastic_set,
  @C24_default_elastic_two,
  @C24_default_elastic_refuted).
Print Assumptions all_theorems.
