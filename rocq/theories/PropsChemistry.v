(** Property theorems about Chemistry (C01 - C17, C52). The vocabulary is
    that of ChemSpec.v; [reachable E c] means that a user can bring a
    chemistry into state [c]. *)
From Verif Require Import Base BaseLemmas Species Reactions Chemistry ChemSpec ChemDisable ChemInv ChemHist ChemLoad
  ChemMain ChemGetters ChemHeap ChemWorld ChemMore ChemExamples.

Section Props.
  Variable E : env.
  Variable c : chem.
  Hypothesis reach : reachable E c.

  (** C01 *)
  Theorem C01_disable_closed ss rs c' :
    disable c ss rs = (c', Ok tt) ->
    (forall a s, In a ss -> denotes c a s -> c_en c' (sp_id s) = false) /\
    (forall a, In a ss -> exists s, denotes c a s) /\
    (forall z, In z rs -> c_enr c' z = false /\ exists r, denotes_r c z r) /\
    closed c' /\
    (forall i, c_en c' i = true -> c_en c i = true) /\
    (forall i, c_enr c' i = true -> c_enr c i = true) /\
    same_data c c' /\ c_prot c' = c_prot c.
  Proof. exact (disable_closed_r E c reach ss rs c'). Qed.

  (** C02; [o] is arbitrary, so this also covers calls that raise. *)
  Theorem C02_disable_maximal ss rs c' o (S R : Z -> Prop) :
    disable c ss rs = (c', o) ->
    subnetwork c S R ->
    (forall s, In s (c_species c) -> S (sp_id s) ->
       c_en c (sp_id s) = true /\ ~ exists a, In a ss /\ denotes c a s) ->
    (forall r, In r (c_reactions c) -> R (rx_id r) -> c_enr c (rx_id r) = true /\ ~ In (rx_id r) rs) ->
    (forall s, In s (c_species c) -> S (sp_id s) -> c_en c' (sp_id s) = true) /\
    (forall r, In r (c_reactions c) -> R (rx_id r) -> c_enr c' (rx_id r) = true).
  Proof. exact (disable_maximal c ss rs (reachable_Inv E c reach) c' o S R). Qed.

  (** C03, for states that are consistent (see C05 for when they are). *)
  Theorem C03_failed_disable_changes_nothing ss rs c' e :
    assert_consistency c = Ok tt ->
    disable c ss rs = (c', Err e) ->
    c' = c /\ (e = ESpeciesNotPresent \/ e = EReactionNotPresent \/ e = EChemDisable).
  Proof. exact (disable_failed_r E c reach ss rs c' e). Qed.

  (** C52: disable refuses only what cannot be done. *)
  Theorem C52_disable_succeeds_iff ss rs :
    assert_consistency c = Ok tt ->
    ((exists c', disable c ss rs = (c', Ok tt)) <->
     (forall a, In a ss -> exists s, denotes c a s) /\
     (forall z, In z rs -> exists r, denotes_r c z r) /\
     (asked_off c ss rs \/ fulfillable c ss rs)).
  Proof. exact (disable_succeeds_iff c ss rs (reachable_Inv E c reach)). Qed.

  (** C04 *)
  Theorem C04_protected_not_disabled o s :
    In s (c_species c) -> protected c s -> c_en c (sp_id s) = true ->
    c_en (fst (step E c o)) (sp_id s) = true.
  Proof. exact (step_keeps_protected E c o s (reachable_Inv E c reach)). Qed.

  Theorem C04_protected_forever ops s :
    In s (c_species c) -> c_prot c (sp_id s) = true -> c_en c (sp_id s) = true ->
    c_en (run E c ops) (sp_id s) = true /\ c_prot (run E c ops) (sp_id s) = true.
  Proof. exact (protected_forever E c ops s (reachable_Inv E c reach)). Qed.

  Theorem C04_electron_and_ion_kept :
    c_kind c = Plain ->
    (exists e, In e (c_species c) /\ sp_name e = "e" /\ c_en c (sp_id e) = true /\ protected c e) /\
    (exists s, In s (c_species c) /\ c_en c (sp_id s) = true /\ pos_ion s) /\
    (forall s, In s (c_species c) -> c_en c (sp_id s) = true -> pos_ion s ->
       (forall s', In s' (c_species c) -> c_en c (sp_id s') = true -> pos_ion s' -> s' = s) ->
       protected c s).
  Proof. exact (charge_kept c (reachable_Inv E c reach)). Qed.

  (** C05: every reachable state is consistent, and what consistent means. *)
  Theorem C05_always_consistent :
    declared_exist c ->
    assert_consistency c = Ok tt /\ wf c /\ closed c /\ charge_ok c /\
    (forall s d n, In s (c_species c) -> shown_ret c s = Some d -> In n (map fst d) ->
       exists t, In t (c_species c) /\ c_en c (sp_id t) = true /\ sp_name t = n).
  Proof. exact (consistent_r E c reach). Qed.

  (** C06 *)
  Theorem C06_reset :
    (forall i, c_en (reset c) i = true) /\ (forall i, c_enr (reset c) i = true) /\
    (forall i, c_adprot (reset c) i = false) /\ c_prot (reset c) = c_prot c /\ same_data c (reset c).
  Proof. exact (reset_spec c). Qed.

  Theorem C06_reset_forgets ops :
    Forall only_disables ops -> reset (run E c ops) = reset c.
  Proof. exact (reset_forgets E c ops (reachable_Inv E c reach)). Qed.

  (** C07 *)
  Theorem C07_disable_idempotent ss rs c1 :
    disable c ss rs = (c1, Ok tt) -> disable c1 ss rs = (c1, Ok tt).
  Proof. exact (disable_idempotent c ss rs c1 (reachable_Inv E c reach)). Qed.

  Theorem C07_sequence_is_union s1 s2 r1 r2 c1 c2 :
    assert_consistency c = Ok tt ->
    (forall s, asked_sp c (s1 ++ s2) s -> ~ protected c s) ->
    disable c s1 r1 = (c1, Ok tt) -> disable c1 s2 r2 = (c2, Ok tt) ->
    exists c3, disable c (s1 ++ s2) (r1 ++ r2) = (c3, Ok tt) /\ same_state c2 c3.
  Proof. exact (fun A => disable_seq_union c s1 s2 r1 r2 (reachable_Inv E c reach) A c1 c2). Qed.

  Theorem C07_union_is_sequence s1 s2 r1 r2 c3 :
    assert_consistency c = Ok tt ->
    (forall s, asked_sp c (s1 ++ s2) s -> ~ protected c s) ->
    disable c (s1 ++ s2) (r1 ++ r2) = (c3, Ok tt) ->
    exists c1 c2, disable c s1 r1 = (c1, Ok tt) /\ disable c1 s2 r2 = (c2, Ok tt).
  Proof. exact (fun A => disable_union_seq c s1 s2 r1 r2 (reachable_Inv E c reach) A c3). Qed.

  Theorem C07_disables_commute s1 r1 s2 r2 c1 c2 :
    assert_consistency c = Ok tt ->
    (forall s, asked_sp c (s1 ++ s2) s -> ~ protected c s) ->
    disable c s1 r1 = (c1, Ok tt) -> disable c1 s2 r2 = (c2, Ok tt) ->
    exists d1 d2, disable c s2 r2 = (d1, Ok tt) /\ disable d1 s1 r1 = (d2, Ok tt) /\ same_state c2 d2.
  Proof. exact (disable_commute c s1 r1 s2 r2 c1 c2 (reachable_Inv E c reach)). Qed.

  (** C08 *)
  Theorem C08_copy_faithful : c_kind c = Plain -> copy c = Ok c.
  Proof. exact (copy_total E c reach). Qed.
End Props.

(** C08: however copies and originals are used afterwards, each behaves as an
    independent value; [WDo] includes mutation of dictionaries obtained from
    a getter. *)
Theorem C08_copies_independent E l :
  Forall valid_op l -> map (decode (fst (wrun E l))) (snd (wrun E l)) = vrun E l.
Proof. exact (programs_refine_values E l). Qed.

Theorem C08_neutral_copy_refuted :
  exists c, reachable E0 c /\ assert_consistency c = Ok tt /\ exists e, copy c = Err e.
Proof. exact neutral_copy_fails. Qed.

(** C03, C05, C15 without the hypothesis on declared return species. *)
Theorem C03_failed_disable_changes_nothing_refuted :
  exists c rs, reachable E0 c /\ exists c' e,
    disable c [] rs = (c', Err e) /\ exists i, In i rs /\ c_enr c i = true /\ c_enr c' i = false.
Proof. exact failed_disable_changes. Qed.

Theorem C05_always_consistent_refuted :
  exists c, reachable E0 c /\ assert_consistency c = Err EChemConsistency.
Proof. exact (ex_intro _ c1b (conj c1b_reachable c1b_inconsistent)). Qed.

Theorem C15_rejected_adhoc_refuted :
  exists c a v c' s, reachable E0 c /\ set_adhoc_species E0 c "stick_coef" a v = (c', Err EChemConsistency) /\
    denotes c a s /\ eff_stick c' s <> eff_stick c s.
Proof. exact rejected_adhoc_stored. Qed.

Theorem C15_rejected_adhoc E c attrib a v c' e :
  reachable E c -> declared_exist c -> set_adhoc_species E c attrib a v = (c', Err e) -> c' = c.
Proof. exact (fun R => adhoc_rejected E c attrib a v c' e (reachable_Inv E c R)). Qed.

Theorem C15_rejected_adhoc_reaction E c attrib i v c' e :
  step E c (OSetRx attrib i v) = (c', Err e) -> c' = c.
Proof. exact (adhoc_rx_rejected E c attrib i v c' e). Qed.

(** C09 *)
Theorem C09_dump_load_round_trip E fh c d f b :
  reachable E c -> reachable E d -> same_input c d -> chemistry_attributes E fh d = Ok f ->
  (b = true -> c_xml c = c_xml d /\ c_xml d <> Some "") ->
  declared_exist c ->
  (forall i dd n, In (i, dd) (c_ret d) -> In n (map fst dd) ->
     exists s, In s (c_species d) /\ c_en d (sp_id s) = true /\ sp_name s = n) ->
  exists c', load E fh c f b = (c', Ok tt) /\
    same_input c c' /\ c_xml c' = c_xml c /\ masks_agree c' d /\
    floats E (c_stick d) (c_stick c') /\ c_ret c' = c_ret d /\ floats E (c_arrh d) (c_arrh c').
Proof. exact (fun R R' => load_round_trip E fh c d f b (reachable_Inv E c R) (reachable_Inv E d R')). Qed.

Theorem C09_loaded_is_coherent E fh c d f b :
  reachable E c -> reachable E d -> same_input c d -> c_xml c = c_xml d -> chemistry_attributes E fh d = Ok f ->
  c_xml d <> Some "" -> declared_exist c ->
  (forall i dd n, In (i, dd) (c_ret d) -> In n (map fst dd) ->
     exists s, In s (c_species d) /\ c_en d (sp_id s) = true /\ sp_name s = n) ->
  no_nan E (c_stick d) -> no_nan E (c_arrh d) ->
  (forall i dd, In (i, dd) (c_ret d) -> NoDup (map fst dd) /\ forall n x, In (n, x) dd -> x <> NaN) ->
  exists c', load E fh c f b = (c', Ok tt) /\ check_coherence E fh c' f = Ok true.
Proof. exact (fun R R' => load_then_coherent E fh c d f b (reachable_Inv E c R) (reachable_Inv E d R')). Qed.

(** C10 *)
Theorem C10_every_state_loadable_refuted :
  exists c d f, reachable E0 c /\ reachable E0 d /\ same_input c d /\ assert_consistency d = Ok tt /\
    chemistry_attributes E0 no_files d = Ok f /\ snd (load E0 no_files c f true) = Err EChemConsistency.
Proof. exact not_loadable. Qed.

Theorem C10_every_state_dumpable_refuted :
  exists d, reachable E0 d /\ assert_consistency d = Ok tt /\ chemistry_attributes E0 no_files d = Err EType.
Proof. exact not_dumpable. Qed.

(** C11 *)
Theorem C11_check_coherence E fh fh' c d f :
  same_input c d -> chemistry_attributes E fh d = Ok f ->
  (check_coherence E fh' c f = Ok true <->
   masks_agree c d /\ same_floats E (c_stick d) (c_stick c) /\ same_rets (c_ret d) (c_ret c) /\
   same_floats E (c_arrh d) (c_arrh c) /\
   path_or_none (c_xml d) = path_or_none (c_xml c) /\
   xml_hash fh' (path_or_none (c_xml c)) = Ok (a_hash f)).
Proof. exact (check_coherence_spec E fh fh' c d f). Qed.

Theorem C11_coherent_with_own_dump_refuted :
  exists c f, reachable E0 c /\ chemistry_attributes E0 no_files c = Ok f /\
    check_coherence E0 no_files c f = Ok false.
Proof. exact (ex_intro _ c0nan (ex_intro _ c0nan_file (conj c0nan_reachable (conj c0nan_dump c0nan_incoherent)))). Qed.

Theorem C11_order_of_calls_irrelevant_refuted :
  exists c d f, reachable E0 c /\ reachable E0 d /\ same_input c d /\ masks_agree c d /\
    (forall s, In s (c_species c) -> eff_stick c s = eff_stick d s) /\ c_ret c = c_ret d /\ c_arrh c = c_arrh d /\
    chemistry_attributes E0 no_files d = Ok f /\ check_coherence E0 no_files c f = Ok false.
Proof. exact order_sensitive. Qed.

(** C12: all getters select the same species, in the order of the chemistry,
    and report each species' own value. *)
Theorem C12_species_getters E c d sp pr :
  reachable E c ->
  let sel := get_species c d sp pr in
  (forall s, In s sel <->
     In s (c_species c) /\ (d = true \/ c_en c (sp_id s) = true) /\
     (sp = true \/ ~ In (sp_name s) ["e"; "M"]) /\ (pr = true \/ ~ protected c s)) /\
  subseq sel (c_species c) /\
  get_species_name c d sp pr = map (fun s => (sp_id s, sp_name s)) sel /\
  get_species_charge c d sp pr = map (fun s => (sp_id s, sp_charge s)) sel /\
  get_species_mass c d sp pr = map (fun s => (sp_id s, sp_mass s)) sel /\
  get_species_stick_coef c d sp pr = map (fun s => (sp_id s, eff_stick c s)) sel /\
  (forall s, In s sel -> zget (sp_id s) (get_species_ret_coefs c d sp pr) = Some (shown_ret c s)).
Proof. exact (species_getters E c d sp pr). Qed.

Theorem C12_reaction_getters c d :
  let sel := get_reactions c d in
  (forall r, In r sel <-> In r (c_reactions c) /\ (d = true \/ c_enr c (rx_id r) = true)) /\
  subseq sel (c_reactions c) /\
  get_reactions_arrh_a c d false = Ok (map (fun r => (rx_id r, eff_arrh c r)) sel).
Proof. exact (reaction_getters c d). Qed.

Theorem C12_shown_return_coefficients c s :
  (eff_ret c s = None /\ shown_ret c s = None) \/
  exists d d', eff_ret c s = Some d /\ shown_ret c s = Some d' /\ subseq d' d /\
    forall n f, In (n, f) d' <->
      In (n, f) d /\
      ((forall t, In t (c_species c) -> c_en c (sp_id t) = true) \/
       exists t, In t (c_species c) /\ c_en c (sp_id t) = true /\ sp_name t = n).
Proof. exact (shown_ret_spec c s). Qed.

(** C13: exactly when the return coefficients are indexed like the other
    getters. *)
Theorem C13_ret_coefs_index E c d sp pr :
  reachable E c ->
  (map fst (get_species_ret_coefs c d sp pr) = map sp_id (get_species c d sp pr) <->
   (forall i, In i (map fst (c_ret c)) -> In i (map sp_id (get_species c d sp pr))) /\
   (forall s, In s (get_species c d sp true) -> eq_zero (eff_stick c s) = true -> In s (get_species c d sp pr))).
Proof. exact (ret_index_iff E c d sp pr). Qed.

Theorem C13_ret_coefs_index_refuted :
  (exists c, reachable E0 c /\
     map fst (get_species_ret_coefs c false false true) <> map sp_id (get_species c false false true)) /\
  (exists c, reachable E0 c /\ c_ret c = [] /\
     map fst (get_species_ret_coefs c false false false) <> map sp_id (get_species c false false false)).
Proof. exact ret_index_bad. Qed.

(** C14 *)
Theorem C14_adhoc_stick_coef E c a x c' :
  reachable E c -> set_adhoc_species E c "stick_coef" a (VSc x) = (c', Ok tt) ->
  exists s, denotes c a s /\
    eff_stick c' s = (if notna x then np_to_float x else scalar_of_opt (sp_stick s)) /\
    (forall t, In t (c_species c) -> t <> s -> eff_stick c' t = eff_stick c t /\ shown_ret c' t = shown_ret c t) /\
    others_same c c' /\ c_ret c' = c_ret c /\ c_arrh c' = c_arrh c.
Proof. exact (fun R => adhoc_stick E c a x c' (reachable_Inv E c R)). Qed.

Theorem C14_adhoc_ret_coefs E c a v c' :
  reachable E c -> set_adhoc_species E c "ret_coefs" a v = (c', Ok tt) ->
  exists s d d', denotes c a s /\ v = VDict d /\
    mapM (fun kv : string * scalar => let* f := py_float E (snd kv) in Ok (fst kv, f)) d = Ok d' /\
    (forall n, In n (map fst d) -> exists t, In t (c_species c) /\ c_en c (sp_id t) = true /\ sp_name t = n) /\
    eff_ret c' s = Some (if eq_zero (eff_stick c s) then [] else d') /\
    (forall t, In t (c_species c) -> t <> s -> eff_ret c' t = eff_ret c t /\ shown_ret c' t = shown_ret c t) /\
    others_same c c' /\ c_stick c' = c_stick c /\ c_arrh c' = c_arrh c.
Proof. exact (fun R => adhoc_ret E c a v c' (reachable_Inv E c R)). Qed.

Theorem C14_adhoc_arrh_a E c i x c' :
  reachable E c -> step E c (OSetRx "arrh_a" i (VSc x)) = (c', Ok tt) ->
  exists r, denotes_r c i r /\
    eff_arrh c' r = (if notna x then np_to_float x else scalar_of_opt (rx_arrh_a r)) /\
    (forall t, In t (c_reactions c) -> t <> r -> eff_arrh c' t = eff_arrh c t) /\
    others_same c c' /\ c_stick c' = c_stick c /\ c_ret c' = c_ret c.
Proof. exact (fun R => adhoc_arrh E c i x c' (reachable_Inv E c R)). Qed.

(** C16 *)
Theorem C16_return_matrix E c :
  reachable E c -> assert_consistency c = Ok tt ->
  (forall i, In i (map fst (c_ret c)) -> In i (map sp_id (get_species c false false true))) ->
  (forall s d, In s (get_species c false false true) -> shown_ret c s = Some d ->
     NoDup (map fst d) /\ ~ In "e" (map fst d) /\ ~ In "M" (map fst d)) ->
  exists m, get_return_matrix c false = Ok m /\
    rm_rows m = map sp_id (get_species c false false true) /\
    rm_cols m = map sp_id (get_species c false false true) /\
    forall s t, In s (get_species c false false true) -> In t (get_species c false false true) ->
      rm_get m (sp_id s) (sp_id t) = coef_of (sp_name s) (shown_ret c t).
Proof. exact (fun R => return_matrix_spec c (reachable_Inv E c R)). Qed.

Theorem C16_return_matrix_square_refuted :
  exists c m, reachable E0 c /\ assert_consistency c = Ok tt /\ get_return_matrix c false = Ok m /\
    List.length (rm_rows m) <> List.length (rm_cols m).
Proof. exact return_matrix_not_square. Qed.

(** C17 *)
Theorem C17_stoichiomatrix E c d sp m :
  reachable E c ->
  map fst (get_stoichiomatrix c d sp m) = map rx_id (get_reactions c d) /\
  (forall i row, In (i, row) (get_stoichiomatrix c d sp m) -> map fst row = map sp_id (get_species c d sp true)) /\
  (forall r s, In r (get_reactions c d) -> In s (get_species c d sp true) ->
     exists row, zget (rx_id r) (get_stoichiomatrix c d sp m) = Some row /\
       zget (sp_id s) row = Some match m with
                                 | Lhs => times s (rx_lhs r)
                                 | Rhs => times s (rx_rhs r)
                                 | Net => times s (rx_rhs r) - times s (rx_lhs r)
                                 end).
Proof. exact (fun R => stoichiomatrix_spec c d sp m (i_wf c (reachable_Inv E c R))). Qed.

Theorem C17_electron_coefficients E c d m :
  reachable E c -> c_kind c = Plain ->
  exists e l, In e (c_species c) /\ sp_name e = "e" /\ get_stoich_electron c d m = Ok l /\
    l = by_reaction (fun r => match m with
                              | Lhs => times e (rx_lhs r)
                              | Rhs => times e (rx_rhs r)
                              | Net => times e (rx_rhs r) - times e (rx_lhs r)
                              end) c d.
Proof. exact (fun R => electron_spec c d m (reachable_Inv E c R)). Qed.

Theorem C17_arbitrary_coefficients E c d m :
  reachable E c ->
  (forall s, In s (c_species c) -> sp_name s = "M" ->
     get_stoich_arbitrary c d m =
     by_reaction (fun r => match m with
                           | Lhs => times s (rx_lhs r)
                           | Rhs => times s (rx_rhs r)
                           | Net => times s (rx_rhs r) - times s (rx_lhs r)
                           end) c d) /\
  ((forall s, In s (c_species c) -> sp_name s <> "M") ->
     get_stoich_arbitrary c d m = by_reaction (fun _ => 0) c d).
Proof. exact (fun R => arbitrary_spec c d m (reachable_Inv E c R)). Qed.

(** ** The hypotheses are met by concrete, non-trivial states *)

(** C01, C02, C04, C06: disabling O cascades to O+ and reaction 5. *)
Example C01_nonvacuous :
  reachable E0 c0 /\ snd (disable c0 [RName "O"] []) = Ok tt /\
  shown (fst (disable c0 [RName "O"] [])) = (["e"; "Ar"; "Ar+"; "Ar*"; "M"], [1; 2; 3; 4; 6], ["e"; "Ar+"]).
Proof. exact (conj c0_reachable c0_disable_O). Qed.

Example C02_nonvacuous :
  subnetwork c0 (fun i => In i [1; 2; 3]) (fun i => In i [1; 2]) /\
  (forall s, In s (c_species c0) -> In (sp_id s) [1; 2; 3] ->
     c_en c0 (sp_id s) = true /\ ~ exists a, In a [RName "O"] /\ denotes c0 a s).
Proof. exact c0_subnetwork. Qed.

(** C03: a request that fails in the middle of the cascade. *)
Example C03_nonvacuous :
  assert_consistency c0 = Ok tt /\ disable c0 [RName "Ar*"; RId 5] [2] = (c0, Err EChemDisable).
Proof. exact (conj c0_consistent c0_disable_refused). Qed.

Example C05_nonvacuous : reachable E0 c0 /\ declared_exist c0.
Proof. exact (conj c0_reachable c0_declared). Qed.

Example C07_nonvacuous :
  (forall s, asked_sp c0 ([RName "O"] ++ [RId 4]) s -> ~ protected c0 s) /\
  snd (disable c0 [RName "O"] []) = Ok tt /\
  shown (fst (disable (fst (disable c0 [RName "O"] [])) [RId 4] [1])) = (["e"; "Ar"; "Ar+"], [2], ["e"; "Ar+"]).
Proof. exact c0_two_disables. Qed.

(** C08: a copy is changed, then the original, including a mutation of a
    dictionary handed out by a getter; a copy of the copy follows neither. *)
Example C08_nonvacuous :
  let prog := [WNew Plain species0 reactions0 None; WDo 0 (HOp (OSetSp "ret_coefs" (RName "Ar+") (VDict [("O", SFlt (Fin 1))])));
               WCopy 0; WDo 1 (HOp (ODisable [RName "O"] [])); WDo 1 (HMutRet 3 [("Ar", Fin 2)]); WCopy 1;
               WDo 0 (HOp (OResetSp "all"))] in
  Forall valid_op prog /\
  map (fun c => (map sp_name (get_species c false true true), c_ret c)) (vrun E0 prog) =
  [(["e"; "Ar"; "Ar+"; "Ar*"; "O"; "O+"; "M"], []);
   (["e"; "Ar"; "Ar+"; "Ar*"; "M"], [(3, [("Ar", Fin 2)])]);
   (["e"; "Ar"; "Ar+"; "Ar*"; "M"], [(3, [("Ar", Fin 2)])])].
Proof. exact c0_program. Qed.

(** C09, C11: a dump with disabled species and ad-hoc values. *)
Example C09_nonvacuous :
  reachable E0 c0 /\ reachable E0 cd /\ same_input c0 cd /\ chemistry_attributes E0 no_files cd = Ok cd_file /\
  (forall i dd n, In (i, dd) (c_ret cd) -> In n (map fst dd) ->
     exists s, In s (c_species cd) /\ c_en cd (sp_id s) = true /\ sp_name s = n) /\
  no_nan E0 (c_stick cd) /\ no_nan E0 (c_arrh cd) /\
  (forall i dd, In (i, dd) (c_ret cd) -> NoDup (map fst dd) /\ forall n x, In (n, x) dd -> x <> NaN) /\
  c_stick cd <> [] /\ c_ret cd <> [] /\ c_arrh cd <> [] /\ c_en cd 5 = false.
Proof. exact cd_ok. Qed.

(** C13, C16 *)
Example C16_nonvacuous :
  (forall i, In i (map fst (c_ret cd)) -> In i (map sp_id (get_species cd false false true))) /\
  (forall s d, In s (get_species cd false false true) -> shown_ret cd s = Some d ->
     NoDup (map fst d) /\ ~ In "e" (map fst d) /\ ~ In "M" (map fst d)) /\
  match get_return_matrix cd false with
  | Ok m => rm_rows m = [2; 3; 4] /\ rm_get m 2 3 = Fin (1 # 2) /\ rm_get m 4 3 = Fin (1 # 2) /\ rm_get m 3 4 = fzero
  | Err _ => False
  end.
Proof. exact cd_matrix. Qed.

(** C14 *)
Example C14_nonvacuous :
  snd (set_adhoc_species E0 c0 "stick_coef" (RName "Ar*") (VSc (SNp (Fin (1 # 3))))) = Ok tt /\
  eff_stick (fst (set_adhoc_species E0 c0 "stick_coef" (RName "Ar*") (VSc (SNp (Fin (1 # 3)))))) sArs = SFlt (Fin (1 # 3)).
Proof. exact c0_adhoc. Qed.

(** C17: e + Ar -> e + e + Ar+ *)
Example C17_nonvacuous :
  match zget 2 (get_stoichiomatrix c0 false true Net) with
  | Some row => row = [(1, 1); (2, -1); (3, 1); (4, 0); (5, 0); (6, 0); (999, 0)]
  | None => False
  end.
Proof. exact c0_row. Qed.

(** C52: the request of C01 can be fulfilled, that of C03 cannot. *)
Example C52_nonvacuous :
  fulfillable c0 [RName "O"] [] /\ ~ fulfillable c0 [RName "Ar*"; RId 5] [2].
Proof. exact c0_fulfillable. Qed.

(** All theorems of this file at once (one traversal instead of one per
    theorem). *)
Definition all_theorems := (
  @C01_disable_closed,
  @C02_disable_maximal,
  @C03_failed_disable_changes_nothing,
  @C52_disable_succeeds_iff,
  @C04_protected_not_disabled,
  @C04_protected_forever,
  @C04_electron_and_ion_kept,
  @C05_always_consistent,
  @C06_reset,
  @C06_reset_forgets,
  @C07_disable_idempotent,
  @C07_sequence_is_union,
  @C07_union_is_sequence,
  @C07_disables_commute,
  @C08_copy_faithful,
  @C08_copies_independent,
  @C08_neutral_copy_refuted,
  @C03_failed_disable_changes_nothing_refuted,
  @C05_always_consistent_refuted,
  @C15_rejected_adhoc_refuted,
  @C15_rejected_adhoc,
  @C15_rejected_adhoc_reaction,
  @C09_dump_load_round_trip,
  @C09_loaded_is_coherent,
  @C10_every_state_loadable_refuted,
  @C10_every_state_dumpable_refuted,
  @C11_check_coherence,
  @C11_coherent_with_own_dump_refuted,
  @C11_order_of_calls_irrelevant_refuted,
  @C12_species_getters,
  @C12_reaction_getters,
  @C12_shown_return_coefficients,
  @C13_ret_coefs_index,
  @C13_ret_coefs_index_refuted,
  @C14_adhoc_stick_coef,
  @C14_adhoc_ret_coefs,
  @C14_adhoc_arrh_a,
  @C16_return_matrix,
  @C16_return_matrix_square_refuted,
  @C17_stoichiomatrix,
  @C17_electron_coefficients,
  @C17_arbitrary_coefficients).
Print Assumptions all_theorems.
