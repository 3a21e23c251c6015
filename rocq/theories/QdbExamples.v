(** Concrete database contents: witnesses for refutations and non-vacuity
    examples. *)
From Coq Require Import Permutation.
From Verif Require Import Base BaseLemmas Species Reactions MolSpec SpeciesProofs Classification MolExamples Xml XmlSpec XmlExamples Hpem HpemSpec
  Qdb QdbSpec QdbProofs QdbMain QdbBuilder.

Definition q_e : qrp := MkQrp 1 "e-" [] (Fin (1 # 2000)) (-1) None None None None.
Definition q_O2 : qrp := MkQrp 2 "O2" [] (Fin 32) 0 (Some (Fin 0)) (Some (Fin 100)) None (Some "O2").
Definition q_O2a : qrp := MkQrp 3 "O2" ["a"] (Fin 32) 0 (Some (Fin (98 # 100))) None None (Some "").
Definition q_O2p : qrp := MkQrp 4 "O2+" [] (Fin 32) 1 (Some (Fin 12)) None (Some (Fin 3)) None.
Definition q_O2p2 : qrp := MkQrp 5 "O2+2" ["*"; "*"] (Fin 32) 2 None None None None.

Definition d_rate : qds :=
  MkDs 100 1 false true (Fin 0, Fin 0, Fin 0)
    [MkParam "n" (Fin (1 # 2)) ""; MkParam "A2" (Fin 7) "cm3.s-1"; MkParam "E" (Fin 9) "K"; MkParam "A" (Fin 8) "s-1"] None (Fin 0) (Some (-5)) [].
Definition d_xsec : qds :=
  MkDs 101 2 true false (Fin (1 # 100), Fin 0, Fin 12) [] None (Fin 13) None [None; Some "None"; Some "10.1/x"; Some "10.1/y"].

Definition s_ion : qsides := MkSides 10 [q_e; q_O2] [q_e; q_e; q_O2p] [q_e; q_O2; q_O2p].
Definition s_lumped : qsides := MkSides 20 [q_O2; q_O2] [q_O2; q_O2] [q_O2].
Definition s_resolved : qsides := MkSides 21 [q_O2a; q_O2] [q_O2; q_O2] [q_O2; q_O2a].
Definition db1 : list qrx :=
  [QRx s_ion [] [d_rate; d_xsec] []; QRx s_lumped [] [] [QRx s_resolved [s_lumped] [d_rate] []]].

(** The objects. *)
Definition obj_init (uid : nat) (q : qrp) : res rp :=
  rp_init uid (VInt (q_pk q))
      ([("name", VStr (qdb_stateless q ++ qdb_state q)); ("mass", VFlt (q_mass q)); ("qdb_id", VInt (q_pk q))] ++
       match q_states q with [] => [] | _ :: _ => [("stateless", VStr (qdb_stateless q)); ("state", VStr (qdb_state q))] end ++
       (if q_charge q =? 0 then [] else [("charge", VInt (q_charge q))]) ++
       datum "h_form" (q_hform q) ++ datum "lj_epsilon" (q_epsilon q) ++ datum "lj_sigma" (q_sigma q) ++
       match q_hpem q with Some h => if String.eqb h "" then [] else [("hpem_name", VStr h)] | None => [] end)
      []
      ([("mass", Some "amu")] ++ (if q_charge q =? 0 then [] else [("charge", Some "e")]) ++
       unit_of "eV" (datum "h_form" (q_hform q)) ++ unit_of "K" (datum "lj_epsilon" (q_epsilon q)) ++
       unit_of "A" (datum "lj_sigma" (q_sigma q))).
Definition qobj (uid : nat) (q : qrp) : rp := match obj_init uid q with Ok s => s | Err _ => sp_e end.
Lemma qobj_ok uid q : match obj_init uid q with Ok _ => True | Err _ => False end -> qsp_object q (qobj uid q).
Proof.
  intros H. exists uid, (qdb_stateless q), (qdb_state q). split; [now apply stateless_eq|]. split; [now apply state_eq|].
  unfold qobj. change (obj_init uid q = Ok (match obj_init uid q with Ok s => s | Err _ => sp_e end)). now destruct (obj_init uid q).
Qed.

Definition qobjs : list rp := [qobj 0 q_e; qobj 1 q_O2; qobj 2 q_O2p; qobj 3 q_O2a].
Lemma qobj_history uid q : match obj_init uid q with Ok _ => True | Err _ => False end -> sp_history (qobj uid q).
Proof. intros H. unfold qobj. destruct (obj_init uid q) as [s|] eqn:Ei; [|contradiction]. eapply sp_new, Ei. Qed.
Lemma qobjs_writable s : In s qobjs -> writable_species s.
Proof.
  intros Hs. cbn [qobjs In] in Hs.
  repeat (destruct Hs as [<-|Hs];
    [constructor; [apply qobj_history; vm_compute; exact I
                  |eexists; split; [vm_compute; reflexivity|]; split;
                     [apply writable_name_intro; [discriminate|reflexivity|reflexivity]|vm_compute; discriminate]
                  |vm_compute; congruence
                  |intros k Hk; cbn in Hk; repeat (destruct Hk as [<-|Hk]; [vm_compute; discriminate|]); contradiction
                  |vm_compute; discriminate]|]); contradiction.
Qed.
Lemma qobjs_names : NoDup (map get_name qobjs).
Proof. vm_compute. repeat constructor; cbn; intuition discriminate. Qed.

Definition qr_ion := mk2 10 [qobj 0 q_e; qobj 1 q_O2] [qobj 0 q_e; qobj 0 q_e; qobj 2 q_O2p]
  [("arrh_a", VFlt (Fin (1 # 100))); ("qdb_r_id", VInt 10); ("qdb_ds_id", VInt 101); ("arrh_c", VFlt (Fin 12)); ("el_en_loss", VFlt (Fin 13)); ("doi", VStr "10.1/x")]
  [("arrh_a", Some "cm3.s-1"); ("arrh_c", Some "eV"); ("el_en_loss", Some "eV")].
Definition qr_res := mk2 21 [qobj 1 q_O2; qobj 1 q_O2] [qobj 1 q_O2; qobj 1 q_O2]
  [("arrh_a", VFlt (Fin 7)); ("qdb_r_id", VInt 21); ("qdb_ds_id", VInt 100); ("arrh_b", VFlt (Fin (1 # 2))); ("arrh_c", VFlt (Fin 9)); ("special_number", VInt (-5));
   ("comments", VStr "O2(a) + O2 > O2 + O2")]
  [("arrh_a", Some "cm3.s-1"); ("arrh_c", Some "K")].

Lemma obj_in uid q : In (qobj uid q) qobjs -> match obj_init uid q with Ok _ => True | Err _ => False end -> In (qobj uid q) qobjs /\ qsp_object q (qobj uid q).
Proof. intros H1 H2. split; [exact H1|now apply qobj_ok]. Qed.
Ltac objin := apply obj_in; [cbn [qobjs In]; tauto|vm_compute; exact I].
Ltac sides := repeat (apply Forall2_cons; [objin|]); apply Forall2_nil.

Lemma db1_objects : Forall2 (qrx_object E2 qobjs) (flat_map resolved db1) [qr_ion; qr_res].
Proof.
  change (flat_map resolved db1) with [QRx s_ion [] [d_rate; d_xsec] []; QRx s_resolved [s_lumped] [d_rate] []].
  apply Forall2_cons; [|apply Forall2_cons; [|apply Forall2_nil]].
  - exists s_ion, [], [d_rate; d_xsec], s_ion, d_xsec, [qobj 0 q_e; qobj 1 q_O2], [qobj 0 q_e; qobj 0 q_e; qobj 2 q_O2p],
      ["e"; "O2"], ["e"; "e"; "O2+"], ["e"; "O2"], ["e"; "e"; "O2+"], (Fin (1 # 100)), "cm3.s-1", (Fin 0), (Fin 12), "eV", (Some (Fin 13)), (Some "10.1/x").
    split; [reflexivity|]. split; [right; split; reflexivity|]. split; [sides|]. split; [sides|].
    do 4 (split; [repeat (apply Forall2_cons; [apply qname_eq; vm_compute; reflexivity|]); apply Forall2_nil|]).
    split; [intros p; cbn; tauto|].
    split; [apply choose_spec; vm_compute; reflexivity|].
    split; [left; repeat split; now left|].
    split; [left; split; [now left|]; split; [now left|]; split; [intros P; apply Permutation_length in P; discriminate|right; right; split; [reflexivity|]; split; [reflexivity|]; exists (Fin 13); split; [right; split; reflexivity|vm_compute; reflexivity]]|].
    split; [left; exists "10.1/x"; split; [reflexivity|]; exists [None; Some "None"], [Some "10.1/y"]; split; [reflexivity|]; split; [split; discriminate|intros y [<-|[<-|[]]]; intros [H1 H2]; congruence]|].
    vm_compute. reflexivity.
  - exists s_resolved, [s_lumped], [d_rate], s_lumped, d_rate, [qobj 1 q_O2; qobj 1 q_O2], [qobj 1 q_O2; qobj 1 q_O2],
      ["O2"; "O2"], ["O2"; "O2"], ["O2(a)"; "O2"], ["O2"; "O2"], (Fin 7), "cm3.s-1", (Fin (1 # 2)), (Fin 9), "K", None, None.
    split; [reflexivity|]. split; [left; reflexivity|]. split; [sides|]. split; [sides|].
    do 4 (split; [repeat (apply Forall2_cons; [apply qname_eq; vm_compute; reflexivity|]); apply Forall2_nil|]).
    split; [intros p; cbn; tauto|].
    split; [apply choose_spec; vm_compute; reflexivity|].
    split.
    { right. split; [reflexivity|]. split; [reflexivity|]. exists (MkParam "A2" (Fin 7) "cm3.s-1"), (MkParam "n" (Fin (1 # 2)) ""), (MkParam "E" (Fin 9) "K").
      split; [apply (first_filter _ _ _ _ starts_spec); eexists; reflexivity|]. split; [apply (first_filter _ _ _ _ is_n_spec); eexists; reflexivity|].
      split; [apply (first_filter _ _ _ _ ends_spec); eexists; reflexivity|]. repeat split. }
    split; [right; split; [intros (H & _); cbn in H; intuition discriminate|reflexivity]|].
    split; [right; split; [reflexivity|intros y []]|].
    vm_compute. reflexivity.
Qed.

Lemma db1_writable r : In r [qr_ion; qr_res] -> writable_reaction E2 r.
Proof.
  intros [<-|[<-|[]]]; (constructor; [eapply mk2_history; vm_compute; reflexivity|left; vm_compute; discriminate
    |intros k Hk; cbn in Hk; repeat (destruct Hk as [<-|Hk]; [vm_compute; discriminate|]); contradiction]).
Qed.

Lemma db1_nonvacuous : numbers_readable E2 /\ (forall s, In s qobjs -> writable_species s) /\ NoDup (map get_name qobjs) /\
  Forall2 (qrx_object E2 qobjs) (flat_map resolved db1) [qr_ion; qr_res] /\ (forall r, In r [qr_ion; qr_res] -> writable_reaction E2 r).
Proof. split; [exact E2_readable|]. split; [exact qobjs_writable|]. split; [exact qobjs_names|]. split; [exact db1_objects|exact db1_writable]. Qed.

(** ** Imports into any builder *)
Definition qops1 : list qop := [QSpecies q_O2p; QCall (HCall (ORp sp_Ox)); QReaction (QRx s_ion [] [d_rate] []); QSpecies q_O2; QReaction (QRx s_resolved [s_lumped; s_ion] [d_rate] [])].
Lemma db1_well_formed x : In x db1 -> well_formed x.
Proof.
  intros [<-|[<-|[]]] m ch ds s p (ps & Hl) Hs.
  - cbn in Hl. destruct Hl as [Hl|[]]. injection Hl as <- <- <- <-. destruct Hs as [<-|[]]. split; [intros Hp; cbn in Hp; repeat (destruct Hp as [<-|Hp]; [discriminate|]); contradiction|cbn; tauto].
  - cbn in Hl. destruct Hl as [Hl|[]]. injection Hl as <- <- <- <-.
    destruct Hs as [<-|[<-|[]]]; (split; [intros Hp; cbn in Hp; repeat (destruct Hp as [<-|Hp]; [discriminate|]); contradiction|cbn; tauto]).
Qed.
Lemma qops1_ok : (forall o, In o qops1 -> op_well_formed o) /\ (forall x, In x db1 -> well_formed x) /\
  (exists b', add_chemistry_from_qdb E2 so2 db1 (qhistory E2 so2 b_empty qops1) = (b', Ok tt) /\ List.length (b_species b') = 4%nat /\ List.length (b_reactions b') = 3%nat) /\
  (exists b' e, add_chemistry_from_qdb E2 so2 (db1 ++ [QRx s_ion [] [] []]) (qhistory E2 so2 b_empty qops1) = (b', Err e)).
Proof.
  split.
  { intros o Ho. cbn [qops1 In] in Ho. destruct Ho as [<-|[<-|[<-|[<-|[<-|[]]]]]]; cbn [op_well_formed].
    - discriminate.
    - exists "O*". split; [vm_compute; reflexivity|discriminate].
    - intros m ch ds s p (ps & Hl) Hs. cbn in Hl. destruct Hl as [Hl|[]]. injection Hl as <- <- <- <-. destruct Hs as [<-|[]].
      split; [intros Hp; cbn in Hp; repeat (destruct Hp as [<-|Hp]; [discriminate|]); contradiction|cbn; tauto].
    - discriminate.
    - intros m ch ds s p (ps & Hl) Hs. cbn in Hl. destruct Hl as [Hl|[]]. injection Hl as <- <- <- <-.
      destruct Hs as [<-|[<-|[<-|[]]]]; (split; [intros Hp; cbn in Hp; repeat (destruct Hp as [<-|Hp]; [discriminate|]); contradiction|cbn; tauto]). }
  split; [exact db1_well_formed|]. split.
  - eexists. split; [vm_compute; reflexivity|]. split; vm_compute; reflexivity.
  - eexists _, _. vm_compute. reflexivity.
Qed.

(** ** What goes wrong *)

(** Two states: the name contains a comma. *)
Definition q_two : qrp := MkQrp 6 "O2" ["v=1"; "J=2"] (Fin 32) 0 None None None None.
Definition s_two : qsides := MkSides 30 [q_two; q_O2] [q_O2; q_O2] [q_O2; q_two].
Lemma two_states : exists b, add_chemistry_from_qdb E2 so2 [QRx s_two [] [d_rate] []] b_empty = (b, Ok tt) /\
  parse E2 0 (b_species b) (b_reactions b) = Err EKey.
Proof. eexists. split; [vm_compute; reflexivity|]. vm_compute; reflexivity. Qed.

(** Electron impact with an activation energy in kelvin. *)
Definition d_kelvin : qds :=
  MkDs 102 1 false true (Fin 0, Fin 0, Fin 0) [MkParam "A" (Fin 7) "cm3.s-1"; MkParam "n" (Fin 0) ""; MkParam "E" (Fin 11600) "K"] None (Fin 0) None [].
Definition s_exc : qsides := MkSides 40 [q_e; q_O2] [q_e; q_O2a] [q_e; q_O2; q_O2a].
Lemma kelvin_unreadable : exists b, add_chemistry_from_qdb E2 so2 [QRx s_exc [] [d_kelvin] []] b_empty = (b, Ok tt) /\
  parse E2 0 (b_species b) (b_reactions b) = Err EReactionAttr.
Proof. eexists. split; [vm_compute; reflexivity|]. vm_compute; reflexivity. Qed.

(** A reaction that is listed and also stands for a lumped one. *)
Definition r_resolved : qrx := QRx s_resolved [s_lumped] [d_rate] [].
Lemma added_twice : exists b sps r r', add_chemistry_from_qdb E2 so2 [QRx s_lumped [] [] [r_resolved]; r_resolved] b_empty = (b, Ok tt) /\
  parse E2 0 (b_species b) (b_reactions b) = Ok (sps, [r; r']) /\ r_id r = 21 /\ r_id r' = 21.
Proof. eexists _, _, _, _. split; [vm_compute; reflexivity|]. split; [vm_compute; reflexivity|]. split; vm_compute; reflexivity. Qed.

(** Two species of the database with the same formula. *)
Definition q_iso : qrp := MkQrp 7 "O2" [] (Fin 34) 0 None None None None.
Definition s_iso : qsides := MkSides 50 [q_iso; q_e] [q_iso; q_e] [q_e; q_iso].
Lemma first_counts : exists b sps r r' s, add_chemistry_from_qdb E2 so2 [QRx s_ion [] [d_xsec] []; QRx s_iso [] [d_xsec] []] b_empty = (b, Ok tt) /\
  parse E2 0 (b_species b) (b_reactions b) = Ok (sps, [r; r']) /\ In q_iso (m_lhs s_iso) /\ q_mass q_iso = Fin 34 /\
  r_id r' = m_pk s_iso /\ hd_error (r_lhs r') = Some s /\ get_mass E2 s = Ok (Some (Fin 32)).
Proof.
  eexists _, _, _, _, _. split; [vm_compute; reflexivity|]. split; [vm_compute; reflexivity|]. split; [now left|]. split; [reflexivity|].
  split; [vm_compute; reflexivity|]. split; [vm_compute; reflexivity|]. vm_compute; reflexivity.
Qed.

(** A reaction without data leaves its species behind. *)
Lemma species_left : exists b, add_chemistry_from_qdb E2 so2 [QRx s_ion [] [] []] b_empty = (b, Err EXml) /\ List.length (b_species b) = 3%nat /\
  snd (add_rp_from_qdb E2 so2 q_O2 b) = Err EXml.
Proof. eexists. split; [vm_compute; reflexivity|]. split; vm_compute; reflexivity. Qed.

Lemma two_states_E : exists b, numbers_readable E2 /\ add_chemistry_from_qdb E2 so2 [QRx s_two [] [d_rate] []] b_empty = (b, Ok tt) /\
  parse E2 0 (b_species b) (b_reactions b) = Err EKey.
Proof. destruct two_states as (b & H). exists b. split; [exact E2_readable|exact H]. Qed.
Lemma kelvin_E : exists b, numbers_readable E2 /\ add_chemistry_from_qdb E2 so2 [QRx s_exc [] [d_kelvin] []] b_empty = (b, Ok tt) /\
  parse E2 0 (b_species b) (b_reactions b) = Err EReactionAttr.
Proof. destruct kelvin_unreadable as (b & H). exists b. split; [exact E2_readable|exact H]. Qed.
