(** Examples for rate coefficients, sets of names and HPEM texts. *)
From Coq Require Import Reals Qreals Lra.
From Verif Require Import Base BaseLemmas Species Reactions Chemistry ChemSpec MolSpec MolExamples ExtReal Equations EqSpec EqExamples Views ConserveSpec
  BalanceExamples Xml XmlExamples Hpem HpemSpec HpemExamples RateCoef RateSpec RateCoefProofs RateNames.

Lemma cB_nonvacuous model : exists e r ks, eq_init K1 model vB parB = Ok e /\ p_temp parB <> 0%R /\
  nth_error (get_reactions cB false) 1 = Some r /\ zget (rx_id r) (c_arrh cB) = None /\
  snd (perform (CCoefs [] (Some (X 1))) (after [CCoefs [] None] e)) = AVec ks.
Proof.
  destruct (initB model) as (e & He).
  assert (exists r, nth_error (get_reactions cB false) 1 = Some r /\ zget (rx_id r) (c_arrh cB) = None) as (r & Hr & Ha)
    by (eexists; split; vm_compute; reflexivity).
  exists e, r. eexists. split; [exact He|]. split; [cbn; lra|]. split; [exact Hr|]. split; [exact Ha|]. cbn. reflexivity.
Qed.

Lemma ion_rate : rx_history E1 rx_ion /\ get_arrh_a E1 true rx_ion = Ok (Some (Fin (3 # 1000000))) /\ get_arrh_a E1 false rx_ion = Ok (Some (Fin 3)) /\
  get_arrh_bc E1 "arrh_b" rx_ion = Ok (Some (Fin 0)) /\ get_arrh_bc E1 "arrh_c" rx_ion = Ok (Some (Fin 2)) /\ is_electron_process rx_ion = Ok true /\
  exists k, get_rate_coefficient E1 false rx_ion (X 1) = Ok k.
Proof.
  split; [apply examples_rx|]. do 5 (split; [vm_compute; reflexivity|]). eexists. cbv -[xmul xof xpowf xexp xdiv xopp Q2R]. reflexivity.
Qed.

(** Species with HPEM names. *)
Definition hp_e := mk 0 1 [("name", VStr "e"); ("mass", VFlt (Fin (1 # 1836))); ("charge", VInt (-1)); ("hpem_name", VStr "E")].
Definition hp_O := mk 2 2 [("name", VStr "O"); ("mass", VInt 16); ("hpem_name", VStr "O")].
Definition hp_Op := mk 4 3 [("name", VStr "O+"); ("mass", VInt 16); ("charge", VInt 1); ("hpem_name", VStr "O^")].
Definition hp_ion := mk2 1 [hp_e; hp_O] [hp_e; hp_Op; hp_e] [("arrh_a", VFlt (Fin 3)); ("arrh_c", VInt 2)]
  [("arrh_a", Some "cm3.s-1"); ("arrh_c", Some "eV")].

Definition hp_rec := mk2 1 [hp_e; hp_Op] [hp_O] [("arrh_a", VFlt (Fin 3))] [("arrh_a", Some "cm3.s-1")].

Lemma hp_sides : rx_history E2 hp_ion /\ hpem_names (r_lhs hp_ion) ["E"; "O"] /\ hpem_names (r_rhs hp_ion) ["E"; "O^"; "E"] /\
  r_lhs hp_ion <> [] /\ r_rhs hp_ion <> [].
Proof.
  split; [eapply mk2_history; vm_compute; reflexivity|].
  assert (r_lhs hp_ion = [hp_e; hp_O] /\ r_rhs hp_ion = [hp_e; hp_Op; hp_e]) as [-> ->] by (split; vm_compute; reflexivity).
  split; [repeat constructor; vm_compute; reflexivity|]. split; [repeat constructor; vm_compute; reflexivity|]. now split.
Qed.
Lemma hp_texts : get_hpem_string false hp_ion = Ok "E + O > E + O^ + E" /\ get_hpem_string true hp_ion = Ok "E + O^ + E > E + O".
Proof. split; vm_compute; reflexivity. Qed.
Lemma hp_unspaced : unspaced ["E"; "O"; "E"; "O^"; "E"].
Proof. intros n Hn c Hc. cbn in Hn. repeat (destruct Hn as [<-|Hn]; [cbn in Hc; repeat (destruct Hc as [<-|Hc]; [reflexivity|]); contradiction|]). contradiction. Qed.
Lemma hp_tokens n : In n (["E"; "O"] ++ ["E"; "O^"; "E"]) -> name_token n.
Proof.
  intros Hn. cbn in Hn. repeat (destruct Hn as [<-|Hn]; [apply name_b; [discriminate|reflexivity..]|]). contradiction.
Qed.
Lemma hp_line : comment "" /\ token "1/2" /\ fparse E2 "1/2" = Some (Fin (1 # 2)) /\ token "7" /\ iparse E2 "7" = Some 7%Z.
Proof.
  split; [apply comment_b; reflexivity|]. split; [apply token_b; [discriminate|reflexivity..]|]. split; [reflexivity|].
  split; [apply token_b; [discriminate|reflexivity..]|]. reflexivity.
Qed.
Lemma hp_missing : exists p, In p (r_lhs rx_ion ++ r_rhs rx_ion) /\ get_hpem_name p = None.
Proof. exists sp_e. split; [vm_compute; tauto|reflexivity]. Qed.

Lemma ion_sets : get_rp_names_set rx_ion WLhs = Ok ["e"; "O"] /\ get_rp_names_set rx_ion WRhs = Ok ["e"; "O+"] /\
  get_rp_names_set rx_ion WAll = Ok ["e"; "O"; "O+"] /\ is_ion_process E1 rx_ion = Ok false /\ is_ion_process E2 hp_rec = Ok true /\
  xattr rx_ion "elastic" = VNone /\ is_elastic_process rx_ion = Ok false /\ is_elastic_process MolExamples.rx_el = Ok true.
Proof. repeat split; vm_compute; reflexivity. Qed.
