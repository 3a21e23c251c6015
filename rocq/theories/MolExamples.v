(** Concrete species and reactions: witnesses for refutations and
    non-vacuity examples. *)
From Coq Require Import Permutation.
From Verif Require Import Base BaseLemmas Species Reactions MolSpec SpeciesProofs ReactionProofs.

(** A small environment: a few formulas and numerals. *)
Definition E1 : env := {|
  fparse := fun s => sget s [("0.5", Fin (1 # 2)); ("1.0", Fin 1); ("-2.0", Fin (-2)); ("nan", NaN)];
  iparse := fun s => sget s [("0", 0); ("1", 1); ("-1", -1)];
  fshow := fun _ => ""; ishow := fun _ => "";
  formula_atoms := fun s =>
    match sget s [("Ar", [("Ar", 1)]); ("O", [("O", 1)]); ("O2", [("O", 2)]); ("H2O", [("H", 2); ("O", 1)]);
                  ("A", [("A", 1)]); ("B", [("B", 1)])] with
    | Some a => Ok a
    | None => Err EValue
    end |}.

Lemma E1_good : good_formulas E1.
Proof.
  intros s a H. unfold E1 in H. cbn [formula_atoms] in H.
  destruct (sget s _) as [b|] eqn:Es; [|discriminate]. injection H as <-.
  apply (aget_In _ Seqb_spec) in Es. cbn in Es.
  repeat (destruct Es as [Es|Es];
    [inversion Es; subst; split;
     [apply nodupSb_NoDup; reflexivity|
      cbn; intros X n Hin; repeat (destruct Hin as [Hin|Hin]; [inversion Hin; lia|]); contradiction]|]).
  contradiction.
Qed.

Definition mk (uid : nat) (id : Z) (attrs : list (string * pyval)) : rp :=
  match rp_init uid (VInt id) attrs [] [] with Ok r => r | Err _ => MkRP uid id [] [] end.

Definition sp_e := mk 0 0 [("name", VStr "e"); ("mass", VFlt (Fin (1 # 1836))); ("charge", VInt (-1))].
Definition sp_M := mk 1 999 [("name", VStr "M")].
Definition sp_O := mk 2 1 [("name", VStr "O"); ("mass", VInt 16)].
Definition sp_Ox := mk 3 2 [("name", VStr "O*"); ("stateless", VStr "O"); ("state", VStr "*"); ("mass", VInt 16)].
Definition sp_Op := mk 4 3 [("name", VStr "O+"); ("mass", VInt 16); ("charge", VStr "1")].
Definition sp_O2 := mk 5 4 [("name", VStr "O2"); ("mass", VInt 32)].
Definition sp_A := mk 6 5 [("name", VStr "A"); ("mass", VInt 1)].
Definition sp_B := mk 7 6 [("name", VStr "B"); ("mass", VInt 1)].
Definition sp_Aplus := mk 8 7 [("name", VStr "A +"); ("stateless", VStr "A"); ("mass", VInt 1)].
Definition sp_plusB := mk 9 8 [("name", VStr "+ B"); ("stateless", VStr "B"); ("mass", VInt 1)].
Definition sp_empty_state := mk 10 9 [("name", VStr "Ar"); ("state", VStr ""); ("mass", VInt 40)].

Lemma mk_history uid id attrs r :
  rp_init uid (VInt id) attrs [] [] = Ok r -> sp_history (mk uid id attrs).
Proof. intros H. unfold mk. rewrite H. eapply sp_new, H. Qed.

Lemma examples_history :
  sp_history sp_e /\ sp_history sp_M /\ sp_history sp_O /\ sp_history sp_Ox /\ sp_history sp_Op /\
  sp_history sp_empty_state.
Proof.
  split; [eapply mk_history; vm_compute; reflexivity|].
  split; [eapply mk_history; vm_compute; reflexivity|].
  split; [eapply mk_history; vm_compute; reflexivity|].
  split; [eapply mk_history; vm_compute; reflexivity|].
  split; [eapply mk_history; vm_compute; reflexivity|].
  eapply mk_history; vm_compute; reflexivity.
Qed.

Definition mkr (id : Z) (lhs rhs : list rp) (attrs : list (string * pyval)) units : reaction :=
  match reaction_init E1 (VInt id) lhs rhs attrs [] units with Ok r => r | Err _ => MkReaction id [] [] [] [] end.

Lemma mkr_history id lhs rhs attrs units r :
  reaction_init E1 (VInt id) lhs rhs attrs [] units = Ok r -> rx_history E1 (mkr id lhs rhs attrs units).
Proof.
  intros H. unfold mkr. rewrite H. change r with (assigns E1 r []). eapply rx_new, H.
Qed.

Definition arrh3 := [("arrh_a", VFlt (Fin 3)); ("arrh_c", VInt 2)].
(** e + O > e + O+ + e *)
Definition rx_ion := mkr 1 [sp_e; sp_O] [sp_e; sp_Op; sp_e]
  [("arrh_a", VFlt (Fin 3)); ("arrh_c", VInt 2)] [("arrh_a", Some "cm3.s-1"); ("arrh_c", Some "eV")].
Definition k3 := [("arrh_a", VFlt (Fin 3))].
Definition u3 := [("arrh_a", Some "cm6.s-1")].
Definition rx_3a := mkr 2 [sp_O; sp_O; sp_Ox] [sp_O; sp_Ox; sp_Ox] k3 u3.
Definition rx_3b := mkr 3 [sp_O; sp_Ox; sp_O] [sp_Ox; sp_Ox; sp_O] k3 u3.
Definition rx_el := mkr 4 [sp_O; sp_Ox] [sp_Ox; sp_O] k3 [("arrh_a", Some "m3.s-1")].
Definition rx_c1 := mkr 5 [sp_Aplus; sp_B] [sp_A; sp_B] k3 [("arrh_a", Some "m3.s-1")].
Definition rx_c2 := mkr 6 [sp_A; sp_plusB] [sp_A; sp_B] k3 [("arrh_a", Some "m3.s-1")].
Definition rx_nan := mkr 7 [sp_O; sp_O] [sp_O2] [("arrh_a", VStr "nan")] [("arrh_a", Some "m3.s-1")].

Lemma examples_rx :
  rx_history E1 rx_ion /\ rx_history E1 rx_3a /\ rx_history E1 rx_3b /\ rx_history E1 rx_el /\
  rx_history E1 rx_c1 /\ rx_history E1 rx_c2 /\ rx_history E1 rx_nan.
Proof.
  split; [eapply mkr_history; vm_compute; reflexivity|].
  split; [eapply mkr_history; vm_compute; reflexivity|].
  split; [eapply mkr_history; vm_compute; reflexivity|].
  split; [eapply mkr_history; vm_compute; reflexivity|].
  split; [eapply mkr_history; vm_compute; reflexivity|].
  split; [eapply mkr_history; vm_compute; reflexivity|].
  eapply mkr_history; vm_compute; reflexivity.
Qed.

(** A reaction with the wrong balance is rejected. *)
Example unbalanced :
  reaction_init E1 (VInt 1) [sp_e; sp_O] [sp_Op] k3 [] [("arrh_a", Some "m3.s-1")] = Err EReactionValue /\
  reaction_init E1 (VInt 1) [sp_O; sp_O] [sp_O] k3 [] [("arrh_a", Some "m3.s-1")] = Err EReactionValue.
Proof. split; vm_compute; reflexivity. Qed.

Lemma ion_example :
  names_of (r_lhs rx_ion) = Ok ["e"; "O"] /\ names_of (r_rhs rx_ion) = Ok ["e"; "O+"; "e"] /\
  conserves E1 (r_lhs rx_ion) (r_rhs rx_ion) /\
  get_arrh_a E1 true rx_ion = Ok (Some (Fin (3 # 1000000))) /\
  rx_get_unit rx_ion "arrh_c" = Ok (Some "eV").
Proof.
  split; [reflexivity|]. split; [reflexivity|]. split; [|split; reflexivity].
  apply history_conserves; [apply E1_good|]. apply examples_rx.
Qed.

(** Assignments: a rejected one changes nothing, an accepted one only its own
    attribute. *)
Lemma assign_example :
  let r := assigns E1 rx_ion [("arrh_a", VFlt (Fin (-1)), Some "cm3.s-1"); ("arrh_a", VInt 5, Some "s-1");
                              ("arrh_c", VInt 5, Some "K"); ("arrh_a", VStr "0.5", Some "m3.s-1")] in
  get_arrh_a E1 true r = Ok (Some (Fin (1 # 2))) /\ xattr r "arrh_c" = VInt 2 /\
  rx_history E1 r.
Proof.
  cbn zeta. split; [vm_compute; reflexivity|]. split; [vm_compute; reflexivity|].
  assert (exists r0, reaction_init E1 (VInt 1) [sp_e; sp_O] [sp_e; sp_Op; sp_e] arrh3 []
            [("arrh_a", Some "cm3.s-1"); ("arrh_c", Some "eV")] = Ok r0 /\ rx_ion = r0) as (r0 & H & He)
    by (eexists; split; vm_compute; reflexivity).
  rewrite He. eapply rx_new, H.
Qed.

(** Stored units need not be supported when the value is None, and NaN is not
    negative. *)
Lemma stored_unit_unsupported :
  exists r, rx_history E1 r /\ rx_get_unit r "arrh_c" = Ok (Some "furlong").
Proof.
  exists (assigns E1 rx_ion [("arrh_c", VNone, Some "furlong")]). split; [|reflexivity].
  assert (exists r0, reaction_init E1 (VInt 1) [sp_e; sp_O] [sp_e; sp_Op; sp_e] arrh3 []
            [("arrh_a", Some "cm3.s-1"); ("arrh_c", Some "eV")] = Ok r0 /\ rx_ion = r0) as (r0 & H & He)
    by (eexists; split; vm_compute; reflexivity).
  rewrite He. eapply rx_new, H.
Qed.

Lemma prefactor_nan : exists r, rx_history E1 r /\ get_arrh_a E1 true r = Ok (Some NaN).
Proof. exists rx_nan. split; [apply examples_rx|vm_compute; reflexivity]. Qed.

(** ** C21 *)
Lemma key_collision :
  exists r1 r2 l1 l2 p s, rx_history E1 r1 /\ rx_history E1 r2 /\
    names_of (r_lhs r1) = Ok l1 /\ names_of (r_lhs r2) = Ok l2 /\
    names_of (r_rhs r1) = Ok p /\ names_of (r_rhs r2) = Ok p /\
    (forall n, In n (l1 ++ l2 ++ p) -> str_strip n = n /\ ~ contains n " + " /\ ~ contains n " > ") /\
    reaction_str r1 = Ok s /\ reaction_str r2 = Ok s /\ ~ Permutation l1 l2.
Proof.
  exists rx_c1, rx_c2, ["A +"; "B"], ["A"; "+ B"], ["A"; "B"], "A + + B > A + B".
  split; [apply examples_rx|]. split; [apply examples_rx|].
  do 4 (split; [vm_compute; reflexivity|]). split.
  - assert (forall n t, (String.length t = 3)%nat -> (String.length n <= 3)%nat -> n <> t -> ~ contains n t) as Hno.
    { intros n t Ht Hn Hne (a & b & He). apply Hne.
      assert (forall x y, String.length (x ++ y) = String.length x + String.length y)%nat as Ha
        by (induction x; cbn; intros; [reflexivity|now rewrite IHx]).
      rewrite He, !Ha, Ht in Hn. destruct a as [|ca a]; cbn in *; [|lia].
      destruct b as [|cb b]; cbn in *; [|lia]. rewrite He. clear. induction t; cbn; congruence. }
    cbn. intros n Hn.
    repeat (destruct Hn as [<-|Hn]; [split; [reflexivity|split; apply Hno; cbn; try lia; discriminate]|]).
    contradiction.
  - split; [vm_compute; reflexivity|]. split; [vm_compute; reflexivity|].
    intros H. assert (In "A +" ["A"; "+ B"]) as Hin by (apply (Permutation_in _ H); now left).
    cbn in Hin. destruct Hin as [Hin|[Hin|[]]]; discriminate.
Qed.

(** ** C24 *)
Lemma elastic_not_multiset :
  exists r ls rs, rx_history E1 r /\ xattr r "elastic" = VNone /\
    names_of (r_lhs r) = Ok ls /\ names_of (r_rhs r) = Ok rs /\ get_elastic r = Ok true /\
    ~ Permutation ls rs.
Proof.
  exists rx_3a, ["O"; "O"; "O*"], ["O"; "O*"; "O*"]. split; [apply examples_rx|].
  do 4 (split; [vm_compute; reflexivity|]).
  intros H. apply Permutation_cons_inv in H.
  apply (perm_trans (perm_swap "O" "O*" [])) in H. apply Permutation_cons_inv in H.
  apply Permutation_length_1 in H. discriminate.
Qed.

(** ** C23 *)
Lemma ret_coefs_unreadable :
  exists r n st q, sp_history r /\ get_name r = Ok n /\ n <> "e" /\ n <> "M" /\ get_state r = Ok st /\
    get_charge E1 r = Ok (Some q) /\ rattr r "ret_coefs" = VNone /\ get_ret_coefs E1 r = Err ERPAttr.
Proof.
  exists sp_empty_state, "Ar", (Some ""), 0. split; [apply examples_history|].
  split; [reflexivity|]. split; [discriminate|]. split; [discriminate|].
  split; [reflexivity|]. split; [reflexivity|]. split; reflexivity.
Qed.

Lemma surface_examples :
  get_stick_coef E1 sp_O = Ok (Some (Fin 0)) /\ get_ret_coefs E1 sp_O = Ok (Some []) /\
  get_stick_coef E1 sp_Ox = Ok (Some (Fin 1)) /\ get_ret_coefs E1 sp_Ox = Ok (Some [("O", Fin 1)]) /\
  get_stick_coef E1 sp_Op = Ok (Some (Fin 1)) /\ get_ret_coefs E1 sp_Op = Ok (Some [("O", Fin 1)]) /\
  get_stick_coef E1 sp_e = Ok None /\ get_ret_coefs E1 sp_M = Ok None.
Proof. repeat split. Qed.

Lemma clean_example : forall n, In n ["O"; "O"; "O*"] -> clean_name n.
Proof.
  intros n Hn. cbn in Hn.
  repeat (destruct Hn as [<-|Hn];
    [apply clean_no_blank;
     [intros c Hc; cbn in Hc; repeat (destruct Hc as [<-|Hc]; [reflexivity|]); contradiction
     |cbn; intros Hc; repeat (destruct Hc as [Hc|Hc]; [discriminate|]); contradiction]|]).
  contradiction.
Qed.
