(** Concrete cases and witnesses for the initial densities. *)
From Verif Require Import Base BaseLemmas Species Reactions Chemistry ChemSpec ChemInv ChemHist ChemLoad ChemExamples
  MorrisStats InitialGuess InitialSpec InitialProofs InitialMain.
Open Scope Q_scope.

(** Oxygen, with a negative ion. *)
Definition sO2 := MkSp 1 2 "O2" (Some 0%Z) (Some (Fin 32)) (Some fzero) (Some []).
Definition sO2p := MkSp 2 3 "O2+" (Some 1%Z) (Some (Fin 32)) (Some (Fin 1)) (Some [("O2"%string, Fin 1)]).
Definition sOm := MkSp 3 4 "O-" (Some (-1)%Z) (Some (Fin 16)) (Some fzero) (Some []).
Definition sO1 := MkSp 4 5 "O" (Some 0%Z) (Some (Fin 16)) (Some fzero) (Some []).
Definition species_ox := [sE; sO2; sO2p; sOm; sO1].
Definition reactions_ox := [
  mkr 1 [sE; sO2] [sE; sO2];
  mkr 2 [sE; sO2] [sE; sE; sO2p];
  mkr 3 [sE; sO2] [sO1; sOm];
  mkr 4 [sOm; sO2p] [sO1; sO2]].
Definition c_ox : chem :=
  match init Plain species_ox reactions_ox None with Ok c => c | Err _ => fresh Plain species_ox reactions_ox None end.
Lemma c_ox_init : init Plain species_ox reactions_ox None = Ok c_ox.
Proof. vm_compute. reflexivity. Qed.
Lemma c_ox_reachable : reachable E0 c_ox.
Proof. eapply reach_init; [|exact c_ox_init]. table. Qed.

Definition l_ox : list (string * Z) := [("O2", 0%Z); ("O2+", 1%Z); ("O-", (-1)%Z); ("O", 0%Z)]%string.
Lemma l_ox_heavy : heavy c_ox = Ok l_ox.
Proof. vm_compute. reflexivity. Qed.

Definition p_ox : gparams := MkGp 300 100 [("O2"%string, 50)] 1.
Definition fr_ox : fractions := MkFr (1 # 100) (1 # 50) (1 # 1000).

(** The hypotheses of the theorems hold, with and without a feed. *)
Example ox_feeds : neutral_feeds l_ox (gp_feeds p_ox).
Proof.
  intros n q I. cbn in I.
  repeat match type of I with _ \/ _ => destruct I as [I|I] | False => destruct I end; injection I as <- <-;
    split; try (intros X; reflexivity); vm_compute; try discriminate; now intros X.
Qed.
Example ox_neutral : exists s, In s l_ox /\ snd s = 0%Z.
Proof. exists ("O"%string, 0%Z). split; [cbn; tauto|reflexivity]. Qed.
Example ox_small : small_fractions l_ox fr_ox /\ small_fractions l_ox default_fractions.
Proof. split; repeat split; vm_compute; discriminate. Qed.
Example ox_fed : fed l_ox (gp_feeds p_ox).
Proof. exists ("O2"%string, 0%Z). split; [cbn; tauto|reflexivity]. Qed.
Example ox_run : exists d, generate_initial_n c_ox p_ox fr_ox = Ok d /\ map fst d = map fst l_ox.
Proof. eexists. split; [vm_compute; reflexivity|reflexivity]. Qed.
Example ox_all : exists ns, generate_initial_n c_ox p_ox fr_ox = Ok (combine (map fst l_ox) ns) /\
  qsum ns == total_density p_ox /\ charge_density l_ox ns == total_density p_ox * (1 # 100).
Proof.
  destruct (initial_ok E0 c_ox p_ox fr_ox l_ox c_ox_reachable eq_refl l_ox_heavy eq_refl eq_refl eq_refl ox_feeds ox_neutral)
    as (ns & A & _ & B & C & _).
  exists ns. auto.
Qed.

(** ** Witnesses *)

(** A fed positive ion: accepted, but the charge density is not the requested
    electron density. *)
Lemma charged_feed : exists c p l ns,
  reachable E0 c /\ c_kind c = Plain /\ heavy c = Ok l /\ 0 < gp_temp p /\ 0 < gp_press p /\
  (forall n q, In (n, q) (gp_feeds p) -> 0 < q) /\ (exists s, In s l /\ snd s = 0%Z) /\
  generate_initial_n c p default_fractions = Ok (combine (map fst l) ns) /\
  ~ charge_density l ns == total_density p * fr_ion default_fractions /\ 1000 * total_density p * fr_ion default_fractions < charge_density l ns.
Proof.
  exists c_ox, (MkGp 300 100 [("O2+"%string, 1)] 1), l_ox. eexists.
  split; [exact c_ox_reachable|]. split; [reflexivity|]. split; [exact l_ox_heavy|]. split; [reflexivity|]. split; [reflexivity|].
  split; [intros n q [I|[]]; injection I as <- <-; reflexivity|].
  split; [exact ox_neutral|].
  split; [vm_compute; instantiate (1 := [_; _; _; _]); reflexivity|].
  split; [vm_compute; discriminate|vm_compute; reflexivity].
Qed.

(** Without neutral species nothing takes up the rest of the pressure. *)
Definition species_ion := [sE; MkSp 1 2 "A+" (Some 1%Z) (Some (Fin 1)) (Some fzero) (Some []);
                           MkSp 2 3 "A++" (Some 2%Z) (Some (Fin 1)) (Some fzero) (Some [])].
Definition reactions_ion := [
  mkr 1 [sE; MkSp 1 2 "A+" (Some 1%Z) (Some (Fin 1)) (Some fzero) (Some [])]
        [sE; sE; MkSp 2 3 "A++" (Some 2%Z) (Some (Fin 1)) (Some fzero) (Some [])]].
Definition c_ion : chem :=
  match init Plain species_ion reactions_ion None with Ok c => c | Err _ => fresh Plain species_ion reactions_ion None end.
Lemma c_ion_reachable : reachable E0 c_ion.
Proof. eapply (reach_init E0 Plain species_ion reactions_ion None); [table|vm_compute; reflexivity]. Qed.

Lemma no_neutral : exists c p l ns,
  reachable E0 c /\ c_kind c = Plain /\ heavy c = Ok l /\ 0 < gp_temp p /\ 0 < gp_press p /\ gp_feeds p = [] /\
  generate_initial_n c p default_fractions = Ok (combine (map fst l) ns) /\
  1000 * qsum ns < total_density p.
Proof.
  exists c_ion, (MkGp 300 100 [] 1), [("A+"%string, 1%Z); ("A++"%string, 2%Z)]. eexists.
  split; [exact c_ion_reachable|]. split; [reflexivity|]. split; [vm_compute; reflexivity|].
  split; [reflexivity|]. split; [reflexivity|]. split; [reflexivity|].
  split; [vm_compute; instantiate (1 := [_; _]); reflexivity|]. vm_compute. reflexivity.
Qed.
