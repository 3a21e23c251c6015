(** A chemistry, with frames, and its graph. *)
From Coq Require Import Lqa.
From Verif Require Import Base BaseLemmas Species Reactions Chemistry ChemSpec ChemHist ChemLoad ChemGetters ChemExamples Graph GraphSpec GraphPaths
  ChemGraph ChemGraphSpec GraphExamples Tables Workspace GraphInit GraphInitSpec GraphInitProofs GraphInitRank.
Local Open Scope Q_scope.

Definition gi_rates : frame := MkFrame [LName "t"; LId 1; LId 2; LId 3; LId 4; LId 6]
  [(0%Z, [0; 1; 1; 0; 1; 1]); (1%Z, [1; 0; 0; 0; 0; 0])].
Definition gi_row (t x : Q) : row := fun n => if String.eqb n "t" then t else if String.eqb n "Ar+" then x else 0.
Definition gi_fluxes : table := MkTable ["t"; "Ar"; "Ar+"; "Ar*"]%string [(5%Z, gi_row 0 (2#1)); (7%Z, gi_row 1 0)].
Definition gi_par : list (string * Q) := [("length"%string, 2#1); ("radius"%string, 1)].

Lemma cd_reachable' : reachable E0 cd.
Proof. apply run_reachable, c0_reachable. Qed.
Lemma cd_consistent : assert_consistency cd = Ok tt.
Proof. vm_compute. reflexivity. Qed.

Lemma cd_dicts : dict_rets cd.
Proof.
  intros s d Hs Hd. change (enabled_species cd) with [sE; sAr; sArp; sArs; sM] in Hs. cbn [In] in Hs.
  repeat match type of Hs with _ \/ _ => destruct Hs as [Hs|Hs] | False => destruct Hs end; subst s; vm_compute in Hd;
    try discriminate; injection Hd as <-; cbn; repeat (constructor; [cbn; intuition discriminate|]); constructor.
Qed.

Lemma cd_finite : finite_rets cd.
Proof.
  intros s u Hs Hu. change (enabled_species cd) with [sE; sAr; sArp; sArs; sM] in Hs, Hu. cbn [In] in Hs, Hu.
  repeat match type of Hs with _ \/ _ => destruct Hs as [Hs|Hs] | False => destruct Hs end; subst s;
  repeat match type of Hu with _ \/ _ => destruct Hu as [Hu|Hu] | False => destruct Hu end; subst u; vm_compute; eauto.
Qed.

Lemma gi_rect : rectangular gi_rates.
Proof. intros r [<-|[<-|[]]]; reflexivity. Qed.
Lemma gi_nonneg : rates_nonneg gi_rates.
Proof. intros r v [<-|[<-|[]]]; cbn; intros H; repeat (destruct H as [<-|H]; [lra|]); destruct H. Qed.

Lemma gi_fitting : fitting cd gi_par gi_rates gi_fluxes.
Proof.
  split.
  - vm_compute. reflexivity.
  - vm_compute. reflexivity.
  - intros H. vm_compute in H. repeat (destruct H as [H|H]; [discriminate|]). exact H.
  - constructor; [exists 0; split; [reflexivity|vm_compute; reflexivity]|].
    constructor; [exists 1; split; [reflexivity|vm_compute; reflexivity]|constructor].
  - intros i H. assert (E : map fst (c_ret cd) = [3%Z]) by (vm_compute; reflexivity). rewrite E in H. destruct H as [<-|[]].
    exists sArp. split; [|reflexivity]. change (enabled_species cd) with [sE; sAr; sArp; sArs; sM]. cbn. auto.
  - cbn. auto.
  - cbn. auto.
Qed.

(** The species, reactions and times; the fluxes of the electron and of Ar+;
    Ar+ returns in equal parts as Ar and Ar*; reaction 2 (e + Ar -> 2 e + Ar+). *)
Lemma gi_graph : exists k, cgraph_init cd gi_par gi_rates gi_fluxes = Ok k /\
  cg_species k = ["e"; "Ar"; "Ar+"; "Ar*"; "M"]%string /\ cg_special k = ["e"; "M"]%string /\ cg_reactions k = 5%nat /\
  cg_times k = [0; 1] /\ cg_radius k = 1 /\ cg_length k = 2#1 /\
  map (cg_flux k 0%nat) (seq 0 5) = [0; 0; 2#1; 0; 0] /\
  map (fun a => cg_ret k a 2%nat) (seq 0 5) = [0; 1#2; 0; 1#2; 0] /\
  map (cg_lhs k 1%nat) (seq 0 5) = [1; 1; 0; 0; 0]%Z /\ map (cg_rhs k 1%nat) (seq 0 5) = [2; 0; 1; 0; 0]%Z /\
  map (cg_rate k 0%nat) (seq 0 5) = [1; 1; 0; 1; 1].
Proof. eexists. split; [vm_compute; reflexivity|]. vm_compute. repeat split; reflexivity. Qed.

Lemma gi_k : exists k, cgraph_init cd gi_par gi_rates gi_fluxes = Ok k /\ cg_times k = [0; 1].
Proof. destruct gi_graph as (k & H & _ & _ & _ & T & _). eauto. Qed.

(** Ar+ returns as Ar* at the first time; nothing happens at the second. *)
Lemma gi_influence :
  influences cd gi_rates gi_fluxes true 0 sArp sArs /\ influences cd gi_rates gi_fluxes true 0 sE sArp /\
  ~ influences cd gi_rates gi_fluxes true 0 sM sArp.
Proof.
  assert (ER : enabled_reactions cd = [mkr 1 [sE; sAr] [sE; sAr]; mkr 2 [sE; sAr] [sE; sE; sArp]; mkr 3 [sE; sAr] [sE; sArs];
                 mkr 4 [sE; sArs] [sE; sE; sArp]; mkr 6 [sArs; sM] [sAr; sM]]) by (vm_compute; reflexivity).
  split; [|split].
  - right. split; [reflexivity|]. split; [split; discriminate|]. split; [split; discriminate|].
    exists 5%Z, (gi_row 0 (2#1)), (1#2). split; [reflexivity|]. split; [vm_compute; discriminate|]. split; [vm_compute; reflexivity|].
    vm_compute. discriminate.
  - left. rewrite ER. exists 1%nat, (mkr 2 [sE; sAr] [sE; sE; sArp]), 0%Z, 0, [1; 1; 0; 1; 1], 1.
    split; [reflexivity|]. split; [reflexivity|]. split; [reflexivity|]. split; [reflexivity|]. split; [left; cbn; auto|].
    vm_compute. discriminate.
  - intros [(j & r & i & q & vals & v & Hj & Hr & Hv & Pv & P & Ch)|(_ & (_ & X) & _)]; [|now elim X].
    rewrite ER in Hj. cbn in Hr. injection Hr as <- <- <-.
    destruct j as [|[|[|[|[|j]]]]]; cbn [nth_error] in Hj, Hv.
    + apply (f_equal (fun o => match o with Some x => x | None => r end)) in Hj. subst r. now elim Ch.
    + apply (f_equal (fun o => match o with Some x => x | None => r end)) in Hj. subst r. cbn in P.
      destruct P as [[P|[P|[]]]|[P|[P|[P|[]]]]]; discriminate P.
    + apply (f_equal (fun o => match o with Some x => x | None => r end)) in Hj. subst r. now elim Ch.
    + apply (f_equal (fun o => match o with Some x => x | None => r end)) in Hj. subst r. cbn in P.
      destruct P as [[P|[P|[]]]|[P|[P|[P|[]]]]]; discriminate P.
    + apply (f_equal (fun o => match o with Some x => x | None => r end)) in Hj. subst r. now elim Ch.
    + destruct j; discriminate.
Qed.

(** ** An ad-hoc return coefficient of a species disabled later *)
Lemma adhoc_disabled : exists c par rates fluxes,
  reachable E0 c /\ assert_consistency c = Ok tt /\ rectangular rates /\ dict_rets c /\
  fr_cols rates = LName "t" :: map (fun r => LId (rx_id r)) (enabled_reactions c) /\
  tb_cols fluxes = "t"%string :: map sp_name (filter ordinaryb (enabled_species c)) /\
  ~ In "t"%string (map sp_name (enabled_species c)) /\
  Forall2 (fun a b => exists q, hd_error (snd a) = Some q /\ q == snd b "t"%string) (fr_rows rates) (tb_rows fluxes) /\
  In "radius"%string (map fst par) /\ In "length"%string (map fst par) /\
  cgraph_init c par rates fluxes = Err EGraphInit /\
  exists k, cgraph_init (run E0 c [OResetSp "ret_coefs"]) par rates fluxes = Ok k.
Proof.
  exists c0x, gi_par, gi_rates, gi_fluxes. split; [exact c0x_reachable|]. split; [vm_compute; reflexivity|]. split; [exact gi_rect|].
  split.
  { intros s d Hs Hd. change (enabled_species c0x) with [sE; sAr; sArp; sArs; sM] in Hs. cbn [In] in Hs.
    repeat match type of Hs with _ \/ _ => destruct Hs as [Hs|Hs] | False => destruct Hs end; subst s; vm_compute in Hd;
      try discriminate; injection Hd as <-; cbn; repeat (constructor; [cbn; intuition discriminate|]); constructor. }
  split; [vm_compute; reflexivity|]. split; [vm_compute; reflexivity|].
  split; [intros H; vm_compute in H; repeat (destruct H as [H|H]; [discriminate|]); exact H|].
  split; [constructor; [exists 0; split; [reflexivity|vm_compute; reflexivity]|];
    constructor; [exists 1; split; [reflexivity|vm_compute; reflexivity]|constructor]|].
  split; [cbn; auto|]. split; [cbn; auto|]. split; [vm_compute; reflexivity|].
  destruct (cgraph_init (run E0 c0x [OResetSp "ret_coefs"]) gi_par gi_rates gi_fluxes) as [k|e] eqn:E; [eauto|].
  exfalso. revert E. vm_compute. discriminate.
Qed.

Lemma gi_ranking : permuting keep /\ fr_rows gi_rates <> [] /\
  exists k, cgraph_init cd gi_par gi_rates gi_fluxes = Ok k /\
    NoDup (map (fun x => ex_label (fst x) (snd x)) (list_prod ["Ar+"%string] (cg_times k))).
Proof.
  split; [exact keep_permuting|]. split; [discriminate|]. destruct gi_k as (k & H & T). exists k. split; [exact H|].
  rewrite T. vm_compute. constructor; [intros [H1|[]]; discriminate|]. constructor; [intros []|constructor].
Qed.
