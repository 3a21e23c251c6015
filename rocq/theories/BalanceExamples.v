(** A chemistry built from RP and Reaction objects: oxygen, its ion, electrons. *)
From Coq Require Import Reals Qreals Lra Permutation Sorted.
From Verif Require Import Base BaseLemmas Morris Tables EqPower Species Reactions Chemistry ChemSpec ChemHist ChemLoad ChemExamples
  MolSpec MolExamples ExtReal Equations EqSpec EqPure EqDefaults EqReal EqFlow EqFloors EqWall EqMore EqExamples EnergySpec EqEnergy
  Views ConserveSpec Conserve Rates RatesProofs.
Open Scope R_scope.

Definition objsB : list rp := [sp_e; sp_O; sp_Op].
Definition rx_elO := MolExamples.mkr 2 [sp_e; sp_O] [sp_e; sp_O]
  [("arrh_a", VFlt (Fin 3)); ("arrh_c", VInt 2)]%string [("arrh_a", Some "cm3.s-1"); ("arrh_c", Some "eV")]%string.
Definition rxsB : list reaction := [rx_ion; rx_elO].

Definition spsB : list sp := match mapM (view_rp E1) objsB with Ok l => l | Err _ => [] end.
Definition rsB : list rx := match mapM (view_reaction E1) rxsB with Ok l => l | Err _ => [] end.
Definition cB : chem := match init Plain spsB rsB None with Ok c => c | Err _ => fresh Plain spsB rsB None end.

Lemma cB_init : init Plain spsB rsB None = Ok cB.
Proof. vm_compute. reflexivity. Qed.

Lemma same_uid objs rxs : (forall r p, In r rxs -> In p (r_lhs r ++ r_rhs r) -> In p objs) -> NoDup (map rp_uid objs) ->
  forall p q, (In p objs \/ exists r, In r rxs /\ In p (r_lhs r ++ r_rhs r)) ->
    (In q objs \/ exists r, In r rxs /\ In q (r_lhs r ++ r_rhs r)) -> rp_uid p = rp_uid q -> p = q.
Proof.
  intros Sub ND p q Hp Hq E. apply (NoDup_map_inj rp_uid objs); [exact ND| | |exact E].
  - destruct Hp as [|(r & A & B)]; [assumption|eapply Sub; eassumption].
  - destruct Hq as [|(r & A & B)]; [assumption|eapply Sub; eassumption].
Qed.
Lemma same_heap sps rs : (forall r p, In r rs -> takes_part p r -> In p sps) -> NoDup (map sp_uid sps) -> heap_ok sps rs.
Proof. intros Sub ND. apply heap_ok_table; assumption. Qed.

Ltac cases H := repeat match type of H with _ \/ _ => destruct H as [H|H] | False => destruct H end.

Lemma cB_reachable : reachable E1 cB.
Proof.
  eapply reach_init; [|exact cB_init]. apply same_heap.
  - intros r s Hr Hs. vm_compute in Hr. cases Hr; subst r; unfold takes_part in Hs; cbn in Hs; cases Hs; subst s; vm_compute; tauto.
  - vm_compute. repeat (constructor; [cbn; intuition discriminate|]). constructor.
Qed.

Lemma cB_objects : objects E1 objsB rxsB cB.
Proof.
  split; [vm_compute; reflexivity|]. split; [vm_compute; reflexivity|]. apply same_uid.
  - intros r p Hr Hp. vm_compute in Hr. cases Hr; subst r; cbn in Hp; cases Hp; subst p; vm_compute; tauto.
  - vm_compute. repeat (constructor; [cbn; intuition discriminate|]). constructor.
Qed.
Lemma rxsB_history : Forall (rx_history E1) rxsB.
Proof.
  constructor; [apply examples_rx|]. constructor; [|constructor]. eapply mkr_history. vm_compute. reflexivity.
Qed.
Lemma cB_electron : electron_charged cB.
Proof. intros s Hs N. vm_compute in Hs. cases Hs; subst s; try discriminate N. reflexivity. Qed.

Definition vB : view := {|
  v_names := ["O"; "O+"]%string; v_charge := [0; 1]%Z; v_mass := [Q2R 16; Q2R 16]; v_sigma := [Q2R 3; Q2R 3]; v_stick := [Q2R 0; Q2R 1];
  v_a := [Q2R (3 # 1000000); Q2R (3 # 1000000)]; v_b := [Q2R 0; Q2R 0]; v_c := [Q2R 2; Q2R 2]; v_loss := [Q2R 0; Q2R 0];
  v_elastic := [false; true]; v_e_net := [1; 0]%Z; v_e_lhs := [1; 1]%Z; v_m_lhs := [0; 0]%Z;
  v_ret := [[Q2R 0; Q2R 1]; [Q2R 0; Q2R 0]]; v_net := [[-1; 1]; [0; 0]]%Z; v_lhs := [[1; 0]; [1; 0]]%Z |}.
Lemma vB_ok : view_of E1 objsB cB = Ok vB.
Proof. vm_compute. reflexivity. Qed.
Lemma vB_lists : v_names vB = ["O"; "O+"]%string /\ v_e_net vB = [1; 0]%Z /\ v_charge vB = [0; 1]%Z /\
  v_mass vB = [Q2R 16; Q2R 16] /\ v_sigma vB = [Q2R 3; Q2R 3] /\ v_stick vB = [Q2R 0; Q2R 1].
Proof. repeat split. Qed.

Definition parB : mparams := {|
  p_feeds := [("O"%string, 100)]; p_temp := 300; p_radius := 1; p_length := 2; p_pressure := 100;
  p_t_end := 2; p_power := [500; 500]%Q; p_times := [0; 2]%Q; p_int := false |}.
Lemma parB_proper : proper_params parB.
Proof. unfold proper_params, parB. cbn [p_temp p_radius p_length p_pressure p_t_end]. repeat split; try lra. Qed.

Lemma initB model : exists e, eq_init K1 model vB parB = Ok e.
Proof. eexists. reflexivity. Qed.

Lemma atomsB : Forall2 (atoms_of E1 objsB "O") (v_names vB) [1; 1]%Z.
Proof.
  destruct vB_lists as (-> & _). constructor; [|constructor; [|constructor]].
  - exists sp_O, [("O"%string, 1%Z)]. split; [vm_compute; tauto|]. repeat split; vm_compute; reflexivity.
  - exists sp_Op, [("O"%string, 1%Z)]. split; [vm_compute; tauto|]. repeat split; vm_compute; reflexivity.
Qed.

Lemma volumeB model y : exists e ss, eq_init K1 model vB parB = Ok e /\ answers e (CVolume y (Some (map X [3; 5]))) (AVec (map X ss)) /\
  List.length [3; 5] = List.length (v_a vB).
Proof.
  destruct (initB model) as (e & H).
  assert (L : List.length [3; 5] = List.length (v_a vB)) by reflexivity.
  destruct (volume_exact K1 model vB parB e y [3; 5] H L) as (ss & _ & A & _). exists e, ss. auto.
Qed.

(** The logged row, in another order and with the time. *)
Definition rowB : rates_row := [(None, 7); (Some 2%Z, 5); (Some 1%Z, 3)].
Lemma rowB_ok : NoDup (map fst rowB) /\ (forall i, In (Some i) (map fst rowB) <-> In i (map rx_id (get_reactions cB false))) /\
  Forall2 (fun r x => In (Some (rx_id r), x) rowB) (get_reactions cB false) [3; 5].
Proof.
  split; [repeat (constructor; [cbn; intuition discriminate|]); constructor|]. split.
  - assert (Q : map rx_id (get_reactions cB false) = [1; 2]%Z) by (vm_compute; reflexivity). rewrite Q. clear Q. intros i. cbn [rowB map fst In]. split.
    + intros [A|[A|[A|[]]]]; [discriminate A|injection A as <-|injection A as <-]; tauto.
    + intros [A|[A|[]]]; subst i; tauto.
  - assert (Q : exists r1 r2, get_reactions cB false = [r1; r2] /\ rx_id r1 = 1%Z /\ rx_id r2 = 2%Z) by (do 2 eexists; vm_compute; auto).
    destruct Q as (r1 & r2 & -> & E1' & E2'). constructor; [|constructor; [|constructor]]; [rewrite E1'|rewrite E2']; cbn; auto.
Qed.
Lemma cB_species : exists e o p, c_species cB = [e; o; p] /\ sp_name e = "e"%string /\ sp_name o = "O"%string /\ sp_name p = "O+"%string /\
  get_species cB false false true = [o; p].
Proof. do 3 eexists. vm_compute. repeat split. Qed.

Lemma reportB : exists s, denotes cB (RName "O+") s /\ nth_error (get_species cB false false true) 1 = Some s.
Proof.
  destruct cB_species as (e & o & p & S1 & _ & _ & N & G). exists p. rewrite G. split; [|reflexivity].
  split; [rewrite S1; cbn; auto|exact N].
Qed.
Lemma electronB : c_kind cB = Plain /\ exists s, denotes cB (RName "e") s /\ sp_name s = "e"%string.
Proof.
  split; [vm_compute; reflexivity|]. destruct cB_species as (e & o & p & S1 & N & _). exists e. split; [|exact N].
  split; [rewrite S1; cbn; auto|exact N].
Qed.

(** A state of the oxygen plasma. *)
Lemma vB_proper : proper_view vB.
Proof.
  unfold proper_view, vB. cbn [v_mass v_sigma v_stick v_a].
  assert (Q0 : Q2R 0 = 0) by (unfold Q2R; cbn; lra). assert (Q1 : Q2R 1 = 1) by (unfold Q2R; cbn; lra).
  assert (Q3 : Q2R 3 = 3) by (unfold Q2R; cbn; lra). assert (Q16 : Q2R 16 = 16) by (unfold Q2R; cbn; lra).
  assert (A : 0 <= Q2R (3 # 1000000)) by (rewrite <- Q0; apply Qle_Rle; discriminate).
  rewrite Q0, Q1, Q3, Q16. repeat split; repeat (apply Forall_cons; [lra|]); apply Forall_nil.
Qed.
Lemma nB_electrons : electrons vB n1 = 2.
Proof. destruct vB_lists as (N & _ & C & _). unfold electrons, Sum, el, charge_of. rewrite ?N, C. cbn. lra. Qed.
Lemma nB_collisional rho : collisional K1 vB parB n1 rho.
Proof.
  intros i Li. destruct vB_lists as (N & _ & C & _ & S & _).
  assert (P : 0 < ((Q2R 3 + Q2R 3) / 10 ^ 10) ^ 2) by (apply pow_lt; apply Rdiv_lt_0_compat; [unfold Q2R; cbn; lra|apply pow_lt; lra]).
  unfold Sum, cross_section, charge_of in *. rewrite ?N in *. rewrite ?C, ?S.
  destruct i as [|[|i]]; [| |cbn in Li; lia]; cbn [List.length seq map fold_right Nat.eqb nth Z.eqb negb andb]; unfold el, n1; cbn [nth]; lra.
Qed.
Lemma nB_anion model : model = Combined -> forall i, (i < List.length n1)%nat -> (charge_of vB i < 0)%Z -> el (v_stick vB) i <> 0.
Proof.
  intros _ i Li C. destruct vB_lists as (_ & _ & Q & _). unfold charge_of in C. rewrite Q in C.
  destruct i as [|[|i]]; [| |cbn in Li; lia]; cbn in C; lia.
Qed.

Lemma surfaceB model rho : exists e ws ss, eq_init K1 model vB parB = Ok e /\ List.length ws = List.length (v_names vB) /\
  answers e (CFluxes (state n1 rho) None None None) (AVec (map X ws)) /\ answers e (CSurface (state n1 rho) None None) (AVec (map X ss)) /\
  el ws 1 < 0.
Proof.
  destruct (initB model) as (e & H). assert (L : List.length n1 = List.length (v_names vB)) by reflexivity.
  destruct (fluxes_ok K1 model vB parB e n1 rho K1_physical parB_proper vB_proper H L n1_nonneg) as (ws & Lw & A & F).
  - rewrite nB_electrons. lra.
  - apply nB_collisional.
  - apply nB_anion.
  - assert (Lw' : List.length ws = List.length (v_names vB)) by congruence.
    destruct (surface_exact K1 model vB parB e (state n1 rho) ws parB_proper H Lw' A) as (ss & _ & As & _).
    exists e, ws, ss. repeat split; try assumption. destruct vB_lists as (_ & _ & C & _ & _ & K).
    apply (F 1%nat); [cbn; lia| | |]; unfold el, charge_of; rewrite ?K, ?C; unfold Q2R; cbn; try lra; lia.
Qed.
Lemma energyB : exists e ls rs ss q, eq_init K1 Combined vB parB = Ok e /\ answers e (CPower 1) (APower (Ok q)) /\
  answers e (CLosses (state n1 9) None) (AVec (map X ls)) /\ answers e (CRates (state n1 9) None None None None) (AVec (map X rs)) /\
  answers e (CSurface (state n1 9) None None) (AVec (map X ss)).
Proof.
  destruct (surfaceB Combined 9) as (e & ws & ss & H & _ & _ & A & _).
  assert (L : List.length n1 = List.length (v_names vB)) by reflexivity. pose proof nB_electrons as NE.
  destruct (rates_exact K1 Combined vB parB e n1 9 K1_physical parB_proper H L) as (rs & Lr & Ar & _); [lra|].
  assert (Al : exists ls, answers e (CLosses (state n1 9) None) (AVec (map X ls))).
  { destruct (fin_list (value (get_el_en_losses (state n1 9) None) (st e))) as (ls & El).
    - apply Forall_forall. intros x I. apply (In_nth _ _ XNaN) in I. destruct I as (j & Lj & <-).
      assert (LL : List.length (value (get_el_en_losses (state n1 9) None) (st e)) = List.length (v_a vB)).
      { rewrite value_def. unfold get_el_en_losses. cbn [st ca snd]. rewrite length_tab. apply (b_nr _ _ _ _ _ (init_built _ _ _ _ _ H)). }
      rewrite LL in Lj. pose proof (fin_losses K1 Combined vB parB e K1_physical vB_proper H n1 9 L) as F.
      rewrite NE in F. specialize (F ltac:(lra) j Lj). exact F.
    - exists ls. unfold answers. cbn [perform]. rewrite mapA_answer, (fresh_value _ _ _ _ _ _ H), El. reflexivity. }
  destruct Al as (ls & Al).
  destruct (power_between K1 Combined vB parB e 1%Q H) as (q & Pq & _); [reflexivity|reflexivity|split; discriminate|].
  exists e, ls, rs, ss, q. split; [exact H|]. split; [unfold answers; cbn [perform asks snd]; rewrite Pq; reflexivity|]. split; [exact Al|]. split; [exact Ar|exact A].
Qed.

(** ** Unsorted surface rates *)
Definition fluxB : flux_row := [("t"%string, 7); ("O"%string, -1); ("O+"%string, -3)].
Lemma unsorted : exists E c a radius len row l, reachable E c /\ 0 < radius /\ 0 < len /\ Forall (fun kv => String.eqb (fst kv) "t" = false -> snd kv <= 0) row /\
  get_surface_rates c a radius len row = Ok l /\ ~ StronglySorted (fun x y => snd y <= snd x) l.
Proof.
  destruct cB_species as (e & o & p & S1 & _ & No & Np & G).
  destruct (initB Combined) as (q & IN). destruct vB_lists as (Vn & _).
  destruct (view_inv E1 objsB cB vB vB_ok) as (_ & _ & _ & _ & _ & (m & GM & Rw)).
  assert (Sq : rm_rows m = map sp_id (get_species cB false false true) /\ rm_cols m = map sp_id (get_species cB false false true)).
  { apply square; [exact GM|]. apply mapM_length in Rw. rewrite <- Rw. reflexivity. }
  destruct Sq as [MR MC]. rewrite G in MR, MC.
  assert (De : denotes cB (RName "O") o) by (split; [rewrite S1; cbn; auto|exact No]).
  assert (Nk : nth_error (get_species cB false false true) 0 = Some o) by (rewrite G; reflexivity).
  rewrite <- G in MR, MC.
  assert (R := surface_list E1 cB objsB vB m (RName "O") o 0 fluxB [-1; -3] parB cB_reachable vB_ok De Nk GM MR MC eq_refl eq_refl).
  unfold heavy in R. rewrite G in R. cbn [List.length seq map combine filter snd] in R.
  assert (V : area_of parB / volume_of parB = 3).
  { unfold area_of, volume_of, parB. cbn [p_radius p_length]. pose proof PI_RGT_0. field. lra. }
  assert (V1 : -1 * area_of parB / volume_of parB = -3) by (unfold Rdiv in *; lra).
  assert (V3 : -3 * area_of parB / volume_of parB = -9) by (unfold Rdiv in *; lra).
  cbn [Nat.eqb] in R. change (el [-1; -3] 0) with (-1) in R. change (el [-1; -3] 1) with (-3) in R. rewrite V1, V3 in R.
  change (returned vB 0 0) with (Q2R 0) in R. change (returned vB 0 1) with (Q2R 1) in R.
  assert (Q0 : Q2R 0 = 0) by (unfold Q2R; cbn; lra). assert (Q1 : Q2R 1 = 1) by (unfold Q2R; cbn; lra). rewrite Q0, Q1 in R.
  unfold nonzero in R. destruct (Req_EM_T (-3 + - (0 * -3)) 0) as [Z|_]; [exfalso; lra|].
  destruct (Req_EM_T (0 + - (1 * -9)) 0) as [Z|_]; [exfalso; lra|].
  exists E1, cB, (RName "O"), 1, 2, fluxB. eexists. split; [exact cB_reachable|]. split; [lra|]. split; [lra|]. split.
  { unfold fluxB. apply Forall_cons; [intros C; discriminate C|]. apply Forall_cons; [cbn [snd]; lra|]. apply Forall_cons; [cbn [snd]; lra|]. apply Forall_nil. }
  split; [exact R|]. intros S. inversion S as [|? ? _ F]; subst. inversion F as [|? ? F1 _]; subst. cbn [snd] in F1. lra.
Qed.

(** ** An electron without a charge *)
Definition sp_e0 := mk 0 0 [("name", VStr "e"); ("mass", VFlt (Fin (1 # 1836)))]%string.
(** e + O > e + e + O *)
Definition rx_free := MolExamples.mkr 1 [sp_e0; sp_O] [sp_e0; sp_e0; sp_O]
  [("arrh_a", VFlt (Fin 3)); ("arrh_c", VInt 2)]%string [("arrh_a", Some "cm3.s-1"); ("arrh_c", Some "eV")]%string.
(** e + O+ > e + e + O+ *)
Definition rx_free2 := MolExamples.mkr 2 [sp_e0; sp_Op] [sp_e0; sp_e0; sp_Op]
  [("arrh_a", VFlt (Fin 3)); ("arrh_c", VInt 2)]%string [("arrh_a", Some "cm3.s-1"); ("arrh_c", Some "eV")]%string.
Definition objsF : list rp := [sp_e0; sp_O; sp_Op].
Definition spsF : list sp := match mapM (view_rp E1) objsF with Ok l => l | Err _ => [] end.
Definition rsF : list rx := match mapM (view_reaction E1) [rx_free; rx_free2] with Ok l => l | Err _ => [] end.
Definition cF : chem := match init Plain spsF rsF None with Ok c => c | Err _ => fresh Plain spsF rsF None end.
Lemma cF_init : init Plain spsF rsF None = Ok cF.
Proof. vm_compute. reflexivity. Qed.
Lemma cF_reachable : reachable E1 cF.
Proof.
  eapply reach_init; [|exact cF_init]. apply same_heap.
  - intros r s Hr Hs. vm_compute in Hr. cases Hr; subst r; unfold takes_part in Hs; cbn in Hs; cases Hs; subst s; vm_compute; tauto.
  - vm_compute. repeat (constructor; [cbn; intuition discriminate|]). constructor.
Qed.
Lemma cF_objects : objects E1 objsF [rx_free; rx_free2] cF.
Proof.
  split; [vm_compute; reflexivity|]. split; [vm_compute; reflexivity|]. apply same_uid.
  - intros r p Hr Hp. vm_compute in Hr. cases Hr; subst r; cbn in Hp; cases Hp; subst p; vm_compute; tauto.
  - vm_compute. repeat (constructor; [cbn; intuition discriminate|]). constructor.
Qed.
Definition vF : view := {|
  v_names := ["O"; "O+"]%string; v_charge := [0; 1]%Z; v_mass := [Q2R 16; Q2R 16]; v_sigma := [Q2R 3; Q2R 3]; v_stick := [Q2R 0; Q2R 1];
  v_a := [Q2R (3 # 1000000); Q2R (3 # 1000000)]; v_b := [Q2R 0; Q2R 0]; v_c := [Q2R 2; Q2R 2]; v_loss := [Q2R 0; Q2R 0];
  v_elastic := [true; true]; v_e_net := [1; 1]%Z; v_e_lhs := [1; 1]%Z; v_m_lhs := [0; 0]%Z;
  v_ret := [[Q2R 0; Q2R 1]; [Q2R 0; Q2R 0]]; v_net := [[0; 0]; [0; 0]]%Z; v_lhs := [[1; 0]; [0; 1]]%Z |}.
Lemma vF_ok : view_of E1 objsF cF = Ok vF.
Proof. vm_compute. reflexivity. Qed.

Lemma free_electrons : exists E objs rxs c K model v p e y rs ss,
  reachable E c /\ good_formulas E /\ objects E objs rxs c /\ Forall (rx_history E) rxs /\ view_of E objs c = Ok v /\
  eq_init K model v p = Ok e /\ List.length rs = List.length (v_a v) /\ Forall (fun r => 0 < r) rs /\
  answers e (CVolume y (Some (map X rs))) (AVec (map X ss)) /\
  Sum (List.length ss) (fun i => IZR (charge_of v i) * el ss i) = 0 /\
  0 < Sum (List.length rs) (fun j => IZR (nth j (v_e_net v) 0%Z) * el rs j).
Proof.
  assert (I : exists e, eq_init K1 Combined vF parB = Ok e) by (eexists; reflexivity). destruct I as (e & H).
  assert (L : List.length [2; 3] = List.length (v_a vF)) by reflexivity.
  destruct (volume_exact K1 Combined vF parB e (state n1 9) [2; 3] H L) as (ss & Ls & A & F).
  exists E1, objsF, [rx_free; rx_free2], cF, K1, Combined, vF, parB, e, (state n1 9), [2; 3], ss.
  split; [exact cF_reachable|]. split; [exact E1_good|]. split; [exact cF_objects|].
  split; [constructor; [|constructor; [|constructor]]; eapply mkr_history; vm_compute; reflexivity|].
  split; [exact vF_ok|]. split; [exact H|]. split; [exact L|]. split; [repeat (apply Forall_cons; [lra|]); apply Forall_nil|]. split; [exact A|]. split.
  - cbn [vF v_names List.length] in Ls. rewrite Ls. unfold Sum. cbn [seq map fold_right].
    rewrite (F 0%nat), (F 1%nat) by (rewrite Ls; lia). unfold Sum, el, charge_of. cbn. ring.
  - unfold Sum, el. cbn. lra.
Qed.

(** ** A disabled species *)
Definition rx_exc := MolExamples.mkr 3 [sp_e; sp_O] [sp_e; sp_Ox]
  [("arrh_a", VFlt (Fin 3)); ("arrh_c", VInt 2)]%string [("arrh_a", Some "cm3.s-1"); ("arrh_c", Some "eV")]%string.
Definition objsD : list rp := [sp_e; sp_O; sp_Op; sp_Ox].
Definition spsD : list sp := match mapM (view_rp E1) objsD with Ok l => l | Err _ => [] end.
Definition rsD : list rx := match mapM (view_reaction E1) (rxsB ++ [rx_exc]) with Ok l => l | Err _ => [] end.
Definition cA : chem := match init Plain spsD rsD None with Ok c => c | Err _ => fresh Plain spsD rsD None end.
Lemma cA_init : init Plain spsD rsD None = Ok cA.
Proof. vm_compute. reflexivity. Qed.
Lemma cA_reachable : reachable E1 cA.
Proof.
  eapply reach_init; [|exact cA_init]. apply same_heap.
  - intros r s Hr Hs. vm_compute in Hr. cases Hr; subst r; unfold takes_part in Hs; cbn in Hs; cases Hs; subst s; vm_compute; tauto.
  - vm_compute. repeat (constructor; [cbn; intuition discriminate|]). constructor.
Qed.
Definition cD : chem := run E1 cA [ODisable [RName "O*"%string] []].
Lemma cD_reachable : reachable E1 cD.
Proof. exact (run_reachable E1 cA _ cA_reachable). Qed.
Lemma vD_ok : view_of E1 objsD cD = Ok vB.
Proof. vm_compute. reflexivity. Qed.
Lemma cD_off : exists s, denotes cD (RName "O*") s /\ c_en cD (sp_id s) = false /\ ~ In (sp_name s) ["e"; "M"]%string.
Proof.
  exists (match spsD with [_; _; _; s] => s | _ => no_sp end). split; [split; [vm_compute; tauto|vm_compute; reflexivity]|].
  split; [vm_compute; reflexivity|]. vm_compute. intuition discriminate.
Qed.
Lemma rowD : forall i, In (Some i) (map fst rowB) <-> In i (map rx_id (get_reactions cD false)).
Proof.
  assert (Q : map rx_id (get_reactions cD false) = [1; 2]%Z) by (vm_compute; reflexivity). rewrite Q. clear Q. intros i. cbn [rowB map fst In]. split.
  - intros [A|[A|[A|[]]]]; [discriminate A|injection A as <-|injection A as <-]; tauto.
  - intros [A|[A|[]]]; subst i; tauto.
Qed.
Lemma fluxB_ok : filter (fun kv => negb (String.eqb (fst kv) "t")) fluxB = combine (v_names vB) [-1; -3].
Proof. reflexivity. Qed.
