(** Concrete Morris runs: non-vacuity of the theorems of PropsMorris.v and
    witnesses of the refuted statements. *)
From Coq Require Import Qabs Permutation Lqa.
From Verif Require Import Base BaseLemmas Species Reactions Chemistry ChemSpec ChemInv ChemHist ChemLoad ChemMain ChemGetters
  ChemExamples Morris MorrisSpec MorrisDesign MorrisMaps MorrisRet MorrisRun MorrisRunSpec MorrisRunProofs MorrisRunMore
  MorrisStats MorrisStatsProofs.
Open Scope Q_scope.

(** ** Designs *)

Definition m0 : morris := match morris_default with Ok m => m | Err _ => MkMorris 0 0 [] end.

Lemma m0_init : morris_init (1 # 2) 10 = Ok m0.
Proof. vm_compute. reflexivity. Qed.

Lemma m0_moves : ~ round5 (mm_delta m0) == 0.
Proof. vm_compute. discriminate. Qed.

Definition seed3 : list Q := [5000 # 100000; 65000 # 100000; 45000 # 100000].

Example seed3_on_grid : Forall (on_grid m0) seed3.
Proof.
  repeat constructor; [exists 0%Z|exists 6%Z|exists 4%Z]; (split; [vm_compute; split; congruence|vm_compute; reflexivity]).
Qed.

Example seed3_run :
  map (fun t => (fst (fst t), Qred (snd (fst t)), map Qred (snd t))) (fst (trajectory m0 [2%nat; 0%nat; 1%nat] (fun j => Nat.even j) seed3))
  = [(2%nat, 1 # 2, [1 # 20; 13 # 20; 19 # 20]); (0%nat, 1 # 2, [11 # 20; 13 # 20; 19 # 20]);
     (1%nat, -1 # 2, [11 # 20; 3 # 20; 19 # 20])].
Proof. vm_compute. reflexivity. Qed.

(** Accepted settings that do not give designs: rounding to five digits
    leaves the grid. *)
Lemma off_grid : exists m perm flip x0 i d x l,
  morris_init (1 # 7) 7 = Ok m /\
  Forall (fun v => exists g, In g (mm_grid m) /\ v == g) x0 /\ Permutation perm (seq 0 (List.length x0)) /\
  trajectory m perm flip x0 = ((i, d, x) :: l, Ok tt) /\
  exists v, nth_error x i = Some v /\ forall g, In g (mm_grid m) -> ~ v == g.
Proof.
  exists (match morris_init (1 # 7) 7 with Ok m => m | Err _ => m0 end), [0%nat; 1%nat], (fun _ => true), [21429 # 100000; 50000 # 100000].
  eexists. eexists. eexists. eexists. split; [vm_compute; reflexivity|]. split.
  { repeat constructor; [exists (21429 # 100000)|exists (50000 # 100000)]; (split; [vm_compute; tauto|reflexivity]). }
  split; [reflexivity|]. split; [vm_compute; reflexivity|]. eexists. split; [reflexivity|].
  intros g G. vm_compute in G. repeat (destruct G as [<-|G]; [vm_compute; discriminate|]). destruct G.
Qed.

(** A step that is accepted but rounds to zero: nothing ever moves. *)
Lemma no_step : exists m perm flip x0 l,
  morris_init (1 # 1000000000000) 10 = Ok m /\
  Forall (fun v => exists g, In g (mm_grid m) /\ v == g) x0 /\ Permutation perm (seq 0 (List.length x0)) /\
  trajectory m perm flip x0 = (l, Ok tt) /\ List.length l = 2%nat /\
  Forall (fun t => snd (fst t) == 0 /\ Forall2 Qeq (snd t) x0) l.
Proof.
  exists (match morris_init (1 # 1000000000000) 10 with Ok m => m | Err _ => m0 end), [0%nat; 1%nat], (fun _ => true), [5000 # 100000; 65000 # 100000].
  eexists. split; [vm_compute; reflexivity|]. split.
  { repeat constructor; [exists (5000 # 100000)|exists (65000 # 100000)]; (split; [vm_compute; tauto|reflexivity]). }
  split; [reflexivity|]. split; [vm_compute; reflexivity|]. split; [reflexivity|].
  repeat constructor.
Qed.

(** ** Factors *)

Example c0_nominal : exists nom, nominal_values c0 = Ok nom /\ v_vals nom = [1; 1; 1; 1; 1; 1].
Proof. eexists. split; vm_compute; reflexivity. Qed.

Example c0_species_factors :
  match nominal_values c0 with
  | Ok nom => map (fun c => map (fun r => match eff_arrh c r with SFlt (Fin q) => Qred q | _ => 0 end) (get_reactions c false))
                (fst (apply_all TSpecies nom c0 [[1 # 2; 1 # 2; 1 # 2; 1 # 2; 1 # 2]; [1; 1 # 2; 1 # 4; 1 # 2; 3 # 4]]))
  | Err _ => []
  end = [[1; 1; 1; 1; 1; 1]; [2; 2; 1; 1 # 2; 3 # 2; 1]].
Proof. vm_compute. reflexivity. Qed.

(** ** Return coefficients *)

(** A function that satisfies what is assumed of the float power. *)
Definition pw0 (r y : Q) : Q := if Qle_bool 0 y then 1 + (r - 1) * y else / (1 + (r - 1) * (- y)).

Lemma pw0_like : power_like pw0.
Proof.
  assert (T : forall y, (0 <= y /\ forall r, pw0 r y = 1 + (r - 1) * y) \/ (y < 0 /\ forall r, pw0 r y = / (1 + (r - 1) * (- y)))).
  { intros y. unfold pw0. destruct (Qle_bool 0 y) eqn:E.
    - left. apply Qle_bool_iff in E. auto.
    - right. split; [|reflexivity]. apply Qnot_le_lt. intros L. apply Qle_bool_iff in L. congruence. }
  constructor.
  - intros r y y' E. destruct (T y) as [[L H]|[L H]], (T y') as [[L' H']|[L' H']]; rewrite H, H'; try (exfalso; lra); now rewrite E.
  - intros r Hr. destruct (T 0) as [[L H]|[L H]]; [rewrite H; ring|lra].
  - intros r Hr. destruct (T 1) as [[L H]|[L H]]; [rewrite H; ring|lra].
  - intros r Hr. destruct (T (-(1))) as [[L H]|[L H]]; [lra|rewrite H]. apply Qinv_comp. ring.
  - intros r y y' Hr L. destruct (T y) as [[Ly H]|[Ly H]], (T y') as [[Ly' H']|[Ly' H']]; rewrite H, H'.
    + nra.
    + lra.
    + assert (1 < 1 + (r - 1) * (- y)) by nra. apply (Qle_trans _ 1); [|nra].
      apply Qle_shift_inv_r; lra.
    + assert (P : 0 < 1 + (r - 1) * (- y')) by nra. assert (P' : 1 + (r - 1) * (- y') <= 1 + (r - 1) * (- y)) by nra.
      apply Qle_shift_inv_r; [lra|]. set (u := 1 + (r - 1) * (- y')) in *. set (v := 1 + (r - 1) * (- y)) in *. clearbody u v.
      apply (Qle_trans _ (/ u * u)); [rewrite Qmult_comm, Qmult_inv_r by lra; lra|].
      assert (0 < / u) by (now apply Qinv_lt_0_compat). nra.
Qed.

(** Half of the ions come back as ions. *)
Definition sArpH := MkSp 2%nat 3%Z "Ar+" (Some 1%Z) (Some (Fin 40)) (Some (Fin 1)) (Some [("Ar", Fin (1 # 2)); ("Ar+", Fin (1 # 2))]).
Definition speciesH := [sE; sAr; sArpH].
Definition reactionsH := [mkr 1 [sE; sAr] [sE; sAr]; mkr 2 [sE; sAr] [sE; sE; sArpH]].
Definition cH : chem := match init Plain speciesH reactionsH None with Ok c => c | Err _ => fresh Plain speciesH reactionsH None end.
Lemma cH_init : init Plain speciesH reactionsH None = Ok cH.
Proof. vm_compute. reflexivity. Qed.
Lemma cH_reachable : reachable E0 cH.
Proof. eapply reach_init; [|exact cH_init]. table. Qed.

Lemma cH_species : map (fun s => (sp_name s, shown_ret cH s)) (c_species cH) =
  [("e", None); ("Ar", Some []); ("Ar+", Some [("Ar", Fin (1 # 2)); ("Ar+", Fin (1 # 2))])].
Proof. vm_compute. reflexivity. Qed.

Lemma cH_cases s d : In s (c_species cH) -> shown_ret cH s = Some d -> d = [] \/ d = [("Ar", Fin (1 # 2)); ("Ar+", Fin (1 # 2))].
Proof.
  intros H D. apply (in_map (fun s => (sp_name s, shown_ret cH s))) in H. rewrite cH_species, D in H.
  destruct H as [H|[H|[H|[]]]]; injection H as _ H; try discriminate; [left|right]; congruence.
Qed.

Lemma cH_ready : ret_ready cH.
Proof.
  constructor.
  - exact (reachable_Inv E0 cH cH_reachable).
  - vm_compute. reflexivity.
  - intros i I. exact (match I with end).
  - intros s d H D. assert (X : In s (c_species cH)) by (apply selected_iff in H; tauto).
    destruct (cH_cases s d X D) as [->| ->]; cbn.
    + repeat split; [constructor|tauto|tauto].
    + repeat split; [repeat constructor; cbn; intuition discriminate|intuition discriminate|intuition discriminate].
Qed.

Lemma cH_finite : finite_state cH.
Proof.
  intros s d H D. destruct (cH_cases s d H D) as [->| ->]; [now exists []|].
  now exists [("Ar", 1 # 2); ("Ar+", 1 # 2)].
Qed.

Example cH_call : exists c', ret_calls pw0 E0 cH [MkCall 1 (RName "Ar+") (RName "Ar") (1 # 2) (3 # 2); MkCall (1 # 4) (RName "Ar+") (RName "Ar") (1 # 2) 2] c'
  /\ exists d, shown_ret c' sArpH = Some d /\ map (fun nf => (fst nf, match snd nf with Fin q => Fin (Qred q) | y => y end)) d = [("Ar", Fin (1 # 3)); ("Ar+", Fin (2 # 3))].
Proof.
  eexists. split.
  - cbn [ret_calls]. eexists. eexists. split; [vm_compute; reflexivity|]. eexists. eexists. split; [vm_compute; reflexivity|reflexivity].
  - eexists. split; vm_compute; reflexivity.
Qed.

(** ** Book-keeping; configurations are numbers *)

Definition callN (c : nat) (backend : string) (id : option string) : call nat :=
  MkTraj c backend "species" id ("0_initial_run", Ok tt) [("1_elem_effect_of_Ar", Ok tt); ("2_elem_effect_of_O", Ok tt)]
         [1 # 2; -1 # 2] ["Ar"; "O"].

Lemma callN_sound c b id : sound_call (callN c b id).
Proof. split; repeat constructor; cbn; intuition discriminate. Qed.

(** Two trajectories one after the other. *)
Example two_trajectories :
  map (fun d => (fst d, map fst (t_runs (snd d)), match t_meta (snd d) with Some _ => true | None => false end)) (f_trajs (run_calls Nat.eqb
    [(None, callN 1 "pygmol" None); (None, callN 1 "pygmol" None); (None, callN 2 "pygmol" None)] fs0))
  = [("traj001", ["0_initial_run"; "1_elem_effect_of_Ar"; "2_elem_effect_of_O"], true);
     ("traj002", ["0_initial_run"; "1_elem_effect_of_Ar"; "2_elem_effect_of_O"], true); ("traj003", [], false)].
Proof. vm_compute. reflexivity. Qed.

(** A crash between the meta file of the trajectory and that of the run. *)
Lemma crash_incoherent : exists l, let s := run_calls Nat.eqb l fs0 in
  exists id1 id2 o1 o2, produced s id1 o1 /\ produced s id2 o2 /\ ~ coherent Nat.eqb o1 o2.
Proof.
  exists [(Some 6%nat, callN 1 "pygmol" None); (None, callN 2 "pygmol" None)]. cbn zeta.
  exists "traj001", "traj002", (MkOrigin 1%nat "species" "pygmol"), (MkOrigin 2%nat "species" "pygmol").
  split; [|split].
  - eexists. eexists. split; [vm_compute; reflexivity|]. cbn. intros r H. tauto || (repeat destruct H as [<-|H]; tauto).
  - eexists. eexists. split; [vm_compute; reflexivity|]. cbn. intros r H. tauto || (repeat destruct H as [<-|H]; tauto).
  - intros (C & _). discriminate.
Qed.

(** Two trajectories of different chemistries at the same time. *)
Lemma concurrent_incoherent : exists ks sched, NoDup (map snd ks) /\
  let s := snd (parallel sched (procs Nat.eqb ks) fs0) in
  exists id1 id2 o1 o2, produced s id1 o1 /\ produced s id2 o2 /\ ~ coherent Nat.eqb o1 o2.
Proof.
  exists [(callN 1 "pygmol" None, "traj001"); (callN 2 "pygmol" None, "traj002")],
    [0;1;0;1;0;1;0;1;0;1;0;1;0;1;0;1;0;1]%nat. split; [repeat constructor; cbn; intuition discriminate|]. cbn zeta.
  exists "traj001", "traj002", (MkOrigin 1%nat "species" "pygmol"), (MkOrigin 2%nat "species" "pygmol").
  split; [|split].
  - eexists. eexists. split; [vm_compute; reflexivity|]. cbn. intros r H. tauto || (repeat destruct H as [<-|H]; tauto).
  - eexists. eexists. split; [vm_compute; reflexivity|]. cbn. intros r H. tauto || (repeat destruct H as [<-|H]; tauto).
  - intros (C & _). discriminate.
Qed.

(** One run_morris on an empty directory: the second trajectory starts while
    the first one is writing the files of the run and is lost. *)
Lemma trajectory_lost : exists (ks : list (call nat * string)) sched c ty b,
  morris_queue (@fs0 nat) 2 = Ok (map snd ks) /\
  Forall (fun kid => sound_call (fst kid) /\ k_cfg (fst kid) = c /\ k_type (fst kid) = ty /\ k_backend (fst kid) = b) ks /\
  Nat.eqb c c = true /\ str_lower b = b /\
  exists ps s, parallel sched (procs Nat.eqb ks) fs0 = (ps, s) /\ Forall (fun l => l = []) ps /\
    exists id, In id (map snd ks) /\ forall tm rs, ~ completed s id tm rs.
Proof.
  exists [(callN 1 "pygmol" None, "traj001"); (callN 1 "pygmol" None, "traj002")],
    [0;0;0;0;0;0;0;1;1;0;0]%nat, 1%nat, "species", "pygmol".
  split; [vm_compute; reflexivity|]. split; [repeat constructor; cbn; intuition discriminate|].
  split; [reflexivity|]. split; [vm_compute; reflexivity|].
  eexists. eexists. split; [vm_compute; reflexivity|]. split; [repeat constructor|].
  exists "traj002". split; [cbn; tauto|]. intros tm rs C. vm_compute in C. discriminate.
Qed.

(** A trajectory killed after its first run. *)
Lemma killed_blocks : exists k b s, run_trajectory Nat.eqb (Some b) k fs0 = (s, Crashed) /\ sound_call k /\ k_id k = None /\
  stuck (fst (k_base k)) s /\
  forall l, Forall (fun bk => k_id (snd bk) = None /\ fst (k_base (snd bk)) = fst (k_base k)) l -> run_calls Nat.eqb l s = s.
Proof.
  exists (callN 1 "pygmol" None), 3%nat. eexists. split; [vm_compute; reflexivity|]. split; [apply callN_sound|]. split; [reflexivity|].
  assert (S : stuck "0_initial_run" (MkFs [("traj001", MkDir [("0_initial_run", MkOrigin 1%nat "species" "pygmol")] None)] None None None)).
  { exists "traj001". eexists. split; [vm_compute; reflexivity|]. split; [vm_compute; reflexivity|]. cbn. tauto. }
  split; [exact S|]. intros l. exact (stuck_forever Nat.eqb "0_initial_run" l _ S).
Qed.

(** The statistics cannot be computed then, whatever else was finished. *)
Lemma stats_fail {cfg} (s : mfs cfg) id rs : In (id, MkDir rs None) (f_trajs s) -> stats_metas s = Err EOS.
Proof.
  unfold stats_metas. induction (f_trajs s) as [|[i d] l IH]; [easy|]. intros [E|I]; cbn [mapM fst snd].
  - injection E as -> ->. reflexivity.
  - rewrite (IH I). destruct (t_meta d); reflexivity.
Qed.

Lemma unfinished_stats : exists l s, s = run_calls Nat.eqb l fs0 /\ (exists tm rs, completed s "traj001" tm rs) /\ stats_metas s = Err EOS.
Proof.
  exists [(None, callN 1 "pygmol" None); (Some 2%nat, callN 1 "pygmol" None)]. eexists. split; [reflexivity|]. split.
  - eexists. eexists. vm_compute. reflexivity.
  - vm_compute. reflexivity.
Qed.

(** 'PyGMol' is accepted as back-end, but only for one trajectory. *)
Lemma capital_letters : exists k s1, sound_call k /\ run_trajectory Nat.eqb None k fs0 = (s1, Finished) /\
  exists s2, run_trajectory Nat.eqb None k s1 = (s2, Failed EMorrisCoherence).
Proof.
  exists (callN 1 "PyGMol" None). eexists. split; [apply callN_sound|]. split; [vm_compute; reflexivity|]. eexists. vm_compute. reflexivity.
Qed.

(** ** Evaluation *)

Definition Fx (x : list Q) : outputs := fun o => if String.eqb o "O" then 1 + dot [2; -3; 1 # 2] x else 7.

Example Fx_affine : affine Fx "O" 1 [2; -3; 1 # 2].
Proof. intros x _. unfold Fx. cbn [String.eqb]. reflexivity. Qed.

Definition log3 : traj_log :=
  MkLog (map Fx (points seed3 (fst (trajectory m0 [2%nat; 0%nat; 1%nat] (fun j => Nat.even j) seed3))))
        (map (fun p => snd (fst p)) (fst (trajectory m0 [2%nat; 0%nat; 1%nat] (fun j => Nat.even j) seed3))) ["C"; "A"; "B"].

Example log3_run : run_of m0 Fx ["A"; "B"; "C"] log3.
Proof.
  exists seed3, [2%nat; 0%nat; 1%nat], (fun j => Nat.even j), (fst (trajectory m0 [2%nat; 0%nat; 1%nat] (fun j => Nat.even j) seed3)).
  split; [exact seed3_on_grid|]. split; [reflexivity|]. split; [cbn; lia|]. split.
  - cbn. apply (perm_trans (l' := [0%nat; 2%nat; 1%nat])); [apply perm_swap|]. constructor. apply perm_swap.
  - split; [vm_compute; reflexivity|]. split; [reflexivity|]. split; [reflexivity|]. vm_compute. repeat constructor.
Qed.

Example log3_ranking :
  map (fun sv => (fst sv, match snd sv with Fin q => Fin (Qred q) | y => y end))
    (match get_ranking (fun _ => Fin 0) ["O"; "T"] RMax ["O"] [[log3; log3]] with Ok r => r | Err _ => [] end)
  = [("C", Fin (8 # 7)); ("A", Fin (32 # 7)); ("B", Fin (48 # 7))].
Proof. vm_compute. reflexivity. Qed.
