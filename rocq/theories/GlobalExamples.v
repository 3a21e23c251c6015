(** Concrete histories of a global model: the hypotheses are met, and
    witnesses of refuted statements. *)
From Coq Require Import Permutation Qabs Sorted Lqa DecimalString.
From Verif Require Import Base BaseLemmas Species Reactions Chemistry ChemSpec ChemInv ChemHist ChemLoad ChemMain ChemExamples Morris MorrisStats Tables TablesSpec InitialGuess
  InitialExamples GlobalModel GlobalSpec GlobalFiles GlobalLog GlobalProofs GlobalMore.
Open Scope list_scope.

Definition E1 : env := {|
  fparse := fun _ => None; iparse := fun _ => None; fshow := fun _ => ""%string;
  ishow := fun z => NilEmpty.string_of_int (Z.to_int z);
  formula_atoms := fun _ => Err EValue |}.

Definition dd1 : string -> res path := fun _ => Err EConfig.
Definition sc1 : list path -> list path := fun l => l.
Lemma sc1_perm l : Permutation (sc1 l) l.
Proof. apply Permutation_refl. Qed.

Definition results : path := ["results"%string].
Definition file_a (n : string) : path := results ++ ["a"%string; n].
Definition fs0 : gfs := MkGfs [[]; results] [].
Lemma fs0_ok : fs_ok fs0.
Proof.
  split; [discriminate|]. intros p H. apply isdir_In in H. destruct H as [<-|[<-|[]]]; reflexivity.
Qed.
Lemma fs0_marked : marked fs0.
Proof. intros p z H. discriminate. Qed.

Definition par0 : gparams := MkGp 300 100 [("Ar"%string, 1%Q)] 1.
Definition args0 (log over : bool) (id : string) : run_args := MkRun (Some id) 1 None log (Some results) over false.

(** A solution of two time steps. *)
Definition tab (l : list (Q * Q)) : table :=
  MkTable ["t"; "A"]%string (combine (map Z.of_nat (seq 0 (List.length l))) (map (fun x => fun c => if String.eqb c "t" then fst x else snd x) l)).
Definition raw0 (n : nat) (z : Z) : raw :=
  MkRaw (tab [(0, 1); (1, 2)]%Q) [(0%Q, map (fun k => inject_Z (Z.of_nat k)) (seq 1 n)); (1%Q, map (fun k => inject_Z (Z.of_nat k)) (seq 2 n))]
        [(0%Q, repeat 0%Q 5); (1%Q, repeat 0%Q 5)] z.

Notation hist := (ghistory E1 no_files dd1 sc1 (MkWorld None fs0)).
Notation stp := (gstep E1 no_files dd1 sc1).

Definition go (log over : bool) (id : string) (z : Z) : option nat * gop := (None, GRun (args0 log over id) (SDone true (raw0 6 z))).
Definition new0 : option nat * gop := (None, GNew "PyGMol" c0 (Ok par0)).

(** A run, its log, a change of the chemistry and a refused second log. *)
Definition h1 : list (option nat * gop) := [new0; go true false "a" 1; (None, GChem (ODisable [RName "O"] [])); (None, GLog "a" results 1 [] false false)].

Lemma h1_outcomes : snd (stp (hist [new0]) (go true false "a" 1)) = Finished /\
  snd (stp (hist (firstn 3 h1)) (None, GLog "a" results 1 [] false false)) = Failed EGlobalModelLog /\
  (exists t, served get_solution (hist h1) = Ok t) /\ (forall bo, In bo h1 -> no_overwrite (snd bo)).
Proof.
  split; [vm_compute; reflexivity|]. split; [vm_compute; reflexivity|]. split; [eexists; vm_compute; reflexivity|].
  intros bo I. cbn in I. repeat match type of I with _ \/ _ => destruct I as [I|I] | False => destruct I end; subst bo; cbn; auto.
Qed.

(** Six files are written; the process dying after any number of steps leaves
    a prefix of them. *)
Lemma h1_files : map fst (fs_files (w_fs (hist h1))) = map (fun n => results ++ ["a"%string; n]) log_file_names.
Proof. vm_compute. reflexivity. Qed.
Lemma crash_example : exists s o, stp (hist [new0]) (Some 8%nat, GRun (args0 true false "a") (SDone true (raw0 6 1))) = (MkWorld None s, o) /\ o = Crashed /\
  map fst (fs_files s) = map (fun n => results ++ ["a"%string; n]) (firstn 4 log_file_names).
Proof. eexists _, _. split; [vm_compute; reflexivity|]. split; vm_compute; reflexivity. Qed.

(** ** Witnesses *)

(** With [overwrite] a log is lost although the new one cannot be written. *)
Lemma overwrite_loses : exists l c o e,
  snd (stp (hist l) (None, GRun (args0 true true "a") o)) = Failed e /\
  fget (file_a "solver_log.yaml") (fs_files (w_fs (hist l))) = Some c /\ c <> CEmpty /\
  fget (file_a "solver_log.yaml") (fs_files (w_fs (fst (stp (hist l) (None, GRun (args0 true true "a") o))))) = None /\
  exists f, fget (file_a "chemistry_attributes.yaml")
              (fs_files (w_fs (fst (stp (hist l) (None, GRun (args0 true true "a") o))))) = Some f /\ f = CEmpty.
Proof.
  exists [new0; go true false "a" 1; (None, GChem (OSetSp "stick_coef" (RName "Ar+") (VSc SNone)))], (CLog 1), (SDone true (raw0 6 2)), EType.
  split; [vm_compute; reflexivity|]. split; [vm_compute; reflexivity|]. split; [discriminate|]. split; [vm_compute; reflexivity|].
  eexists. split; vm_compute; reflexivity.
Qed.

(** Dying while the old log is removed: the solver log is there but not the
    solution. *)
Lemma crash_in_overwrite : exists l b, 
  marked (w_fs (hist l)) /\
  exists s z, stp (hist l) (Some b, GRun (args0 true true "a") (SDone true (raw0 6 2))) = (MkWorld None s, Crashed) /\
    fget (file_a "solver_log.yaml") (fs_files s) = Some (CLog z) /\
    fget (file_a "solution.csv") (fs_files s) = None.
Proof.
  exists [new0; go true false "a" 1], 1%nat. split.
  - apply (history_fs E1 no_files dd1 sc1 [new0; go true false "a" 1] (MkWorld None fs0)); [|exact fs0_ok|exact fs0_marked].
    intros bo [<-|[<-|[]]]; cbn; auto.
  - eexists _, 1%Z. split; [vm_compute; reflexivity|]. split; vm_compute; reflexivity.
Qed.

(** An empty run id stands for the results directory itself. *)
Lemma empty_id : exists l, (forall bo, In bo l -> no_overwrite (snd bo)) /\
  fget (file_a "solution.csv") (fs_files (w_fs (hist l))) <> None /\
  snd (stp (hist l) (go true true "" 2)) = Finished /\
  fget (file_a "solution.csv") (fs_files (w_fs (fst (stp (hist l) (go true true "" 2))))) = None.
Proof.
  exists [new0; go true false "a" 1]. split; [intros bo [<-|[<-|[]]]; cbn; auto|].
  split; [vm_compute; discriminate|]. split; vm_compute; reflexivity.
Qed.

(** Parameters that are refused by [reload_model_parameters]. *)
Lemma failed_reload : exists l e, snd (stp (hist l) (None, GReload (Err e))) = Failed e /\
  (exists t, served get_solution (hist l) = Ok t) /\
  let w := fst (stp (hist l) (None, GReload (Err e))) in
  served success w = Ok true /\ served get_solution w = Err EAttribute /\
  snd (stp w (None, GReload (Ok par0))) = Failed EAttribute /\
  forall a o b, exists e, snd (stp w (b, GRun a o)) = Failed e.
Proof.
  exists [new0; go false false "a" 1], EModelParams. split; [vm_compute; reflexivity|]. split; [eexists; vm_compute; reflexivity|].
  cbv zeta. split; [vm_compute; reflexivity|]. split; [vm_compute; reflexivity|]. split; [vm_compute; reflexivity|].
  intros a o b. set (w := fst _).
  assert (W : exists g, w_obj w = Some g /\ gm_model g = None) by (eexists; split; vm_compute; reflexivity).
  destruct W as (g & W & M). unfold gstep. cbn [fst snd]. rewrite W.
  destruct (gm_run E1 no_files dd1 sc1 b g a o (w_fs w)) as [[g' s'] r] eqn:R. cbn [snd].
  apply run_cases in R. destruct R as [(_ & _ & _ & R)|(m & d & i & M' & _)]; [exact R|congruence].
Qed.

(** Equal numbers of species and reactions: the rates carry the names of
    species. *)
Definition raw_ox : raw := MkRaw (tab [(0, 1); (1, 2)]%Q) [(0%Q, [1; 2; 3; 4]%Q)] [(0%Q, [0; 0; 0; 0]%Q)] 1.
Lemma rates_named_after_species : exists c l tb, reachable E0 c /\ assert_consistency c = Ok tt /\
  l = [(None, GNew "PyGMol" c (Ok par0)); (None, GRun (args0 false false "a") (SDone true raw_ox))] /\
  served (get_rates E1) (hist l) = Ok tb /\ tb_cols tb = ["t"; "O2"; "O2+"; "O-"; "O"]%string /\
  map rx_id (get_reactions c false) = [1; 2; 3; 4]%Z.
Proof.
  exists c_ox, [(None, GNew "PyGMol" c_ox (Ok par0)); (None, GRun (args0 false false "a") (SDone true raw_ox))].
  eexists. split; [exact c_ox_reachable|]. split; [vm_compute; reflexivity|]. split; [reflexivity|].
  split; [vm_compute; reflexivity|]. split; vm_compute; reflexivity.
Qed.

(** After a change of the chemistry the rates of the finished run are
    labelled with other reactions, or not available at all. *)
Definition h2 : list (option nat * gop) :=
  [new0; (None, GChem (ODisable [] [1; 3]%Z)); (None, GRun (args0 false false "a") (SDone true (raw0 4 1)))].
Definition h2_change : list (option nat * gop) := [(None, GChem OReset); (None, GChem (ODisable [] [1; 6]%Z))].
Lemma rates_relabelled : exists tb tb',
  served (get_rates E1) (hist h2) = Ok tb /\ served (get_rates E1) (hist (h2 ++ h2_change)) = Ok tb' /\
  tb_cols tb = ["t"; "2"; "4"; "5"; "6"]%string /\ tb_cols tb' = ["t"; "2"; "3"; "4"; "5"]%string /\
  map (fun r => snd r "4"%string) (tb_rows tb) = map (fun r => snd r "3"%string) (tb_rows tb') /\
  map (fun r => snd r "4"%string) (tb_rows tb) <> map (fun r => snd r "4"%string) (tb_rows tb').
Proof.
  eexists _, _. split; [vm_compute; reflexivity|]. split; [vm_compute; reflexivity|]. split; [reflexivity|]. split; [reflexivity|].
  split; vm_compute; [reflexivity|discriminate].
Qed.

Lemma rates_unavailable : exists l, (exists tb, served (get_rates E1) (hist l) = Ok tb) /\
  let w := hist (l ++ [(None, GChem (ODisable [RName "O"%string] []))]) in
  (exists t, served get_solution w = Ok t) /\ served (get_rates E1) w = Err EValue /\ served (get_wall_fluxes E1) w = Err EValue.
Proof.
  exists [new0; go false false "a" 1]. split; [eexists; vm_compute; reflexivity|]. cbv zeta.
  split; [eexists; vm_compute; reflexivity|]. split; vm_compute; reflexivity.
Qed.

(** The rates of an unchanged chemistry: the hypotheses of the positive
    statement are met. *)
Lemma rates_fine : (List.length (names_of c0) <> List.length (get_reactions c0 false))%nat /\
  exists tb, served (get_rates E1) (hist [new0; go false false "a" 1]) = Ok tb /\ tb_cols tb = ["t"; "1"; "2"; "3"; "4"; "5"; "6"]%string.
Proof. split; [vm_compute; discriminate|]. eexists. split; vm_compute; reflexivity. Qed.

(** Ionisation of one gas: a consistent chemistry that cannot be run. *)
Definition reactions_one := [mkr 2 [sE; sAr] [sE; sE; sArp]].
Definition c_one : chem :=
  match init Plain [sE; sAr; sArp] reactions_one None with Ok c => c | Err _ => fresh Plain [sE; sAr; sArp] reactions_one None end.
Lemma c_one_init : init Plain [sE; sAr; sArp] reactions_one None = Ok c_one.
Proof. vm_compute. reflexivity. Qed.
Lemma c_one_reachable : reachable E0 c_one.
Proof. eapply reach_init; [|exact c_one_init]. table. Qed.
Lemma one_reaction : exists c, reachable E0 c /\ assert_consistency c = Ok tt /\ List.length (get_reactions c false) = 1%nat /\
  forall g m a o b s, gm_model g = Some m -> bm_chem m = c -> exists e, snd (gm_run E1 no_files dd1 sc1 b g a o s) = Failed e.
Proof.
  exists c_one. split; [exact c_one_reachable|]. split; [vm_compute; reflexivity|]. split; [reflexivity|].
  intros g m a o b s M C. apply (single_fails E1 no_files dd1 sc1 b g m a o s M); rewrite C.
  - left. reflexivity.
  - intros r I. vm_compute in I. destruct I as [<-|[]]. vm_compute. discriminate.
  - intros n I. vm_compute in I. destruct I as [<-|[<-|[]]]; discriminate.
Qed.

(** *** Convergence *)
Open Scope Q_scope.
Lemma constant_converges : check_convergency (tab [(0, 1); (1, 2); (2, 2)]) (1 # 10) (1 # 10) = Ok [("A"%string, true)] /\
  ascending (tab [(0, 1); (1, 2); (2, 2)]) /\ covered (tab [(0, 1); (1, 2); (2, 2)]) (2 - 2 * (1 # 10)).
Proof.
  split; [vm_compute; reflexivity|]. split.
  - unfold ascending. repeat constructor; unfold time; cbn; lra.
  - eexists _, _, _. split; [vm_compute; reflexivity|]. split.
    + exists (firstn 2 (tb_rows (tab [(0, 1); (1, 2); (2, 2)]))). vm_compute. reflexivity.
    + unfold time. cbn. lra.
Qed.
Lemma absent_not_converged : exists tb, ascending tb /\ (forall r, In r (tb_rows tb) -> at_col r "A" == 0) /\
  check_convergency tb (1 # 10) (1 # 10) = Ok [("A"%string, false)].
Proof.
  exists (tab [(0, 0); (1, 0); (2, 0)]). split; [unfold ascending; repeat constructor; unfold time; cbn; lra|].
  split; [|vm_compute; reflexivity]. intros r I. cbn in I.
  repeat match type of I with _ \/ _ => destruct I as [I|I] | False => destruct I end; subst r; reflexivity.
Qed.
