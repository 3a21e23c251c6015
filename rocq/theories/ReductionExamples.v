(** Concrete reductions: the hypotheses are met, and witnesses of refuted
    statements. *)
From Coq Require Import Permutation Lqa.
From Verif Require Import Base BaseLemmas Species Reactions Chemistry ChemSpec ChemInv ChemHist ChemLoad ChemMain ChemExamples Morris MorrisStats Tables InitialGuess
  InitialExamples GlobalModel GlobalSpec GlobalFiles GlobalLog GlobalProofs GlobalMore GlobalExamples
  Reduction ReductionSpec ReductionChem ReductionRun ReductionProofs ReductionMain.
Open Scope list_scope.

Lemma c0_reachable1 : reachable E1 c0.
Proof. eapply reach_init; [|exact c0_init]. table. Qed.

(** A model of the chemistry of ChemExamples.v, and a solution of [nr] rates,
    [ns] fluxes and the final value [v]. *)
Definition g0 : gmodel := fst (gm_init "PyGMol" c0 (Ok par0) None).
Definition rawv (nr ns : nat) (v : Q) : raw :=
  MkRaw (tab [(0, 1); (1, v)]%Q) [(0%Q, repeat 1%Q nr); (1%Q, repeat 1%Q nr)] [(0%Q, repeat 1%Q ns); (1%Q, repeat 1%Q ns)] 1.
Definition done (nr ns : nat) (v : Q) : solving := SDone true (rawv nr ns v).
Definition solver (l : list solving) : nat -> solving := fun n => nth n l (SRaise EModelSolution None).
Definition k0 (outs : list string) : rconf := MkRc results "r" outs [1%Q] 10.

Notation init_r k g s := (r_init k g s).
Notation base b k := (run_base_case E1 no_files dd1 sc1 b k).
Notation rm b k := (remove_one E1 no_files dd1 sc1 b k).
Notation go_r b k := (run_reduction E1 no_files dd1 sc1 b k).

Definition got {A} (d : A) (r : res A) : A := match r with Ok x => x | Err _ => d end.
Definition st_empty : rstate := MkR g0 fs0 [] [] [] [] None None 0.
Definition st0 (k : rconf) (g : gmodel) (s : gfs) : rstate := got st_empty (snd (init_r k g s)).


(** The species after a call. *)
Definition left_in (st : rstate) : list string := match gm_chem (r_gm st) with Some c => names_of c | None => [] end.

Definition A1 : rconf := k0 ["A"%string].
Definition rk (l : list string) : ranking := Static (combine l (map (fun n => inject_Z (Z.of_nat n)) (seq 1 (List.length l)))).

(** A reduction: O (with O+) is removed for good, then Ar* goes over the limit
    and is put back, then Ar+, the last positive ion, cannot be removed. *)
Definition b1 : nat -> solving := solver [done 6 5 2; done 5 3 (201 # 100); done 2 2 4].
Lemma example_reduction : exists s1 st st' n, r_init A1 g0 fs0 = (s1, Ok st) /\ gm_chem g0 = Some c0 /\
  go_r b1 A1 n st (rk ["O"; "Ar*"; "Ar+"]%string) 1 = Some (st', Ok tt) /\
  map (fun r => (h_species r, h_success r, h_more r, h_left r)) (r_hist st') =
    [(None, Some true, [], 5%Z); (Some "O"%string, Some true, ["O+"%string], 3%Z); (Some "Ar*"%string, Some true, [], 2%Z); (Some "Ar+"%string, Some false, [], 3%Z)] /\
  map h_run (r_hist st') = [Some "00_full_chemistry"; Some "01_disabled_O"; Some "02_disabled_Ar*"; None]%string /\
  numbers true (r_hist st').
Proof.
  eexists _, _, _, 5%nat. split; [vm_compute; reflexivity|]. split; [vm_compute; reflexivity|]. split; [vm_compute; reflexivity|].
  split; [vm_compute; reflexivity|]. split; [vm_compute; reflexivity|].
  intros _ r I S. vm_compute in I. repeat destruct I as [<-|I]; try contradiction; vm_compute; discriminate || discriminate S.
Qed.
Lemma example_max : (0 <= rc_max A1)%Q. Proof. discriminate. Qed.

(** The states between the calls. *)
Lemma example_iterated : exists st st1 row, iterated E1 no_files dd1 sc1 b1 A1 true g0 fs0 st /\ rm b1 A1 st "Ar*" 2 true = (st1, Ok row) /\
  left_in st = ["Ar"; "Ar+"; "Ar*"]%string /\ left_in st1 = ["Ar"; "Ar+"; "Ar*"]%string /\ h_success row = Some true /\ over_limit A1 (h_base row).
Proof.
  set (st := st0 A1 g0 fs0). set (sb := fst (base b1 A1 st)). set (so := fst (rm b1 A1 sb "O" 1 true)).
  exists so, (fst (rm b1 A1 so "Ar*" 2 true)). 
  assert (R1 : r_init A1 g0 fs0 = (fst (r_init A1 g0 fs0), Ok st)) by (vm_compute; reflexivity).
  assert (R2 : base b1 A1 st = (sb, Ok tt)) by (vm_compute; reflexivity).
  assert (R3 : exists row, rm b1 A1 sb "O" 1 true = (so, Ok row)) by (eexists; vm_compute; reflexivity).
  destruct R3 as (row3 & R3).
  eexists. split; [eapply it_next; [eapply it_base; [exact R1|exact R2]|exact R3]|].
  split; [vm_compute; reflexivity|]. split; [vm_compute; reflexivity|]. split; [vm_compute; reflexivity|]. split; [reflexivity|]. vm_compute. reflexivity.
Qed.

(** ** Witnesses *)

(** The removal of O drags the important O+ along: KeyError; the row is
    incomplete, it is not in the file, and the species are missing. *)
Lemma important_removed : exists k b l st s1 st' n, r_init k g0 fs0 = (s1, Ok st) /\ go_r b k n st (rk l) 0 = Some (st', Err EKey) /\
  In "O+"%string (rc_outs k) /\ In "O+"%string (names_of c0) /\ ~ In "O+"%string (left_in st') /\
  (exists r, In r (r_hist st') /\ h_success r = Some true /\ h_run r = None) /\
  exists h, fget (hist_path k) (fs_files (r_fs st')) = Some (CHist h) /\ List.length h = 1%nat /\ List.length (r_hist st') = 2%nat.
Proof.
  exists (k0 ["O+"%string]), (solver [done 6 5 2; done 5 3 2]), ["O"%string]. eexists _, _, _, 5%nat.
  split; [vm_compute; reflexivity|]. split; [vm_compute; reflexivity|]. split; [now left|]. split; [vm_compute; auto 8|].
  split. { vm_compute. intuition discriminate. }
  split. { eexists. split; [right; left; reflexivity|]. split; vm_compute; reflexivity. }
  eexists. split; [vm_compute; reflexivity|]. split; reflexivity.
Qed.

(** The error of O is not a number and the removal is accepted; when the next
    one goes over the limit O comes back, although it is no longer counted as
    eligible, and no row tells. *)
Definition b2 : nat -> solving := solver [done 6 5 0; done 5 3 0; done 2 2 1].
Lemma nan_undone : exists b st sa sb' row row', iterated E1 no_files dd1 sc1 b A1 true g0 fs0 st /\
  rm b A1 st "O" 1 true = (sa, Ok row) /\ h_success row = Some true /\ left_in sa = ["Ar"; "Ar+"; "Ar*"]%string /\
  rm b A1 sa "Ar*" 2 true = (sb', Ok row') /\ left_in sb' = ["Ar"; "Ar+"; "Ar*"; "O"; "O+"]%string /\
  ~ In "O"%string (r_eligible sb').
Proof.
  set (st := st0 A1 g0 fs0). exists b2, (fst (base b2 A1 st)).
  eexists _, _, _, _. split.
  { eapply it_base; [|]. { instantiate (1 := st). instantiate (1 := fst (r_init A1 g0 fs0)). vm_compute. reflexivity. } vm_compute. reflexivity. }
  split; [vm_compute; reflexivity|]. split; [reflexivity|]. split; [vm_compute; reflexivity|]. split; [vm_compute; reflexivity|].
  split; [vm_compute; reflexivity|]. vm_compute. intuition discriminate.
Qed.

(** With [max_unsuccess_streak=1] two removals over the limit are made. *)
Lemma one_too_many : exists b st s1 st' n, r_init A1 g0 fs0 = (s1, Ok st) /\ go_r b A1 n st (rk ["O"; "Ar*"; "Ar"]%string) 1 = Some (st', Ok tt) /\
  exists r0 r1 r2, r_hist st' = [r0; r1; r2] /\ over_limit A1 (h_base r1) /\ over_limit A1 (h_base r2).
Proof.
  exists (solver [done 6 5 2; done 5 3 4; done 3 4 4; done 2 4 2]). eexists _, _, _, 9%nat.
  split; [vm_compute; reflexivity|]. split; [vm_compute; reflexivity|]. eexists _, _, _. split; [reflexivity|]. split; vm_compute; reflexivity.
Qed.

(** An existing empty directory is accepted but nothing can be removed. *)
Definition fs_r : gfs := MkGfs [[]; results; rc_dir A1] [].
Lemma fs_r_ok : fs_ok fs_r.
Proof. split; [discriminate|]. intros p H. apply isdir_In in H. destruct H as [<-|[<-|[<-|[]]]]; reflexivity. Qed.
Lemma empty_dir : exists b st s1 st1, r_init A1 g0 fs_r = (s1, Ok st) /\ base b A1 st = (st1, Ok tt) /\
  forall x score bt, In x (r_eligible st1) -> rm b A1 st1 x score bt = (st1, Err EOS).
Proof.
  exists (solver [done 6 5 2]). eexists _, _, _. split; [vm_compute; reflexivity|]. split; [vm_compute; reflexivity|].
  intros x score bt I. unfold remove_one. apply memS_In in I.
  match goal with |- context [r_hist ?s] => set (S1 := s) in * end.
  destruct (r_hist S1) eqn:H; [vm_compute in H; discriminate|]. rewrite I. reflexivity.
Qed.

(** The feed gas is tried; the equations refuse to be built, and the reduction
    ends with the chemistry left without it. *)
Lemma feed_gas : exists b st s1 st' n, r_init A1 g0 fs0 = (s1, Ok st) /\ In "Ar"%string (map fst (gp_feeds par0)) /\ In "Ar"%string (r_eligible st) /\
  b 1%nat = SRaise EEquationsConsistency None /\
  go_r b A1 n st (rk ["Ar"]%string) 0 = Some (st', Err EEquationsConsistency) /\ left_in st' = ["Ar+"; "Ar*"; "O"; "O+"]%string.
Proof.
  exists (solver [done 6 5 2; SRaise EEquationsConsistency None]). eexists _, _, _, 9%nat.
  split; [vm_compute; reflexivity|]. split; [now left|]. split; [now left|]. split; [reflexivity|]. split; vm_compute; reflexivity.
Qed.

(** Flags of both kinds: a failed removal brings back a chemistry that had
    been rejected. *)
Lemma mixed_flags : exists b st sa row sb row', iterated E1 no_files dd1 sc1 b A1 true g0 fs0 st /\
  rm b A1 st "O" 1 true = (sa, Ok row) /\ over_limit A1 (h_base row) /\ left_in sa = names_of c0 /\
  rm b A1 sa "Ar*" 2 false = (sb, Ok row') /\ h_success row' = Some false /\ left_in sb = ["Ar"; "Ar+"; "Ar*"]%string.
Proof.
  set (st := st0 A1 g0 fs0). set (b := solver [done 6 5 2; done 5 3 4]). exists b, (fst (base b A1 st)).
  eexists _, _, _, _. split.
  { eapply it_base; [|]. { instantiate (1 := st). instantiate (1 := fst (r_init A1 g0 fs0)). vm_compute. reflexivity. } vm_compute. reflexivity. }
  split; [vm_compute; reflexivity|]. split; [vm_compute; reflexivity|]. split; [vm_compute; reflexivity|]. split; [vm_compute; reflexivity|].
  split; [reflexivity|]. vm_compute. reflexivity.
Qed.

(** A refused construction blocks the run id. *)
Lemma init_blocks : exists k s1, r_init k g0 fs0 = (s1, Err EReductionInit) /\
  rc_dir k = rc_dir A1 /\ (exists s st, r_init A1 g0 fs0 = (s, Ok st)) /\ exists s2, r_init A1 g0 s1 = (s2, Err EReductionInit).
Proof.
  exists (k0 ["Ar"; "Ar+"; "Ar*"; "O"; "O+"]%string). eexists. split; [vm_compute; reflexivity|]. split; [reflexivity|].
  split; [eexists _, _; vm_compute; reflexivity|]. eexists. vm_compute. reflexivity.
Qed.

(** Ad-hoc return coefficients naming a removed species: going back raises. *)
Definition c8 : chem := fst (set_adhoc_species E1 c0 "ret_coefs" (RName "Ar+") (VDict [("O"%string, SFlt (Fin 1))])).
Lemma c8_reachable : reachable E1 c8.
Proof. exact (reach_step E1 c0 (OSetSp "ret_coefs" (RName "Ar+") (VDict [("O"%string, SFlt (Fin 1))])) c0_reachable1). Qed.
Definition g8 : gmodel := fst (gm_init "PyGMol" c8 (Ok par0) None).
Lemma adhoc_blocks : exists b st s1 st' n, reachable E1 c8 /\ assert_consistency c8 = Ok tt /\ gm_chem g8 = Some c8 /\ r_init A1 g8 fs0 = (s1, Ok st) /\
  b 2%nat = SRaise EModelSolution None /\
  go_r b A1 n st (rk ["O"; "Ar*"]%string) 1 = Some (st', Err EChemConsistency) /\ left_in st' = ["Ar"; "Ar+"; "Ar*"]%string.
Proof.
  exists (solver [done 6 5 2; done 5 3 2]). eexists _, _, _, 9%nat. split; [exact c8_reachable|]. split; [vm_compute; reflexivity|].
  split; [vm_compute; reflexivity|]. split; [vm_compute; reflexivity|]. split; [reflexivity|]. split; vm_compute; reflexivity.
Qed.
