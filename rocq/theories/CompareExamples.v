(** Concrete comparisons of reduction runs. *)
From Coq Require Import Permutation Lqa.
From Verif Require Import Base BaseLemmas Species Reactions Chemistry ChemSpec ChemInv ChemHist ChemLoad ChemMain ChemExamples Morris MorrisStats Tables InitialGuess
  InitialExamples GlobalModel GlobalSpec GlobalFiles GlobalLog GlobalProofs GlobalMore GlobalExamples
  Reduction ReductionSpec ReductionChem ReductionRun ReductionProofs ReductionMain ReductionExamples Compare CompareSpec CompareRun CompareDraw CompareMain CompareFigure.
Open Scope list_scope.

(** Two runs one after the other: in the first one O stays removed and Ar* is
    put back, in the second one Ar* is put back. *)
Definition B1 : rconf := MkRc results "q" ["A"%string] [1%Q] 10.
Definition after2 (b : nat -> solving) (k : rconf) (s : gfs) (l : list string) : rstate :=
  fold_left (fun st x => fst (rm b k st x 1 true)) l (fst (base b k (st0 k g0 s))).
Definition sA : rstate := after2 b1 A1 fs0 ["O"; "Ar*"]%string.
Definition b3 : nat -> solving := solver [done 6 5 2; done 5 4 3].
Definition sB : rstate := after2 b3 B1 (r_fs sA) ["Ar*"]%string.
Definition dA : drawn_run := ("b-o", "b:X", "r", A1, r_hist sA)%string.
Definition dB : drawn_run := ("g-o", "g:X", "q", B1, r_hist sB)%string.

Definition all_ok (b : nat -> solving) (k : rconf) (s : gfs) : list string -> Prop :=
  let fix go (st : rstate) (l : list string) : Prop :=
    match l with
    | [] => True
    | x :: l' => (exists row, snd (rm b k st x 1 true) = Ok row) /\ go (fst (rm b k st x 1 true)) l'
    end in
  fun l => snd (r_init k g0 s) = Ok (st0 k g0 s) /\ snd (base b k (st0 k g0 s)) = Ok tt /\ go (fst (base b k (st0 k g0 s))) l.

Lemma after_iterated b k s l : all_ok b k s l -> iterated E1 no_files dd1 sc1 b k true g0 s (after2 b k s l).
Proof.
  intros (H1 & H2 & H3). unfold after2.
  assert (IT : iterated E1 no_files dd1 sc1 b k true g0 s (fst (base b k (st0 k g0 s)))).
  { eapply it_base.
    - rewrite (surjective_pairing (r_init k g0 s)), H1. reflexivity.
    - rewrite (surjective_pairing (base b k (st0 k g0 s))) at 1. rewrite H2. reflexivity. }
  revert IT H3. generalize (fst (base b k (st0 k g0 s))). induction l as [|x l IH]; intros st IT H3; [exact IT|].
  destruct H3 as [(row & R) H3]. cbn [fold_left]. apply IH; [|exact H3]. eapply it_next; [exact IT|].
  rewrite (surjective_pairing (rm b k st x 1 true)) at 1. rewrite R. reflexivity.
Qed.

Lemma okA : all_ok b1 A1 fs0 ["O"; "Ar*"]%string.
Proof. split; [vm_compute; reflexivity|]. split; [vm_compute; reflexivity|]. split; [eexists; vm_compute; reflexivity|]. split; [eexists; vm_compute; reflexivity|exact Logic.I]. Qed.
Lemma okB : all_ok b3 B1 (r_fs sA) ["Ar*"]%string.
Proof. split; [vm_compute; reflexivity|]. split; [vm_compute; reflexivity|]. split; [eexists; vm_compute; reflexivity|exact Logic.I]. Qed.

Lemma history0 b k s l : fs_ok s -> (0 <= rc_max k)%Q -> all_ok b k s l ->
  history_of E1 no_files dd1 sc1 k c0 (r_hist (after2 b k s l)) /\ fs_ok (r_fs (after2 b k s l)).
Proof.
  intros O M A. pose proof (after_iterated b k s l A) as IT.
  assert (G : gm_chem g0 = Some c0) by (vm_compute; reflexivity). split.
  - exists b, g0, s, (after2 b k s l). split; [exact c0_reachable1|]. split; [exact c0_declared|]. split; [exact M|]. split; [exact O|].
    split; [exact G|]. split; [exact IT|reflexivity].
  - destruct (iterated_inv E1 no_files dd1 sc1 b k sc1_perm c0 c0_reachable1 c0_declared M true g0 s _ O G IT) as [V _]. exact (v_fs _ _ _ _ _ _ V).
Qed.
Lemma hA : history_of E1 no_files dd1 sc1 A1 c0 (r_hist sA) /\ fs_ok (r_fs sA).
Proof. apply history0; [exact fs0_ok|discriminate|exact okA]. Qed.
Lemma hB : history_of E1 no_files dd1 sc1 B1 c0 (r_hist sB) /\ fs_ok (r_fs sB).
Proof. apply history0; [exact (proj2 hA)|discriminate|exact okB]. Qed.

Definition finite_row (r : hrow) : bool := match h_base r with Fin _ => true | _ => false end.
Definition number_row (r : hrow) : bool := match h_base r with NaN => false | _ => true end.
Lemma all_finite h : forallb finite_row h = true -> numbers true h /\ forall r, In r h -> h_success r = Some true -> h_base r <> PInf.
Proof.
  rewrite forallb_forall. intros H. split.
  - intros _ r I _. specialize (H r I). unfold finite_row in H. destruct (h_base r); discriminate.
  - intros r I _. specialize (H r I). unfold finite_row in H. destruct (h_base r); discriminate.
Qed.
Lemma all_numbers h : forallb number_row h = true -> numbers true h.
Proof. rewrite forallb_forall. intros H _ r I _. specialize (H r I). unfold number_row in H. destruct (h_base r); discriminate. Qed.
Lemma finA : forallb finite_row (r_hist sA) = true. Proof. vm_compute. reflexivity. Qed.
Lemma finB : forallb finite_row (r_hist sB) = true. Proof. vm_compute. reflexivity. Qed.
Lemma diskA : on_disk (r_fs sB) A1 (r_hist sA). Proof. split; vm_compute; reflexivity. Qed.
Lemma diskB : on_disk (r_fs sB) B1 (r_hist sB). Proof. split; vm_compute; reflexivity. Qed.

Lemma example_runs : (forall d, In d [dA; dB] -> exists c0, history_of E1 no_files dd1 sc1 (d_conf d) c0 (d_hist d)) /\
  (forall d, In d [dA; dB] -> on_disk (r_fs sB) (d_conf d) (d_hist d)) /\
  (forall d, In d [dA; dB] -> (rc_max (d_conf dA) == rc_max (d_conf d))%Q) /\
  (forall d, In d [dA; dB] -> numbers true (d_hist d)) /\
  (forall d r, In d [dA; dB] -> In r (d_hist d) -> h_success r = Some true -> h_base r <> PInf).
Proof.
  split. { intros d [<-|[<-|[]]]; exists c0; [exact (proj1 hA)|exact (proj1 hB)]. }
  split. { intros d [<-|[<-|[]]]; [exact diskA|exact diskB]. }
  split. { intros d [<-|[<-|[]]]; reflexivity. }
  split.
  - intros d [<-|[<-|[]]]; [exact (proj1 (all_finite _ finA))|exact (proj1 (all_finite _ finB))].
  - intros d r [<-|[<-|[]]]; [exact (proj2 (all_finite _ finA) r)|exact (proj2 (all_finite _ finB) r)].
Qed.
Lemma example_dressed : dressed default_args [dA; dB].
Proof.
  split; [split; [vm_compute; repeat constructor|]|].
  { intros [|[|i]] x H; cbn in H; [injection H as <-; reflexivity|injection H as <-; reflexivity|destruct i; discriminate]. }
  split; [split; [vm_compute; repeat constructor|]|].
  { intros [|[|i]] x H; cbn in H; [injection H as <-; reflexivity|injection H as <-; reflexivity|destruct i; discriminate]. }
  split; [|discriminate]. intros d [<-|[<-|[]]]; split; discriminate || reflexivity.
Qed.

Lemma example_figure : compare_runs (r_fs sB) default_args (rc_dir A1) [rc_dir B1] = Ok (MkFig
  [DLine [(0, Fin 0); (2, Fin (200 # 400))] "b-o" (Some "r"%string);
   DLine [(2, Fin (200 # 400)); (3, Fin (400 # 4))] "b:" None; DLine [(3, Fin (400 # 4))] "b:X" None;
   DLine [(0, Fin 0)] "g-o" (Some "q"%string);
   DLine [(0, Fin 0); (1, Fin (200 # 4))] "g:" None; DLine [(1, Fin (200 # 4))] "g:X" None;
   DLine [(-1 # 2, Fin 10); (7 # 2, Fin 10)] "r--" (Some "maximal allowed reduction error"%string)]
  (-1 # 2, 7 # 2) (-9 # 10, 4036 # 40))%Q.
Proof. vm_compute. reflexivity. Qed.

(** Two iterations stay, one goes back. *)
Lemma example_rows : exists p r, dead_end_from A1 (r_hist sA) p r /\ h_species p = Some "O"%string /\ h_species r = Some "Ar*"%string.
Proof.
  eexists _, _. split; [|split].
  - exists (firstn 1 (r_hist sA)), [], []. split; [vm_compute; reflexivity|]. split; [split; [reflexivity|vm_compute; discriminate]|].
    split; [easy|]. split; [reflexivity|vm_compute; reflexivity].
  - vm_compute. reflexivity.
  - vm_compute. reflexivity.
Qed.

(** A base value of zero and another value after the removal: the error is
    infinite, the removal is undone, and the figure cannot be drawn. *)
Definition b4 : nat -> solving := solver [done 6 5 0; done 5 3 1].
Definition sI : rstate := after2 b4 A1 fs0 ["O"]%string.
Lemma infinite_error : history_of E1 no_files dd1 sc1 A1 c0 (r_hist sI) /\ on_disk (r_fs sI) A1 (r_hist sI) /\
  numbers true (r_hist sI) /\ (exists p r, dead_end_from A1 (r_hist sI) p r /\ h_base r = PInf) /\
  compare_runs (r_fs sI) default_args (rc_dir A1) [] = Err EValue.
Proof.
  split. { apply history0; [exact fs0_ok|discriminate|]. split; [vm_compute; reflexivity|]. split; [vm_compute; reflexivity|]. split; [eexists; vm_compute; reflexivity|exact Logic.I]. }
  split. { split; vm_compute; reflexivity. }
  split. { apply all_numbers. vm_compute. reflexivity. }
  split; [|vm_compute; reflexivity].
  eexists _, _. split; [exists [], [], []; split; [vm_compute; reflexivity|]; split; [split; [reflexivity|vm_compute; discriminate]|]; split; [easy|]; split; [reflexivity|exact Logic.I]|].
  vm_compute. reflexivity.
Qed.

(** The digit zero stays on the line. *)
Lemma zero_plain : prettify [] "C10H8" = "C$_{1}$0H$_{8}$"%string.
Proof. vm_compute. reflexivity. Qed.
