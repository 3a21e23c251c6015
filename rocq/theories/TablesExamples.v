(** Concrete solutions meeting the hypotheses of the theorems, and the
    counterexamples. *)
From Coq Require Import Qabs Sorted Reals Qreals Lqa.
From Verif Require Import Base BaseLemmas Morris MorrisStats MorrisRun Tables TablesSpec TablesProofs TablesCompress TablesErrors.
Open Scope Q_scope.
Open Scope string_scope.

Definition mk (l : list Q) : row := fun c =>
  match l with
  | [t; a; b] => if String.eqb c "t" then t else if String.eqb c "A" then a else b
  | _ => 0
  end.

Definition tb1 : table := MkTable ["t"; "A"; "B"]
  [(0%Z, mk [0; 1; 10]); (1%Z, mk [1; 101 # 100; 10]); (2%Z, mk [2; 3; 10]); (3%Z, mk [3; 4; 20]); (4%Z, mk [4; 4; 20])].
Definition tb2 : table := MkTable ["t"; "A"; "B"] [(0%Z, mk [0; 2; 5]); (1%Z, mk [4; 6; 5])].

Lemma sorted_check (rows : list (Z * row)) :
  (fix go l := match l with a :: ((b :: _) as l') => Qltb (time a) (time b) && go l' | _ => true end) rows = true ->
  StronglySorted (fun a b => time a < time b) rows.
Proof.
  intros H. apply Sorted_StronglySorted; [intros a b c; apply Qlt_trans|].
  induction rows as [|a [|b rows] IH]; [constructor|constructor; constructor|].
  apply andb_prop in H. destruct H as (H & H'). constructor; [now apply IH|]. constructor. now apply Qltb_iff.
Qed.

Lemma tb1_strict : strictly_ascending tb1.
Proof. apply sorted_check. vm_compute. reflexivity. Qed.

Lemma strict_weak tb : strictly_ascending tb -> ascending tb.
Proof.
  unfold ascending, strictly_ascending. induction 1 as [|a l S IH F]; constructor; [exact IH|].
  apply (Forall_impl _ (fun b => @Qlt_le_weak _ _) F).
Qed.

Example tb1_index : default_index tb1 /\ non_negative tb1.
Proof.
  split; [reflexivity|]. intros r c I J. cbn in I, J.
  repeat match goal with H : _ \/ _ |- _ => destruct H | H : False |- _ => destruct H end; subst; cbn; lra.
Qed.

Example tb1_compressed : match compress_solution tb1 (1 # 20) (1 # 1000) with Ok t => map fst (tb_rows t) | Err _ => [] end = [0%Z; 2%Z; 3%Z; 4%Z].
Proof. vm_compute. reflexivity. Qed.

Lemma cov tb t : (match assert_range (tb_rows tb) t with Ok _ => true | Err _ => false end) = true -> covered tb t.
Proof. intros H. apply assert_range_iff. destruct (assert_range (tb_rows tb) t) as [[]|]; [reflexivity|discriminate]. Qed.

Example tb12 : comparable tb1 tb2 ["A"; "B"] [1 # 2; 4].
Proof.
  split; [apply strict_weak, tb1_strict|]. split; [apply strict_weak, sorted_check; vm_compute; reflexivity|].
  split; [easy|]. split; [easy|]. split.
  - intros o [<-|[<-|[]]]; split; cbn; tauto.
  - split; [intros t [<-|[<-|[]]]; split; apply cov; vm_compute; reflexivity|].
    intros o r I J. cbn in I, J.
    repeat match goal with H : _ \/ _ |- _ => destruct H | H : False |- _ => destruct H end; subst; cbn; lra.
Qed.

Example tb12_errors : match get_error_max tb1 tb2 ["A"; "B"] [1 # 2; 4] with Ok (Fin q) => Qred q | _ => 0 end = 3 # 4.
Proof. vm_compute. reflexivity. Qed.

Example tb1_frames : match get_results_frames tb1 [5 # 2; 3] with Ok fs => map (map (fun cv => (fst cv, Qred (snd cv)))) fs | Err _ => [] end
  = [[("t", 5 # 2); ("A", 7 # 2); ("B", 15)]; [("t", 3); ("A", 4); ("B", 20)]].
Proof. vm_compute. reflexivity. Qed.

(** ** Counterexamples *)

(** Wall fluxes are negative: any change is dropped. *)
Lemma negative_dropped : exists tb out r front,
  default_index tb /\ In "t" (tb_cols tb) /\ strictly_ascending tb /\ compress_solution tb (1 # 20) (1 # 1000) = Ok out /\
  In r (tb_rows tb) /\ ~ In (fst r) (map fst (tb_rows out)) /\ In front (tb_rows out) /\
  (forall x, In x (tb_rows out) -> Qabs (at_col r "A" - at_col x "A") == 999 /\ 1 <= Qabs (time r - time x)) /\
  at_col front "A" == -1.
Proof.
  exists (MkTable ["t"; "A"] [(0%Z, mk [0; -1; 0]); (1%Z, mk [1; -1000; 0]); (2%Z, mk [2; -1; 0])]). eexists.
  exists (1%Z, mk [1; -1000; 0]), (0%Z, mk [0; -1; 0]).
  split; [reflexivity|]. split; [now left|]. split; [apply sorted_check; vm_compute; reflexivity|].
  split; [vm_compute; reflexivity|]. split; [right; now left|]. split; [cbn; intros [H|[H|[]]]; discriminate|].
  split; [now left|]. split; [|reflexivity].
  intros x [<-|[<-|[]]]; split; vm_compute; (reflexivity || discriminate).
Qed.

(** A compressed solution cannot be compressed again. *)
Lemma compress_twice : exists tb out, default_index tb /\ non_negative tb /\ In "t" (tb_cols tb) /\
  compress_solution tb (1 # 20) (1 # 1000) = Ok out /\ compress_solution out (1 # 20) (1 # 1000) = Err EKey.
Proof.
  exists tb1. eexists. split; [apply tb1_index|]. split; [apply tb1_index|]. split; [now left|]. split; [vm_compute; reflexivity|].
  vm_compute. reflexivity.
Qed.

(** A species that is absent: the error of a solution with respect to itself
    is not a number. *)
Lemma absent_species : exists tb, strictly_ascending tb /\ non_negative tb /\ (forall t, In t [1] -> covered tb t) /\
  get_error_max tb tb ["A"; "B"] [1] = Ok NaN /\ get_error_rms tb tb ["A"; "B"] [1] = Ok None.
Proof.
  exists (MkTable ["t"; "A"; "B"] [(0%Z, mk [0; 0; 1]); (1%Z, mk [2; 0; 1])]).
  split; [apply sorted_check; vm_compute; reflexivity|]. split.
  { intros r c I J. cbn in I, J.
    repeat match goal with H : _ \/ _ |- _ => destruct H | H : False |- _ => destruct H end; subst; cbn; lra. }
  split; [intros t [<-|[]]; apply cov; vm_compute; reflexivity|]. split; [vm_compute; reflexivity|].
  unfold get_error_rms, get_output_error_rms, get_output_errors. cbn [mapM bind].
  assert (E : result_in_time (MkTable ["t"; "A"; "B"] [(0%Z, mk [0; 0; 1]); (1%Z, mk [2; 0; 1])]) "A" 1 = Ok (0 # 2)) by (vm_compute; reflexivity).
  assert (E2 : exists q, result_in_time (MkTable ["t"; "A"; "B"] [(0%Z, mk [0; 0; 1]); (1%Z, mk [2; 0; 1])]) "B" 1 = Ok q) by (eexists; vm_compute; reflexivity).
  destruct E2 as (q & E2). rewrite E. cbn [bind]. rewrite E2. cbn [bind zip_errors map].
  reflexivity.
Qed.

(** ** Run identifiers *)

(** At most one way to find the directory is ever left. *)
Lemma identifiers_ok lower isdir run ids dir_of nominal :
  parse_run_identifiers lower isdir run = Ok ids ->
  (exists l, run = ri_run ids :: l) /\ (ri_backend ids = None \/ ri_dir ids = None) /\
  (forall b, ri_backend ids = Some b -> In (lower b) accepted_backends /\ In b run) /\
  (fetch_results_dir dir_of nominal (ri_backend ids) (ri_dir ids) = Err EResultsAttr ->
     exists b, ri_backend ids = Some b /\ dir_of b = Err EResultsAttr).
Proof.
  unfold parse_run_identifiers. destruct run as [|r [|a [|f [|x l]]]]; try discriminate.
  - intros H. injection H as <-. cbn. split; [now eexists|]. split; [now left|]. split; [discriminate|discriminate].
  - destruct (memS (lower a) accepted_backends) eqn:M; [|destruct (isdir a)]; intros H; injection H as <-; cbn [ri_run ri_backend ri_dir ri_file fetch_results_dir];
      (split; [now eexists|]); (split; [auto|]); (split; [|try discriminate; intros E; now exists a]); try discriminate.
    intros b B. injection B as <-. split; [now apply memS_In|right; now left].
  - destruct (memS (lower a) accepted_backends) eqn:M; intros H; injection H as <-; cbn [ri_run ri_backend ri_dir ri_file fetch_results_dir];
      (split; [now eexists|]); (split; [auto|]); (split; [|try discriminate; intros E; now exists a]); try discriminate.
    intros b B. injection B as <-. split; [now apply memS_In|right; now left].
Qed.

(** Results in a directory called like a back-end are taken for the back-end. *)
Lemma directory_named_pygmol : exists isdir run ids, run = ["run1"; "PyGMol"] /\ isdir "PyGMol" = true /\
  parse_run_identifiers str_lower isdir run = Ok ids /\ ri_dir ids = None /\ ri_backend ids = Some "PyGMol".
Proof. exists (fun _ => true). do 2 eexists. split; [reflexivity|]. split; [reflexivity|]. split; [vm_compute; reflexivity|]. now split. Qed.

(** Which directory is meant, for every combination of back-end and
    directory. *)
Lemma directory_spec dir_of nominal backend dir d :
  fetch_results_dir dir_of nominal backend dir = Ok d <->
  match backend, dir with
  | Some b, None => dir_of b = Ok d
  | None, Some x => x = d
  | None, None => nominal = d
  | Some _, Some _ => False
  end.
Proof. destruct backend, dir; cbn; split; intros H; try discriminate; try contradiction; congruence. Qed.

Lemma both_rejected dir_of nominal b d : fetch_results_dir dir_of nominal (Some b) (Some d) = Err EResultsAttr.
Proof. reflexivity. Qed.
