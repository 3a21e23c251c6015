(** The claims about reductions: C49, C81-C88. The general assumptions: the
    chemistry is one a user can bring about, its declared return species
    exist, the files form a tree, directory listings are permutations of the
    entries, the allowed error is not negative. *)
From Coq Require Import Permutation.
From Verif Require Import Base Species Reactions Chemistry ChemSpec ChemExamples Morris MorrisStats Tables InitialGuess
  GlobalModel GlobalSpec GlobalExamples Reduction ReductionSpec ReductionMain ReductionExamples.
Open Scope list_scope.

(** One call of remove_one_species_and_run: only what may be removed is
    tried, each name once, one row per call; whatever is not removed, or is
    removed at the price of too large an error with backtracking, is undone
    exactly. *)
Theorem C49_removal E fhash default_dir scan backend k c0 bt g s st sp score st' row :
  (forall l, Permutation (scan l) l) -> reachable E c0 -> declared_exist c0 -> (0 <= rc_max k)%Q ->
  fs_ok s -> gm_chem g = Some c0 -> iterated E fhash default_dir scan backend k bt g s st ->
  remove_one E fhash default_dir scan backend k st sp score bt = (st', Ok row) ->
  removable k c0 sp /\ ~ In sp (r_tried st) /\ r_tried st' = r_tried st ++ [sp] /\ r_hist st' = r_hist st ++ [row] /\
  h_species row = Some sp /\ h_score row = Some score /\
  exists c c', gm_chem (r_gm st) = Some c /\ gm_chem (r_gm st') = Some c' /\
    (h_success row = Some false -> numbers bt (r_hist st) -> same_chem E c c') /\
    (h_success row = Some true ->
       exists c1, disable c [RName sp] [] = (c1, Ok tt) /\ (forall q, In q (c_species c) -> sp_name q = sp -> ~ protected c q) /\
         (forall x, removed_by row x <-> present c x /\ ~ present c1 x) /\
         (bt = true -> over_limit k (h_base row) -> numbers bt (r_hist st) -> same_chem E c c') /\
         (~ (bt = true /\ over_limit k (h_base row)) -> c' = c1)).
Proof. exact (fun P R D M => removal E fhash default_dir scan backend k P c0 R D M bt g s st sp score st' row). Qed.

(** After any calls the history is complete, in memory and on disk, and
    agrees with the logs of the runs and with the chemistry. *)
Theorem C49_history E fhash default_dir scan backend k c0 bt g s st :
  (forall l, Permutation (scan l) l) -> reachable E c0 -> declared_exist c0 -> (0 <= rc_max k)%Q ->
  fs_ok s -> gm_chem g = Some c0 -> iterated E fhash default_dir scan backend k bt g s st ->
  consistent_history E fhash k bt c0 st.
Proof. exact (fun P R D M O C I => proj2 (iterated_inv E fhash default_dir scan backend k P c0 R D M bt g s st O C I)). Qed.

(** What is protected, special or important is never lost. *)
Theorem C49_kept E fhash default_dir scan backend k c0 bt g s st x :
  (forall l, Permutation (scan l) l) -> reachable E c0 -> declared_exist c0 -> (0 <= rc_max k)%Q ->
  fs_ok s -> gm_chem g = Some c0 -> iterated E fhash default_dir scan backend k bt g s st ->
  numbers bt (r_hist st) -> present c0 x -> ~ removable k c0 x ->
  exists c, gm_chem (r_gm st) = Some c /\ present c x.
Proof. exact (fun P R D M => kept_species E fhash default_dir scan backend k P c0 R D M bt g s st x). Qed.

(** run_reduction ends, whatever the ranking and the solver do. *)
Theorem C49_terminates E fhash default_dir scan backend k c0 g s s1 st r max :
  (forall l, Permutation (scan l) l) -> reachable E c0 -> declared_exist c0 -> (0 <= rc_max k)%Q ->
  fs_ok s -> gm_chem g = Some c0 -> r_init k g s = (s1, Ok st) ->
  exists n x, forall m, (n <= m)%nat -> run_reduction E fhash default_dir scan backend k m st r max = Some x.
Proof. exact (fun P R D M => reduction_stops E fhash default_dir scan backend k P c0 R D M g s s1 st r max). Qed.

(** When it ends without an exception it has made a sequence of such calls
    with backtracking, and everything is enabled again. *)
Theorem C49_run E fhash default_dir scan backend k c0 g s s1 st r max m st' :
  (forall l, Permutation (scan l) l) -> reachable E c0 -> declared_exist c0 -> (0 <= rc_max k)%Q ->
  fs_ok s -> gm_chem g = Some c0 -> r_init k g s = (s1, Ok st) ->
  run_reduction E fhash default_dir scan backend k m st r max = Some (st', Ok tt) ->
  exists st2, iterated E fhash default_dir scan backend k true g s st2 /\
    r_hist st' = r_hist st2 /\ r_tried st' = r_tried st2 /\ r_fs st' = r_fs st2 /\ r_base st' = r_base st2 /\
    exists c', gm_chem (r_gm st') = Some c' /\ reachable E c' /\ version_of E c0 c' /\
      (forall i, c_en c' i = true) /\ (forall i, c_enr c' i = true).
Proof. exact (fun P R D M => reduction_spec E fhash default_dir scan backend k P c0 R D M g s s1 st r max m st'). Qed.

(** With a static ranking species are tried in its order, no more than [max]
    failures in a row are passed over, and it ends only with more failures or
    when nothing is left to try. *)
Theorem C49_static E fhash default_dir scan backend k c0 g s s1 st l max m st' :
  (forall l, Permutation (scan l) l) -> reachable E c0 -> declared_exist c0 -> (0 <= rc_max k)%Q ->
  fs_ok s -> gm_chem g = Some c0 -> r_init k g s = (s1, Ok st) ->
  run_reduction E fhash default_dir scan backend k m st (Static l) max = Some (st', Ok tt) ->
  subseq (r_tried st') (map fst l) /\ proper k max (r_hist st') /\ stopped k max st' l /\
  (forall x, In x (r_eligible st') -> removable k c0 x).
Proof. exact (fun P R D M => static_reduction E fhash default_dir scan backend k P c0 R D M g s s1 st l max m st'). Qed.

(** What may be removed, decided at construction. *)
Theorem C49_eligible E k g s s1 st c : reachable E c -> fs_ok s -> gm_chem g = Some c -> r_init k g s = (s1, Ok st) ->
  fs_ok s1 /\ kept s s1 /\ r_gm st = g /\ r_fs st = s1 /\ r_all st = names_of c /\ r_tried st = [] /\ r_hist st = [] /\
  r_base st = None /\ r_last st = None /\ (forall x, In x (r_eligible st) <-> removable k c x) /\ r_eligible st <> [].
Proof. exact (r_init_spec E k g s s1 st c). Qed.

(** An important species can be removed along with another one; the call then
    ends in a KeyError, with an incomplete history and a reduced chemistry. *)
Theorem C81_important_removed_refuted : exists k b l st s1 st' n, r_init k g0 fs0 = (s1, Ok st) /\
  run_reduction E1 no_files dd1 sc1 b k n st (rk l) 0 = Some (st', Err EKey) /\
  In "O+"%string (rc_outs k) /\ In "O+"%string (names_of c0) /\ ~ In "O+"%string (left_in st') /\
  (exists r, In r (r_hist st') /\ h_success r = Some true /\ h_run r = None) /\
  exists h, fget (hist_path k) (fs_files (r_fs st')) = Some (CHist h) /\ List.length h = 1%nat /\ List.length (r_hist st') = 2%nat.
Proof. exact important_removed. Qed.

(** A removal whose error is not a number is accepted and later undone. *)
Theorem C82_nan_undone_refuted : exists b st sa sb' row row', iterated E1 no_files dd1 sc1 b A1 true g0 fs0 st /\
  remove_one E1 no_files dd1 sc1 b A1 st "O" 1 true = (sa, Ok row) /\ h_success row = Some true /\ left_in sa = ["Ar"; "Ar+"; "Ar*"]%string /\
  remove_one E1 no_files dd1 sc1 b A1 sa "Ar*" 2 true = (sb', Ok row') /\ left_in sb' = ["Ar"; "Ar+"; "Ar*"; "O"; "O+"]%string /\
  ~ In "O"%string (r_eligible sb').
Proof. exact nan_undone. Qed.

(** One more failure in a row than documented is made. *)
Theorem C83_streak_refuted : exists b st s1 st' n, r_init A1 g0 fs0 = (s1, Ok st) /\
  run_reduction E1 no_files dd1 sc1 b A1 n st (rk ["O"; "Ar*"; "Ar"]%string) 1 = Some (st', Ok tt) /\
  exists r0 r1 r2, r_hist st' = [r0; r1; r2] /\ over_limit A1 (h_base r1) /\ over_limit A1 (h_base r2).
Proof. exact one_too_many. Qed.

(** In an existing empty directory nothing can be removed. *)
Theorem C84_empty_directory_refuted : exists b st s1 st1, r_init A1 g0 fs_r = (s1, Ok st) /\
  run_base_case E1 no_files dd1 sc1 b A1 st = (st1, Ok tt) /\
  forall x score bt, In x (r_eligible st1) -> remove_one E1 no_files dd1 sc1 b A1 st1 x score bt = (st1, Err EOS).
Proof. exact empty_dir. Qed.

(** Feed gases are tried, which ends the reduction. *)
Theorem C85_feed_gas_refuted : exists b st s1 st' n, r_init A1 g0 fs0 = (s1, Ok st) /\
  In "Ar"%string (map fst (gp_feeds par0)) /\ In "Ar"%string (r_eligible st) /\
  b 1%nat = SRaise EEquationsConsistency None /\
  run_reduction E1 no_files dd1 sc1 b A1 n st (rk ["Ar"]%string) 0 = Some (st', Err EEquationsConsistency) /\
  left_in st' = ["Ar+"; "Ar*"; "O"; "O+"]%string.
Proof. exact feed_gas. Qed.

(** With both flags a failed removal can bring back a rejected chemistry. *)
Theorem C86_mixed_flags_refuted : exists b st sa row sb row', iterated E1 no_files dd1 sc1 b A1 true g0 fs0 st /\
  remove_one E1 no_files dd1 sc1 b A1 st "O" 1 true = (sa, Ok row) /\ over_limit A1 (h_base row) /\ left_in sa = names_of c0 /\
  remove_one E1 no_files dd1 sc1 b A1 sa "Ar*" 2 false = (sb, Ok row') /\ h_success row' = Some false /\
  left_in sb = ["Ar"; "Ar+"; "Ar*"]%string.
Proof. exact mixed_flags. Qed.

(** A refused construction leaves the directory behind. *)
Theorem C87_refused_init_refuted : exists k s1, r_init k g0 fs0 = (s1, Err EReductionInit) /\
  rc_dir k = rc_dir A1 /\ (exists s st, r_init A1 g0 fs0 = (s, Ok st)) /\ exists s2, r_init A1 g0 s1 = (s2, Err EReductionInit).
Proof. exact init_blocks. Qed.

(** Going back can raise. *)
Theorem C88_restore_raises_refuted : exists b st s1 st' n, reachable E1 c8 /\ assert_consistency c8 = Ok tt /\ gm_chem g8 = Some c8 /\
  r_init A1 g8 fs0 = (s1, Ok st) /\ b 2%nat = SRaise EModelSolution None /\
  run_reduction E1 no_files dd1 sc1 b A1 n st (rk ["O"; "Ar*"]%string) 1 = Some (st', Err EChemConsistency) /\
  left_in st' = ["Ar"; "Ar+"; "Ar*"]%string.
Proof. exact adhoc_blocks. Qed.

(** All theorems of this file at once (one traversal instead of one per
    theorem). *)
Definition all_theorems := (
  @C49_removal,
  @C49_history,
  @C49_kept,
  @C49_terminates,
  @C49_run,
  @C49_static,
  @C49_eligible,
  @C81_important_removed_refuted,
  @C82_nan_undone_refuted,
  @C83_streak_refuted,
  @C84_empty_directory_refuted,
  @C85_feed_gas_refuted,
  @C86_mixed_flags_refuted,
  @C87_refused_init_refuted,
  @C88_restore_raises_refuted).
Print Assumptions all_theorems.
