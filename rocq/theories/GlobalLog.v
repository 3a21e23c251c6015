(** Logging: what a finished, failed or interrupted [log_results] leaves. *)
From Coq Require Import Permutation.
From Verif Require Import Base BaseLemmas Species Reactions Chemistry MorrisStats Tables InitialGuess GlobalModel GlobalSpec GlobalFiles.
Open Scope list_scope.

Definition write_all (p : path) (files : list (string * content)) (l : list (path * content)) : list (path * content) :=
  fold_left (fun l nc => fset (p ++ [fst nc]) (snd nc) (fset (p ++ [fst nc]) CEmpty l)) files l.

Lemma write_all_other p files : forall l q, (forall n, In n (map fst files) -> q <> p ++ [n]) -> fget q (write_all p files l) = fget q l.
Proof.
  induction files as [|[n c] files IH]; intros l q H; [reflexivity|].
  change (fget q (write_all p files (fset (p ++ [n]) c (fset (p ++ [n]) CEmpty l))) = fget q l).
  rewrite IH by (intros; apply H; now right). rewrite !fget_other by (apply H; now left). reflexivity.
Qed.

Lemma snoc_inj {A} (p : list A) x y : p ++ [x] = p ++ [y] -> x = y.
Proof. intros H. apply app_inj_tail in H. tauto. Qed.

Lemma write_all_get p files : NoDup (map fst files) -> forall l n c, In (n, c) files -> fget (p ++ [n]) (write_all p files l) = Some c.
Proof.
  induction files as [|[m d] files IH]; intros N l n c H; [easy|]. inversion N as [|? ? N1 N2]; subst.
  change (fget (p ++ [n]) (write_all p files (fset (p ++ [m]) d (fset (p ++ [m]) CEmpty l))) = Some c). destruct H as [H|H].
  - injection H as -> ->.
    rewrite write_all_other; [apply fget_same|]. intros k Hk X. apply snoc_inj in X. subst k. contradiction.
  - now apply IH.
Qed.

Lemma fget_filter (f : path -> bool) q (l : list (path * content)) :
  fget q (filter (fun x => f (fst x)) l) = if f q then fget q l else None.
Proof.
  induction l as [|[r c] l IH]; cbn [filter aget fst]; [now destruct (f q)|].
  destruct (path_eqb q r) eqn:Q.
  - apply path_eqb_spec in Q. subst r. destruct (f q) eqn:F; [|exact IH]. cbn [aget]. now rewrite (proj2 (path_eqb_spec q q) eq_refl).
  - destruct (f r); [cbn [aget]; rewrite Q|]; exact IH.
Qed.

Lemma isdir_filter (f : path -> bool) q s fl : isdir (MkGfs (filter f (fs_dirs s)) fl) q = f q && isdir s q.
Proof.
  apply eq_true_iff_eq. rewrite isdir_In. cbn [fs_dirs]. rewrite filter_In, andb_true_iff, isdir_In. tauto.
Qed.

Lemma rm_files_exec l : forall b s, exists s' o, exec b (map rm_file l) s = (s', o) /\ (o = Finished \/ o = Crashed) /\
  fs_dirs s' = fs_dirs s /\
  (o = Finished -> forall q, fget q (fs_files s') = if existsb (path_eqb q) l then None else fget q (fs_files s)) /\
  (forall q, existsb (path_eqb q) l = false -> fget q (fs_files s') = fget q (fs_files s)) /\
  (forall q c, fget q (fs_files s') = Some c -> fget q (fs_files s) = Some c).
Proof.
  induction l as [|p l IH]; intros b s; cbn [map exec existsb].
  - exists s, Finished. repeat split; auto.
  - destruct b as [[|b]|]; [exists s, Crashed; repeat split; auto; discriminate| |].
    all: unfold rm_file at 1.
    1: destruct (IH (option_map pred (Some (S b))) (MkGfs (fs_dirs s) (filter (fun q => negb (path_eqb p (fst q))) (fs_files s))))
         as (s' & o & A & B & C & D & F & W).
    2: destruct (IH (option_map pred None) (MkGfs (fs_dirs s) (filter (fun q => negb (path_eqb p (fst q))) (fs_files s))))
         as (s' & o & A & B & C & D & F & W).
    all: exists s', o; split; [exact A|]; split; [exact B|]; split; [exact C|]; cbn [fs_files] in D, F, W.
    all: assert (SY : forall q, path_eqb p q = path_eqb q p) by (intros q; apply eq_true_iff_eq; rewrite !path_eqb_spec; split; congruence).
    all: split; [intros X q|split; [intros q|intros q c X]].
    1,4: rewrite (D X q), (fget_filter (fun q => negb (path_eqb p q))); rewrite SY; destruct (path_eqb q p), (existsb (path_eqb q) l); reflexivity.
    1,3: intros Z; apply orb_false_iff in Z; destruct Z as [Z1 Z2]; rewrite (F q Z2), (fget_filter (fun q => negb (path_eqb p q))), SY, Z1; reflexivity.
    all: apply W in X; rewrite (fget_filter (fun q => negb (path_eqb p q))) in X; destruct (negb (path_eqb p q)); [exact X|discriminate].
Qed.

Lemma rm_dirs_ok p s : fs_ok s -> (forall q c, fget q (fs_files s) = Some c -> under p q = false) -> fs_ok (fst (rm_dirs p s)).
Proof.
  intros [O1 O2] N. unfold rm_dirs. cbn [fst].
  assert (U : forall q, under p q = false -> under p (removelast q) = false).
  { intros q H. destruct (under p (removelast q)) eqn:X; [|reflexivity]. apply under_iff in X. destruct X as (r & X).
    destruct q as [|x q]; [cbn in X; symmetry in X; apply app_eq_nil in X; destruct X as [-> _]; cbn in H; discriminate|].
    rewrite (app_removelast_last x (l := x :: q)) in H by discriminate. rewrite X, <- app_assoc, under_app in H. discriminate. }
  split.
  - intros q c. cbn [fs_files]. intros H. rewrite !isdir_filter. destruct (O1 q c H) as [A B]. rewrite A, B, andb_false_r.
    rewrite (U q (N q c H)). auto.
  - intros q. rewrite !isdir_filter. intros H. apply andb_prop in H. destruct H as [H1 H2]. rewrite (O2 q H2).
    rewrite U; [reflexivity|]. now apply negb_true_iff.
Qed.

Lemma fs_ok_fewer s s' : fs_ok s -> fs_dirs s' = fs_dirs s -> (forall q c, fget q (fs_files s') = Some c -> fget q (fs_files s) = Some c) -> fs_ok s'.
Proof.
  intros [O1 O2] D F. assert (I : forall q, isdir s' q = isdir s q) by (intros q; unfold isdir; now rewrite D). split.
  - intros q c H. rewrite !I. eauto.
  - intros q. rewrite !I. apply O2.
Qed.

Lemma names_NoDup t a p te i : NoDup (map fst (log_files_of t a p te i)).
Proof. cbn. repeat (constructor; [cbn; intuition discriminate|]). constructor. Qed.

Section G.
  Variables (E : env) (fhash : string -> option string) (scan : list path -> list path).
  Hypothesis scan_perm : forall l, Permutation (scan l) l.

  Lemma log_files_done b m te i p d s s' :
    exec b (log_files E fhash m te i p d) s = (s', Finished) ->
    exists a, chemistry_attributes E fhash (bm_chem m) = Ok a /\ isdir s p = true /\
      s' = MkGfs (fs_dirs s) (write_all p (log_files_of d a (bm_par m) te i) (fs_files s)).
  Proof.
    unfold log_files. rewrite <- (app_nil_r (act_file p "solver_log" _)). intros H.
    apply (act_file_done b p "solution" "solution.csv") in H; [|reflexivity]. destruct H as (c1 & b1 & X1 & D & _ & H). injection X1 as <-.
    apply (act_file_done b1 p "rates" "rates.csv") in H; [|reflexivity]. destruct H as (c1 & b2 & X1 & _ & _ & H). injection X1 as <-.
    apply (act_file_done b2 p "wall_fluxes" "wall_fluxes.csv") in H; [|reflexivity]. destruct H as (c1 & b3 & X1 & _ & _ & H). injection X1 as <-.
    apply (act_file_done b3 p "chemistry_attributes" "chemistry_attributes.yaml") in H; [|reflexivity]. destruct H as (c1 & b4 & X1 & _ & _ & H).
    destruct (chemistry_attributes E fhash (bm_chem m)) as [a|]; [|discriminate]. cbn [bind] in X1. injection X1 as <-.
    apply (act_file_done b4 p "model_attributes" "model_attributes.yaml") in H; [|reflexivity]. destruct H as (c1 & b5 & X1 & _ & _ & H). injection X1 as <-.
    apply (act_file_done b5 p "solver_log" "solver_log.yaml") in H; [|reflexivity]. destruct H as (c1 & b6 & X1 & _ & _ & H). injection X1 as <-.
    cbn [exec] in H. injection H as <-. exists a. auto.
  Qed.

  (** *** Removing a tree *)
  Lemma rmtree_exec b p s : fs_ok s -> exists s' o, exec b (rmtree scan p s) s = (s', o) /\ (o = Finished \/ o = Crashed) /\
    same_outside p s s' /\ fs_ok s' /\ (forall q c, fget q (fs_files s') = Some c -> fget q (fs_files s) = Some c) /\
    (o = Finished -> forall q, under p q = true -> isdir s' q = false /\ fget q (fs_files s') = None).
  Proof.
    intros O. set (l := scan (filter (under p) (map fst (fs_files s)))).
    assert (Hl : forall q, existsb (path_eqb q) l = true <-> under p q = true /\ In q (map fst (fs_files s))).
    { intros q. rewrite existsb_exists. split.
      - intros (r & I & Q). apply path_eqb_spec in Q. subst r.
        apply (Permutation_in _ (scan_perm _)) in I. apply filter_In in I. tauto.
      - intros I. exists q. split; [|now apply path_eqb_spec]. apply (Permutation_in _ (Permutation_sym (scan_perm _))), filter_In. tauto. }
    assert (Gl : forall q, under p q = false -> existsb (path_eqb q) l = false).
    { intros q U. destruct (existsb (path_eqb q) l) eqn:X; [|reflexivity]. apply Hl in X. destruct X. congruence. }
    unfold rmtree. fold l. rewrite exec_app.
    destruct (rm_files_exec l b s) as (s1 & o1 & X & OC & D & F1 & F2 & Few). rewrite X.
    assert (ID : forall q, isdir s1 q = isdir s q) by (intros q; unfold isdir; now rewrite D).
    assert (O1 : fs_ok s1) by (now apply (fs_ok_fewer s)).
    assert (SO : same_outside p s s1) by (intros q U; split; [apply ID|now apply F2, Gl]).
    destruct OC as [->| ->].
    2: { exists s1, Crashed. split; [reflexivity|]. split; [now right|]. split; [exact SO|]. split; [exact O1|]. split; [exact Few|discriminate]. }
    match goal with |- context [exec ?x [rm_dirs p] s1] => generalize x end. intros b2. cbn [exec]. destruct b2 as [[|b']|].
    { exists s1, Crashed. split; [reflexivity|]. split; [now right|]. split; [exact SO|]. split; [exact O1|]. split; [exact Few|discriminate]. }
    all: unfold rm_dirs; exists (MkGfs (filter (fun q => negb (under p q)) (fs_dirs s1)) (fs_files s1)), Finished; split; [reflexivity|]; split; [now left|].
    all: assert (NF : forall q, under p q = true -> fget q (fs_files s1) = None).
    1,3: intros q U; rewrite (F1 eq_refl q); destruct (existsb (path_eqb q) l) eqn:Z; [reflexivity|];
      apply (aget_None path_eqb path_eqb_spec); intros I; assert (existsb (path_eqb q) l = true) by (apply Hl; split; [exact U|exact I]); congruence.
    all: split; [intros q U; rewrite isdir_filter, U; cbn [negb andb fs_files]; now apply SO|].
    all: split; [apply (rm_dirs_ok p s1 O1); intros q c H; destruct (under p q) eqn:U; [|reflexivity]; rewrite (NF q U) in H; discriminate|].
    all: split; [exact Few|]; intros _ q U; rewrite isdir_filter, U; split; [reflexivity|now apply NF].
  Qed.
  (** *** [log_results] *)
  Lemma log_cases b g id dir te i ow co s s' o :
    log_results E fhash scan b g id dir te i ow co s = (s', o) ->
    (s' = s /\ exists e, o = Failed e /\
       (assert_success g = Err e \/ isdir s dir = false /\ e = EGlobalModelLog \/
        isdir s (run_path dir id) = true /\ ow = false /\ e = EGlobalModelLog \/ gm_model g = None)) \/
    (assert_success g = Ok tt /\ isdir s dir = true /\ (isdir s (run_path dir id) = true -> ow = true) /\
     exists rest, exec b (((if isdir s (run_path dir id) then rmtree scan (run_path dir id) s else []) ++ [mkdir (run_path dir id)]) ++ rest) s = (s', o) /\
       ((exists m t, gm_model g = Some m /\ log_tables E co g = Ok t /\ rest = log_files E fhash m te i (run_path dir id) t) \/
        (exists e, log_tables E co g = Err e /\ rest = [fun s => (s, Err e)]))).
  Proof using.
    unfold log_results. destruct (assert_success g) as [[]|e] eqn:A.
    2: { intros H. injection H as <- <-. left. split; [reflexivity|]. exists e. auto. }
    cbv zeta. destruct (isdir s dir) eqn:D; cbn [negb].
    2: { intros H. injection H as <- <-. left. split; [reflexivity|]. eexists. split; [reflexivity|]. auto. }
    destruct (isdir s (run_path dir id)) eqn:P; cbn [andb].
    - destruct ow; cbn [negb].
      2: { intros H. injection H as <- <-. left. split; [reflexivity|]. eexists. split; [reflexivity|]. right. right. left. auto. }
      destruct (gm_model g) as [m|] eqn:M; destruct (log_tables E co g) as [t|e] eqn:T; intros H.
      3: { injection H as <- <-. left. split; [reflexivity|]. eexists. split; [reflexivity|]. auto. }
      all: right; split; [reflexivity|]; split; [reflexivity|]; split; [auto|]; eexists; split; [exact H|].
      + left. exists m, t. auto.
      + right. exists e. auto.
      + right. exists e. auto.
    - destruct (gm_model g) as [m|] eqn:M; destruct (log_tables E co g) as [t|e] eqn:T; intros H.
      3: { injection H as <- <-. left. split; [reflexivity|]. eexists. split; [reflexivity|]. auto. }
      all: right; split; [reflexivity|]; split; [reflexivity|]; split; [discriminate|]; eexists; split; [exact H|].
      + left. exists m, t. auto.
      + right. exists e. auto.
      + right. exists e. auto.
  Qed.

  Lemma rest_writes p rest co g te i :
    ((exists m t, gm_model g = Some m /\ log_tables E co g = Ok t /\ rest = log_files E fhash m te i p t) \/
        (exists e, log_tables E co g = Err e /\ rest = [fun s => (s, Err e)])) -> forall a, In a rest -> writes p a.
  Proof using.
    intros [(m & t & _ & _ & ->)|(e & _ & ->)] a I; [now apply (log_files_writes E fhash m te i p t)|].
    destruct I as [<-|[]]. apply fail_writes.
  Qed.

  Lemma existing_refused b g id dir te i co s : assert_success g = Ok tt -> isdir s (run_path dir id) = true -> isdir s dir = true ->
    log_results E fhash scan b g id dir te i false co s = (s, Failed EGlobalModelLog).
  Proof using. intros A P D. unfold log_results. rewrite A. cbv zeta. now rewrite D, P. Qed.

  (** Without [overwrite] nothing existing is touched. *)
  Lemma log_kept b g id dir te i co s : fs_ok s ->
    fs_ok (fst (log_results E fhash scan b g id dir te i false co s)) /\ kept s (fst (log_results E fhash scan b g id dir te i false co s)).
  Proof using.
    intros O. destruct (log_results E fhash scan b g id dir te i false co s) as [s' o] eqn:L. cbn [fst].
    apply log_cases in L. destruct L as [(-> & _)|(_ & _ & P & rest & L & R)]; [split; [exact O|apply kept_refl]|].
    destruct (isdir s (run_path dir id)) eqn:D; [discriminate (P eq_refl)|].
    pose proof (fresh_log b (run_path dir id) rest s O D (rest_writes _ _ _ _ _ _ R)) as X.
    change (exec b (mkdir (run_path dir id) :: rest) s = (s', o)) in L. rewrite L in X. exact X.
  Qed.

  Lemma writes_outside p a s0 s : writes p a -> same_outside p s0 s -> same_outside p s0 (fst (a s)).
  Proof using.
    intros W K. destruct (W s) as [(e & ->)|(n & c & ->)]; [exact K|].
    destruct (put_inv (p ++ [n]) c s) as [->|(-> & _ & _)]; [exact K|]. cbn [fst]. intros q U. rewrite isdir_files. cbn [fs_files].
    rewrite fget_other; [now apply K|]. intros ->. rewrite under_app in U. discriminate.
  Qed.
  Lemma mkdir_outside p s0 s : same_outside p s0 s -> same_outside p s0 (fst (mkdir p s)).
  Proof using.
    intros K. destruct (mkdir_inv p s) as [->|(-> & _)]; [exact K|]. cbn [fst]. intros q U. rewrite isdir_cons. cbn [fs_files].
    destruct (path_eqb q p) eqn:Q; [|now apply K]. apply path_eqb_spec in Q. subst q. rewrite under_refl in U. discriminate.
  Qed.

  (** Whatever happens, only the run's own directory is touched. *)
  Lemma log_outside b g id dir te i ow co s : fs_ok s ->
    fs_ok (fst (log_results E fhash scan b g id dir te i ow co s)) /\
    same_outside (run_path dir id) s (fst (log_results E fhash scan b g id dir te i ow co s)).
  Proof.
    intros O. destruct (log_results E fhash scan b g id dir te i ow co s) as [s' o] eqn:L. cbn [fst].
    apply log_cases in L. destruct L as [(-> & _)|(_ & _ & P & rest & L & R)]; [split; [exact O|intros q _; auto]|].
    set (p := run_path dir id) in *. pose proof (rest_writes p rest co g te i R) as W.
    assert (I : forall b s1, fs_ok s1 -> same_outside p s s1 ->
              fs_ok (fst (exec b (mkdir p :: rest) s1)) /\ same_outside p s (fst (exec b (mkdir p :: rest) s1))).
    { intros b1 s1 O1 S1. apply (exec_inv (fun s' => fs_ok s' /\ same_outside p s s')); [|auto].
      intros a s2 [<-|Ia] [O2 S2]; [split; [now apply mkdir_ok|now apply mkdir_outside]|].
      split; [apply (writes_ok p); auto|apply (writes_outside p); auto]. }
    rewrite <- app_assoc in L. cbn [app] in L. rewrite exec_app in L. destruct (isdir s p) eqn:D.
    - destruct (rmtree_exec b p s O) as (s1 & o1 & X & OC & S1 & O1 & _ & _). rewrite X in L. destruct OC as [->| ->].
      + change s' with (fst (s', o)). rewrite <- L. apply I; assumption.
      + injection L as <- <-. auto.
    - cbn [exec] in L.
      change s' with (fst (s', o)). rewrite <- L. apply I; [exact O|]. intros q _. auto.
  Qed.

  (** A finished log holds exactly the six files of this run. *)
  Lemma log_done b g id dir te i ow co s s' : fs_ok s ->
    log_results E fhash scan b g id dir te i ow co s = (s', Finished) ->
    exists m t a, gm_model g = Some m /\ gm_last g = Some true /\ log_tables E co g = Ok t /\ chemistry_attributes E fhash (bm_chem m) = Ok a /\
      (isdir s (run_path dir id) = true -> ow = true) /\ isdir s' (run_path dir id) = true /\
      forall q c, under (run_path dir id) q = true ->
        (fget q (fs_files s') = Some c <-> exists n, q = run_path dir id ++ [n] /\ In (n, c) (log_files_of t a (bm_par m) te i)).
  Proof.
    intros O L. pose proof L as L0. apply log_cases in L. destruct L as [(_ & e & X & _)|(A & _ & P & rest & L & R)]; [discriminate|].
    set (p := run_path dir id) in *. rewrite <- app_assoc in L. rewrite exec_app in L.
    assert (G : exists s1 b1, fs_ok s1 /\ (forall q, under p q = true -> fget q (fs_files s1) = None \/ q = p) /\ exec b1 (mkdir p :: rest) s1 = (s', Finished)).
    { destruct (isdir s p) eqn:D.
      - destruct (rmtree_exec b p s O) as (s1 & o1 & X & OC & S1 & O1 & _ & N). rewrite X in L. destruct OC as [->| ->]; [|discriminate].
        eexists s1, _. split; [exact O1|]. split; [|exact L]. intros q U. left. now apply N.
      - cbn [exec] in L. eexists s, _. split; [exact O|]. split; [|exact L]. intros q U.
        destruct (path_dec p q) as [->|Ne]; [now right|]. left. now apply (nothing_below s p q O D U). }
    destruct G as (s1 & b1 & O1 & N & G). clear L.
    assert (G2 : exists b2, isdir s1 p = false /\ isfile s1 p = false /\ exec b2 rest (MkGfs (p :: fs_dirs s1) (fs_files s1)) = (s', Finished)).
    { cbn [exec] in G. destruct b1 as [[|b1]|]; [discriminate| |].
      all: destruct (mkdir_inv p s1) as [X|(X & Y & Z & _)]; rewrite X in G; [discriminate|]; eexists; split; [exact Y|]; split; [exact Z|exact G]. }
    destruct G2 as (b2 & D1 & F1 & G2).
    destruct R as [(m & t & M & T & ->)|(e & _ & ->)].
    2: { cbn [exec] in G2. destruct b2 as [[|b2]|]; discriminate. }
    apply log_files_done in G2. destruct G2 as (a & CA & D2 & ->).
    exists m, t, a. split; [exact M|]. split.
    { unfold assert_success, success in A. destruct (gm_last g) as [[|]|]; [reflexivity|discriminate|discriminate]. }
    split; [exact T|]. split; [exact CA|]. split; [exact P|]. split; [exact D2|].
    intros q c U. cbn [fs_files]. split.
    - intros H. destruct (in_dec path_dec q (map (fun n => p ++ [n]) log_file_names)) as [I|I].
      + apply in_map_iff in I. destruct I as (n & <- & I). exists n. split; [reflexivity|].
        assert (I2 : In n (map fst (log_files_of t a (bm_par m) te i))) by exact I.
        apply in_map_iff in I2. destruct I2 as ([n' c'] & Y & I2). cbn [fst] in Y. subst n'.
        rewrite (write_all_get p _ (names_NoDup _ _ _ _ _) _ n c' I2) in H.
        injection H as ->. exact I2.
      + rewrite write_all_other in H.
        2: { intros n In ->. apply I. apply in_map_iff. exists n. auto. }
        destruct (N q U) as [X| ->]; [congruence|]. unfold isfile in F1. rewrite H in F1. discriminate.
    - intros (n & -> & I). apply write_all_get; [apply names_NoDup|exact I].
  Qed.
End G.
