(** The directories of a workspace. *)
From Coq Require Import Permutation.
From Verif Require Import Base BaseLemmas Species Reactions Chemistry MorrisStats MorrisRun Tables InitialGuess GlobalModel GlobalSpec GlobalFiles GlobalLog
  Workspace WorkspaceSpec.
Open Scope list_scope.

Lemma make_dirs_spec todo : forall s s' r, fs_ok s -> make_dirs todo s = (s', r) ->
  fs_ok s' /\ kept s s' /\ fs_files s' = fs_files s /\ (forall q, isdir s' q = true -> isdir s q = true \/ In q todo) /\
  (r = Ok tt -> forall q, In q todo -> isdir s' q = true).
Proof.
  induction todo as [|p todo IH]; intros s s' r O H; cbn [make_dirs] in H.
  - injection H as <- <-. split; [exact O|]. split; [apply kept_refl|]. split; [reflexivity|]. split; [auto|easy].
  - destruct (isdir s p) eqn:D.
    + destruct (IH s s' r O H) as (A & B & C & F & G). split; [exact A|]. split; [exact B|]. split; [exact C|]. split.
      * intros q Q. destruct (F q Q); [auto|right; now right].
      * intros X q [<-|I]; [now apply B|now apply G].
    + destruct (mkdir_inv p s) as [Z|(Z & _)].
      * rewrite Z in H. injection H as <- <-. split; [exact O|]. split; [apply kept_refl|]. split; [reflexivity|]. split; [auto|discriminate].
      * pose proof (mkdir_ok p s O) as O1. pose proof (mkdir_kept p s) as K1. rewrite Z in H, O1, K1. cbn [fst] in *.
        destruct (IH _ _ _ O1 H) as (A & B & C & F & G). split; [exact A|]. split; [eapply kept_trans; eauto|]. split; [exact C|]. split.
        -- intros q Q. destruct (F q Q) as [X|X]; [|right; now right]. rewrite isdir_cons in X. apply orb_prop in X.
           destruct X as [X|X]; [apply path_eqb_spec in X; subst q; right; now left|now left].
        -- intros X q [<-|I]; [|now apply G]. apply B. rewrite isdir_cons. now rewrite (proj2 (path_eqb_spec p p) eq_refl).
Qed.

Lemma make_dirs_there todo s : (forall q, In q todo -> isdir s q = true) -> make_dirs todo s = (s, Ok tt).
Proof.
  induction todo as [|p todo IH]; intros H; [reflexivity|]. cbn [make_dirs]. rewrite (H p (or_introl eq_refl)). apply IH.
  intros q I. apply H. now right.
Qed.

Lemma ancestors_In p q : In q (ancestors p) <-> under q p = true.
Proof.
  unfold ancestors. rewrite in_map_iff, under_iff. split.
  - intros (n & <- & _). exists (skipn n p). symmetry. apply firstn_skipn.
  - intros (r & ->). exists (List.length q). split; [|apply in_seq; rewrite app_length; lia].
    rewrite firstn_app, Nat.sub_diag, firstn_all. cbn. apply app_nil_r.
Qed.

Lemma dir_above s : fs_ok s -> forall r q, isdir s (q ++ r) = true -> isdir s q = true.
Proof.
  intros [_ O2]. induction r as [|x r IH] using rev_ind; intros q H; [now rewrite app_nil_r in H|].
  apply IH. rewrite app_assoc in H. apply O2 in H. now rewrite removelast_last in H.
Qed.
Lemma firstn_snoc (p : path) n : (n < List.length p)%nat -> exists x, firstn (S n) p = firstn n p ++ [x].
Proof.
  revert n. induction p as [|y p IH]; intros n L; cbn in L; [lia|]. destruct n as [|n]; [now exists y|].
  destruct (IH n ltac:(lia)) as (x & H). exists x. cbn [firstn app] in *. now rewrite H.
Qed.

(** Below a directory that has just been made nothing is in the way. *)
Lemma make_free s p k : fs_ok s -> isdir s (firstn k p) = true -> (forall j, (k < j)%nat -> isfile s (firstn j p) = false) ->
  (k <= List.length p)%nat ->
  snd (make_dirs (map (fun n => firstn n p) (seq (S k) (List.length p - k))) s) = Ok tt.
Proof.
  remember (List.length p - k)%nat as n eqn:N. revert s k N. induction n as [|n IH]; intros s k N O D F L; [reflexivity|].
  cbn [seq map make_dirs]. destruct (isdir s (firstn (S k) p)) eqn:D1.
  - apply IH; [lia|exact O|exact D1| |lia]. intros j Lj. apply F. lia.
  - destruct (firstn_snoc p k ltac:(lia)) as (x & X).
    pose proof (mkdir_ok (firstn (S k) p) s O) as O1.
    unfold mkdir in *. rewrite D1, (F (S k) (Nat.lt_succ_diag_r k)) in *. rewrite X, removelast_last, D in *. cbn [negb orb] in *.
    rewrite <- X in *. cbn [fst] in O1. apply IH; [lia|exact O1| | |lia].
    + rewrite isdir_cons. now rewrite (proj2 (path_eqb_spec (firstn (S k) p) _) eq_refl).
    + intros j Lj. apply F. lia.
Qed.

(** Making a directory succeeds or changes nothing. *)
Lemma make_or_not s p : fs_ok s -> isdir s [] = true ->
  snd (make_dirs (ancestors p) s) = Ok tt \/
  (make_dirs (ancestors p) s = (s, Err EOS) /\ exists q, under q p = true /\ isfile s q = true).
Proof.
  intros O R. unfold ancestors.
  assert (G : forall n k, (n = S (List.length p) - k)%nat -> (k <= S (List.length p))%nat -> (forall j, (j < k)%nat -> isdir s (firstn j p) = true) ->
    snd (make_dirs (map (fun n => firstn n p) (seq k n)) s) = Ok tt \/
    (make_dirs (map (fun n => firstn n p) (seq k n)) s = (s, Err EOS) /\ exists q, under q p = true /\ isfile s q = true)).
  { induction n as [|n IH]; intros k N L H; [now left|]. cbn [seq map make_dirs]. destruct (isdir s (firstn k p)) eqn:D.
    - apply IH; [lia|lia|]. intros j Lj. destruct (Nat.eq_dec j k) as [->|]; [exact D|apply H; lia].
    - destruct k as [|k]; [cbn in D; congruence|].
      destruct (isfile s (firstn (S k) p)) eqn:F.
      + right. unfold mkdir. rewrite D, F. cbn. split; [reflexivity|]. exists (firstn (S k) p). split; [|exact F].
        apply under_iff. exists (skipn (S k) p). symmetry. apply firstn_skipn.
      + left. destruct (firstn_snoc p k ltac:(lia)) as (x & X).
        pose proof (mkdir_ok (firstn (S k) p) s O) as O1.
        pose proof (H k ltac:(lia)) as Dk. unfold mkdir in *. rewrite D, F in *. rewrite X, removelast_last, Dk in *. cbn [negb orb] in *.
        rewrite <- X in *. cbn [fst] in O1.
        replace n with (List.length p - S k)%nat by lia. apply make_free; [exact O1| | |lia].
        * rewrite isdir_cons. now rewrite (proj2 (path_eqb_spec (firstn (S k) p) _) eq_refl).
        * intros j Lj. unfold isfile. cbn [fs_files].
          destruct (Nat.le_gt_cases j (List.length p)) as [Lp|Lp].
          -- assert (U : under (firstn (S k) p) (firstn j p) = true).
             { apply under_iff. exists (skipn (S k) (firstn j p)). rewrite <- (firstn_skipn (S k) (firstn j p)) at 1. f_equal.
               rewrite firstn_firstn. now rewrite Nat.min_l by lia. }
             rewrite (proj2 (nothing_below s _ _ O D U)); [reflexivity|]. intros EQ. apply (f_equal (@List.length string)) in EQ.
             rewrite !firstn_length in EQ. lia.
          -- rewrite firstn_all2 by lia. assert (U : under (firstn (S k) p) p = true).
             { apply under_iff. exists (skipn (S k) p). symmetry. apply firstn_skipn. }
             destruct (path_dec (firstn (S k) p) p) as [EQ|NE].
             ++ rewrite <- EQ. unfold isfile in F. destruct (fget (firstn (S k) p) (fs_files s)); [discriminate|reflexivity].
             ++ now rewrite (proj2 (nothing_below s _ _ O D U) NE). }
  apply (G (S (List.length p)) 0%nat); [lia|lia|]. intros j Lj. lia.
Qed.

(** ** Queries *)
Section W.
  Variables (E : env) (cfg : cfg_file) (to_path : string -> path).

  Lemma query_inv q s s' p : ask cfg to_path q s = (s', Ok p) ->
    exists l ws, load_config cfg = Ok l /\ sget "workspace"%string l = Some (VStr ws) /\ p = to_path ws ++ place q /\
      make_dirs (ancestors p) s = (s', Ok tt) /\
      match q with QBackend b => In (str_lower b) accepted_backends | QStage => True | _ => True end.
  Proof.
    intros H.
    assert (MP : forall r, mkdir_parents r s = (s', Ok p) -> p = r /\ make_dirs (ancestors p) s = (s', Ok tt)).
    { intros r M. unfold mkdir_parents in M. destruct (make_dirs (ancestors r) s) as [s1 [[]|e]] eqn:Z; [|discriminate].
      injection M as -> ->. auto. }
    assert (RR : forall l n, load_config cfg = Ok l -> match results_root cfg to_path with Err e => (s, Err e) | Ok r => mkdir_parents (r ++ [n]) s end = (s', Ok p) ->
      exists ws, sget "workspace"%string l = Some (VStr ws) /\ p = to_path ws ++ ["results"%string; n] /\ make_dirs (ancestors p) s = (s', Ok tt)).
    { intros l n L. unfold results_root, cfg_path, cfg_item. rewrite L. cbn [bind].
      destruct (sget "workspace"%string l) as [[ws|]|]; cbn [bind]; [|discriminate|discriminate]. intros M. apply MP in M.
      destruct M as [-> M]. exists ws. rewrite <- app_assoc in *. auto. }
    destruct q; cbn [ask place] in *.
    - unfold results_dir in H. destruct (load_config cfg) as [l|] eqn:L; [|discriminate].
      destruct (memS (str_lower backend) accepted_backends) eqn:A; [|discriminate]. cbn [negb] in H.
      destruct (RR l _ eq_refl H) as (ws & X & Y & Z). exists l, ws. apply memS_In in A. auto.
    - unfold stage_dir, cfg_path, cfg_item in H. destruct (load_config cfg) as [l|] eqn:L; [|discriminate]. cbn [bind] in H.
      destruct (sget "globalkin_bin"%string l) as [[bin|]|]; cbn [bind] in H; [|discriminate|discriminate].
      destruct (isfile s (to_path bin)); [|discriminate]. cbn [negb raise_if bind] in H.
      destruct (sget "workspace"%string l) as [[ws|]|] eqn:WS; cbn [bind] in H; [|discriminate|discriminate].
      apply MP in H. destruct H as [-> H]. exists l, ws. auto.
    - unfold morris_dir, results_sub in H. destruct (load_config cfg) as [l|] eqn:L.
      2: { unfold results_root in H. rewrite L in H. discriminate. }
      destruct (RR l _ eq_refl H) as (ws & X & Y & Z). exists l, ws. auto.
    - unfold reduction_dir, results_sub in H. destruct (load_config cfg) as [l|] eqn:L.
      2: { unfold results_root in H. rewrite L in H. discriminate. }
      destruct (RR l _ eq_refl H) as (ws & X & Y & Z). exists l, ws. auto.
  Qed.

  (** What a successful query does. *)
  Theorem query_made q s s' p : fs_ok s -> ask cfg to_path q s = (s', Ok p) ->
    isdir s' p = true /\ fs_ok s' /\ kept s s' /\ fs_files s' = fs_files s /\
    (forall d, isdir s' d = true -> isdir s d = true \/ under d p = true) /\
    exists l ws, cfg = CfgDict l /\ sget "workspace"%string l = Some (VStr ws) /\ p = to_path ws ++ place q.
  Proof.
    intros O H. apply query_inv in H. destruct H as (l & ws & L & X & Y & M & _).
    destruct (make_dirs_spec _ _ _ _ O M) as (A & B & C & D & F).
    split; [apply F; [reflexivity|]; apply ancestors_In, under_refl|]. split; [exact A|]. split; [exact B|]. split; [exact C|]. split.
    - intros d I. destruct (D d I) as [Z|Z]; [auto|]. right. now apply ancestors_In.
    - exists l, ws. split; [|auto]. destruct cfg; cbn in L; try discriminate. congruence.
  Qed.

  (** A query that raises has changed nothing. *)
  Theorem query_failed q s s' e : fs_ok s -> ask cfg to_path q s = (s', Err e) -> s' = s.
  Proof.
    intros O H.
    assert (MP : forall r, mkdir_parents r s = (s', Err e) -> s' = s).
    { intros r M. unfold mkdir_parents in M. destruct (isdir s []) eqn:R.
      - destruct (make_or_not s r O R) as [Z|(Z & _)].
        + destruct (make_dirs (ancestors r) s) as [s1 x]. cbn [snd] in Z. subst x. discriminate.
        + rewrite Z in M. now injection M as <- <-.
      - unfold ancestors in M. cbn [seq map make_dirs firstn] in M. rewrite R in M. unfold mkdir in M. cbn [removelast] in M. rewrite R in M.
        rewrite orb_true_r in M. now injection M as <- <-. }
    assert (RR : forall n, match results_root cfg to_path with Err e => (s, Err e) | Ok r => mkdir_parents (r ++ [n]) s end = (s', Err e) -> s' = s).
    { intros n M. destruct (results_root cfg to_path); [now apply MP in M|now injection M as <- <-]. }
    destruct q; cbn [ask] in H.
    - unfold results_dir in H. destruct (load_config cfg); [|now injection H as <- <-]. destruct (negb _); [now injection H as <- <-|]. now apply RR in H.
    - unfold stage_dir in H.
      match type of H with match ?x with Ok _ => _ | Err _ => _ end = _ => destruct x; [now apply MP in H|now injection H as <- <-] end.
    - now apply RR in H.
    - now apply RR in H.
  Qed.

  (** Afterwards the same directory is found, and nothing is made. *)
  Theorem query_again q q' s s1 s2 p : fs_ok s -> same_query q q' -> ask cfg to_path q s = (s1, Ok p) ->
    (forall d, isdir s1 d = true -> isdir s2 d = true) -> (forall f, isfile s1 f = true -> isfile s2 f = true) ->
    ask cfg to_path q' s2 = (s2, Ok p).
  Proof.
    intros O SQ H KD KF.
    destruct (query_made q s s1 p O H) as (D & O1 & K & F & _ & l & ws & C & WS & PE).
    assert (MD : mkdir_parents p s2 = (s2, Ok p)).
    { unfold mkdir_parents. rewrite make_dirs_there; [reflexivity|]. intros r I. apply ancestors_In, under_iff in I. destruct I as (x & I).
      apply KD. apply (dir_above s1 O1 x). rewrite <- I. exact D. }
    destruct q as [b| | |], q' as [b'| | |]; cbn [same_query] in SQ; try discriminate SQ; cbn [ask place] in *.
    - unfold results_dir in *. unfold results_root, cfg_path, cfg_item in *. rewrite C in *. cbn [load_config bind] in *. rewrite WS in *. cbn [bind] in *.
      rewrite <- SQ. destruct (negb _); [discriminate|]. rewrite PE, <- app_assoc in *. exact MD.
    - unfold stage_dir, cfg_path, cfg_item in *. rewrite C in *. cbn [load_config bind] in *.
      destruct (sget "globalkin_bin"%string l) as [[bin|]|]; cbn [bind] in *; [|discriminate|discriminate].
      destruct (isfile s (to_path bin)) eqn:B; [|discriminate]. cbn [negb raise_if bind] in *. rewrite WS in *. cbn [bind] in *.
      rewrite KF by (unfold isfile in *; now rewrite F). cbn [negb raise_if bind]. rewrite PE in *. exact MD.
    - unfold morris_dir, results_sub, results_root, cfg_path, cfg_item in *. rewrite C in *. cbn [load_config bind] in *. rewrite WS in *. cbn [bind] in *.
      rewrite PE, <- app_assoc in *. exact MD.
    - unfold reduction_dir, results_sub, results_root, cfg_path, cfg_item in *. rewrite C in *. cbn [load_config bind] in *. rewrite WS in *. cbn [bind] in *.
      rewrite PE, <- app_assoc in *. exact MD.
  Qed.

  (** Configured workspaces have their directories. *)
  Theorem query_works q s l ws : fs_ok s -> isdir s [] = true -> cfg = CfgDict l -> sget "workspace"%string l = Some (VStr ws) ->
    (forall f, under f (to_path ws ++ place q) = true -> isfile s f = false) ->
    match q with
    | QBackend b => In (str_lower b) ["pygmol"; "pygkin"]%string
    | QStage => exists bin, sget "globalkin_bin"%string l = Some (VStr bin) /\ isfile s (to_path bin) = true
    | _ => True
    end ->
    exists s', ask cfg to_path q s = (s', Ok (to_path ws ++ place q)).
  Proof.
    intros O R C WS F Q.
    assert (MD : exists s', mkdir_parents (to_path ws ++ place q) s = (s', Ok (to_path ws ++ place q))).
    { unfold mkdir_parents. destruct (make_or_not s (to_path ws ++ place q) O R) as [Z|(_ & f & U & X)].
      - destruct (make_dirs _ s) as [s1 x]. cbn [snd] in Z. subst x. now exists s1.
      - rewrite (F f U) in X. discriminate. }
    destruct q as [b| | |]; cbn [ask place] in *.
    - unfold results_dir, results_root, cfg_path, cfg_item. rewrite C. cbn [load_config bind]. rewrite WS. cbn [bind].
      assert (A : memS (str_lower b) accepted_backends = true) by (apply memS_In; exact Q). rewrite A. cbn [negb]. rewrite <- app_assoc. exact MD.
    - destruct Q as (bin & B & X). unfold stage_dir, cfg_path, cfg_item. rewrite C. cbn [load_config bind]. rewrite B. cbn [bind]. rewrite X.
      cbn [negb raise_if bind]. rewrite WS. exact MD.
    - unfold morris_dir, results_sub, results_root, cfg_path, cfg_item. rewrite C. cbn [load_config bind]. rewrite WS. cbn [bind]. rewrite <- app_assoc. exact MD.
    - unfold reduction_dir, results_sub, results_root, cfg_path, cfg_item. rewrite C. cbn [load_config bind]. rewrite WS. cbn [bind]. rewrite <- app_assoc. exact MD.
  Qed.

  (** Different directories are not nested. *)
  Theorem queries_apart q1 q2 s1 s2 s1' s2' p1 p2 :
    ask cfg to_path q1 s1 = (s1', Ok p1) -> ask cfg to_path q2 s2 = (s2', Ok p2) -> under p1 p2 = true -> same_query q1 q2 /\ p1 = p2.
  Proof.
    intros H1 H2 U. apply query_inv in H1. apply query_inv in H2.
    destruct H1 as (l & ws & L & W & P1 & _ & A1), H2 as (l' & ws' & L' & W' & P2 & _ & A2).
    rewrite L in L'. injection L' as <-. rewrite W in W'. injection W' as <-. subst p1 p2. apply under_iff in U. destruct U as (r & U).
    rewrite <- app_assoc in U. apply app_inv_head in U.
    destruct q1 as [b1| | |], q2 as [b2| | |]; cbn [place app] in U |- *; cbn [same_query]; try discriminate U; try (injection U; intros; discriminate).
    - injection U as U1 U2. destruct r; [|discriminate U2]. now rewrite U1.
    - injection U as U1 U2. rewrite <- U1 in A1. cbn in A1. destruct A1 as [X|[X|[]]]; discriminate X.
    - injection U as U1 U2. rewrite <- U1 in A1. cbn in A1. destruct A1 as [X|[X|[]]]; discriminate X.
    - auto.
    - injection U as U1 U2. rewrite U1 in A2. cbn in A2. destruct A2 as [X|[X|[]]]; discriminate X.
    - auto.
    - injection U as U1 U2. rewrite U1 in A2. cbn in A2. destruct A2 as [X|[X|[]]]; discriminate X.
    - auto.
  Qed.

  (** Why a query is refused. *)
  Theorem query_errors q s e : fs_ok s -> isdir s [] = true -> snd (ask cfg to_path q s) = Err e ->
    (e = EConfig /\ (cfg = CfgMissing \/ cfg = CfgNotDict \/ exists l, cfg = CfgDict l /\
        (sget "workspace"%string l = None \/
         q = QStage /\ (sget "globalkin_bin"%string l = None \/
           exists bin, sget "globalkin_bin"%string l = Some (VStr bin) /\ isfile s (to_path bin) = false)))) \/
    (e = EYaml /\ cfg = CfgNotYaml) \/
    (e = EType /\ exists l, cfg = CfgDict l /\ (sget "workspace"%string l = Some VOther \/ q = QStage /\ sget "globalkin_bin"%string l = Some VOther)) \/
    (e = EGlobalModelAttr /\ exists b, q = QBackend b /\ ~ In (str_lower b) ["pygmol"; "pygkin"]%string) \/
    (e = EOS /\ exists l ws f, cfg = CfgDict l /\ sget "workspace"%string l = Some (VStr ws) /\ under f (to_path ws ++ place q) = true /\ isfile s f = true).
  Proof.
    intros O R H.
    destruct cfg as [| | |l] eqn:C.
    { left. split; [destruct q; cbn in H; congruence|auto]. }
    { right. left. split; [destruct q; cbn in H; congruence|auto]. }
    { left. split; [destruct q; cbn in H; congruence|auto]. }
    assert (MP : forall ws, sget "workspace"%string l = Some (VStr ws) -> snd (mkdir_parents (to_path ws ++ place q) s) = Err e ->
      e = EOS /\ exists l' ws f, CfgDict l = CfgDict l' /\ sget "workspace"%string l' = Some (VStr ws) /\ under f (to_path ws ++ place q) = true /\ isfile s f = true).
    { intros ws W M. unfold mkdir_parents in M. destruct (make_or_not s (to_path ws ++ place q) O R) as [Z|(Z & f & U & F)].
      - destruct (make_dirs (ancestors (to_path ws ++ place q)) s) as [s1 x]. cbn [snd] in Z. subst x. discriminate.
      - rewrite Z in M. cbn [snd] in M. split; [congruence|]. exists l, ws, f. auto. }
    assert (RR : forall n, place q = ["results"%string; n] -> snd match results_root (CfgDict l) to_path with Err e => (s, Err e) | Ok r => mkdir_parents (r ++ [n]) s end = Err e ->
      (e = EConfig /\ sget "workspace"%string l = None) \/ (e = EType /\ sget "workspace"%string l = Some VOther) \/
      (e = EOS /\ exists l' ws f, CfgDict l = CfgDict l' /\ sget "workspace"%string l' = Some (VStr ws) /\ under f (to_path ws ++ place q) = true /\ isfile s f = true)).
    { intros n PL. unfold results_root, cfg_path, cfg_item. cbn [load_config bind].
      destruct (sget "workspace"%string l) as [[ws|]|] eqn:W; cbn [bind snd]; intros M.
      - right. right. apply (MP ws); [reflexivity|]. rewrite PL. rewrite <- app_assoc in M. exact M.
      - right. left. split; [congruence|reflexivity].
      - left. split; [congruence|reflexivity]. }
    assert (Done : (e = EConfig /\ sget "workspace"%string l = None) \/ (e = EType /\ sget "workspace"%string l = Some VOther) \/
      (e = EOS /\ exists l' ws f, CfgDict l = CfgDict l' /\ sget "workspace"%string l' = Some (VStr ws) /\ under f (to_path ws ++ place q) = true /\ isfile s f = true) ->
      (e = EConfig /\ (CfgDict l = CfgMissing \/ CfgDict l = CfgNotDict \/ exists l', CfgDict l = CfgDict l' /\
        (sget "workspace"%string l' = None \/
         q = QStage /\ (sget "globalkin_bin"%string l' = None \/
           exists bin, sget "globalkin_bin"%string l' = Some (VStr bin) /\ isfile s (to_path bin) = false)))) \/
      (e = EYaml /\ CfgDict l = CfgNotYaml) \/
      (e = EType /\ exists l', CfgDict l = CfgDict l' /\ (sget "workspace"%string l' = Some VOther \/ q = QStage /\ sget "globalkin_bin"%string l' = Some VOther)) \/
      (e = EGlobalModelAttr /\ exists b, q = QBackend b /\ ~ In (str_lower b) ["pygmol"; "pygkin"]%string) \/
      (e = EOS /\ exists l' ws f, CfgDict l = CfgDict l' /\ sget "workspace"%string l' = Some (VStr ws) /\ under f (to_path ws ++ place q) = true /\ isfile s f = true)).
    { intros [(A & B)|[(A & B)|(A & B)]].
      - left. split; [exact A|]. right. right. exists l. auto.
      - right. right. left. split; [exact A|]. exists l. auto.
      - do 4 right. auto. }
    destruct q as [b| | |]; cbn [ask] in H.
    - unfold results_dir in H. cbn [load_config] in H. destruct (memS (str_lower b) accepted_backends) eqn:A; cbn [negb] in H.
      + apply Done, (RR (str_lower b)); [reflexivity|exact H].
      + do 3 right. left. cbn [snd] in H. split; [congruence|]. exists b. split; [reflexivity|].
        intros I. apply memS_In in I. change accepted_backends with ["pygmol"; "pygkin"]%string in A. congruence.
    - unfold stage_dir, cfg_path, cfg_item in H. cbn [load_config bind] in H.
      destruct (sget "globalkin_bin"%string l) as [[bin|]|] eqn:B; cbn [bind] in H.
      + destruct (isfile s (to_path bin)) eqn:F; cbn [negb raise_if bind] in H.
        * destruct (sget "workspace"%string l) as [[ws|]|] eqn:W; cbn [bind snd] in H.
          -- apply Done. right. right. apply (MP ws eq_refl). exact H.
          -- apply Done. right. left. split; [congruence|reflexivity].
          -- apply Done. left. split; [congruence|reflexivity].
        * left. cbn [snd] in H. split; [congruence|]. right. right. exists l. split; [reflexivity|]. right. split; [reflexivity|]. right. exists bin. rewrite B. auto.
      + right. right. left. cbn [snd] in H. split; [congruence|]. exists l. rewrite B. auto.
      + left. cbn [snd] in H. split; [congruence|]. right. right. exists l. split; [reflexivity|]. right. auto.
    - unfold morris_dir, results_sub in H. apply Done, (RR "morris_sensitivity"%string); [reflexivity|exact H].
    - unfold reduction_dir, results_sub in H. apply Done, (RR "reduction"%string); [reflexivity|exact H].
  Qed.
End W.

(** The same without [under]. *)
Section Plain.
  Variables (cfg : cfg_file) (to_path : string -> path).
  Theorem query_made_plain q s s' p : fs_ok s -> ask cfg to_path q s = (s', Ok p) ->
    isdir s' p = true /\ fs_ok s' /\ kept s s' /\ fs_files s' = fs_files s /\
    (forall d, isdir s' d = true -> isdir s d = true \/ exists r, p = d ++ r) /\
    exists l ws, cfg = CfgDict l /\ aget String.eqb "workspace"%string l = Some (VStr ws) /\ p = to_path ws ++ place q.
  Proof.
    intros O H. destruct (query_made cfg to_path q s s' p O H) as (A & B & C & D & F & G). do 4 (split; [assumption|]). split; [|exact G].
    intros d I. destruct (F d I) as [Z|Z]; [auto|]. right. apply under_iff in Z. exact Z.
  Qed.
  Theorem query_works_plain q s l ws :
    fs_ok s -> isdir s [] = true -> cfg = CfgDict l -> aget String.eqb "workspace"%string l = Some (VStr ws) ->
    (forall f r, to_path ws ++ place q = f ++ r -> isfile s f = false) ->
    match q with
    | QBackend b => In (str_lower b) ["pygmol"; "pygkin"]%string
    | QStage => exists bin, aget String.eqb "globalkin_bin"%string l = Some (VStr bin) /\ isfile s (to_path bin) = true
    | _ => True
    end ->
    exists s', ask cfg to_path q s = (s', Ok (to_path ws ++ place q)).
  Proof.
    intros O R C W F Q. apply (query_works cfg to_path q s l ws O R C W); [|exact Q].
    intros f U. apply under_iff in U. destruct U as (r & U). exact (F f r U).
  Qed.
  Theorem queries_apart_plain q1 q2 s1 s2 s1' s2' p1 p2 r :
    ask cfg to_path q1 s1 = (s1', Ok p1) -> ask cfg to_path q2 s2 = (s2', Ok p2) -> p2 = p1 ++ r -> same_query q1 q2 /\ r = [].
  Proof.
    intros H1 H2 U. destruct (queries_apart cfg to_path q1 q2 s1 s2 s1' s2' p1 p2 H1 H2) as [A B].
    - apply under_iff. now exists r.
    - split; [exact A|]. rewrite <- B in U. rewrite <- (app_nil_r p1) in U at 1. apply app_inv_head in U. now symmetry.
  Qed.
  Theorem query_errors_plain q s e : fs_ok s -> isdir s [] = true -> snd (ask cfg to_path q s) = Err e ->
    (e = EConfig /\ (cfg = CfgMissing \/ cfg = CfgNotDict \/ exists l, cfg = CfgDict l /\
        (aget String.eqb "workspace"%string l = None \/
         q = QStage /\ (aget String.eqb "globalkin_bin"%string l = None \/
           exists bin, aget String.eqb "globalkin_bin"%string l = Some (VStr bin) /\ isfile s (to_path bin) = false)))) \/
    (e = EYaml /\ cfg = CfgNotYaml) \/
    (e = EType /\ exists l, cfg = CfgDict l /\ (aget String.eqb "workspace"%string l = Some VOther \/
                                                q = QStage /\ aget String.eqb "globalkin_bin"%string l = Some VOther)) \/
    (e = EGlobalModelAttr /\ exists b, q = QBackend b /\ ~ In (str_lower b) ["pygmol"; "pygkin"]%string) \/
    (e = EOS /\ exists l ws f r, cfg = CfgDict l /\ aget String.eqb "workspace"%string l = Some (VStr ws) /\ to_path ws ++ place q = f ++ r /\ isfile s f = true).
  Proof.
    intros O R H. destruct (query_errors cfg to_path q s e O R H) as [A|[A|[A|[A|(A & l & ws & f & B & C & D & F)]]]]; auto.
    do 4 right. split; [exact A|]. apply under_iff in D. destruct D as (r & D). exists l, ws, f, r. auto.
  Qed.
End Plain.
