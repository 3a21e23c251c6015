(** Proofs about a Morris run: success, blocked trajectories, coherence. *)
From Verif Require Import Base BaseLemmas MorrisRun MorrisRunSpec MorrisRunProofs.

Section Proofs.
  Context {cfg : Type} (same : cfg -> cfg -> bool).
  Implicit Types (s : mfs cfg) (k : call cfg).

  Lemma actions_eq k id : actions same k id =
    act_prepare id :: act_coherence same (k_cfg k) (k_type k) (k_backend k) ::
    logs k id (k_base k :: k_steps k) ++ tail k id.
  Proof. reflexivity. Qed.

  (** ** A trajectory that nothing disturbs *)

  Definition logged k don : list (string * origin cfg) := map (fun r : string * res unit => (fst r, call_origin k)) don.

  Inductive gstage k id s : list (@action cfg) -> Prop :=
  | g_start : dir s id = None -> gstage k id s (actions same k id)
  | g_prepared : dir s id = Some (MkDir [] None) ->
      gstage k id s (act_coherence same (k_cfg k) (k_type k) (k_backend k) :: logs k id (k_base k :: k_steps k) ++ tail k id)
  | g_runs don rest : dir s id = Some (MkDir (logged k don) None) -> k_base k :: k_steps k = don ++ rest ->
      gstage k id s (logs k id rest ++ tail k id)
  | g_dump n : dir s id = Some (finished_dir k) -> gstage k id s (skipn n (dumps k)).

  Lemma gstage_dir k id s s' l : dir s' id = dir s id -> gstage k id s l -> gstage k id s' l.
  Proof.
    intros E []; [apply g_start|apply g_prepared|apply (g_runs _ _ _ don rest)|apply g_dump]; congruence || assumption.
  Qed.

  Lemma gstage_stage k id s l : gstage k id s l -> stage same k id s l.
  Proof.
    intros []; [constructor|econstructor; eassumption| |constructor].
    apply (st_runs _ _ _ _ (logged k don) don rest); [assumption|assumption|].
    intros r R. unfold logged. apply in_map_iff. now exists r.
  Qed.

  (** The check of the shared files that the call needs to pass. *)
  Definition passes k s : Prop := snd (act_coherence same (k_cfg k) (k_type k) (k_backend k) s) = Ok tt.

  Lemma gstage_step k id s a l s' r :
    sound_call k -> passes k s -> gstage k id s (a :: l) -> a s = (s', r) -> r = Ok tt /\ gstage k id s' l.
  Proof.
    intros [So Nd] Pa St A. remember (a :: l) as al eqn:Eal. destruct St as [D|D|don rest D Eq|n D].
    - rewrite actions_eq in Eal. injection Eal as <- <-. unfold act_prepare, has_meta in A. fold (dir s id) in A.
      rewrite D in A. injection A as <- <-. split; [reflexivity|]. apply g_prepared, dir_put.
    - injection Eal as <- <-. unfold passes in Pa. destruct (act_coherence _ _ _ _ s) as [s1 r1] eqn:E. cbn in Pa. subst r1.
      injection A as <- <-. split; [reflexivity|]. unfold act_coherence in E. injection E as <- _.
      exact (g_runs _ _ _ [] (k_base k :: k_steps k) D eq_refl).
    - destruct rest as [|x rest]; cbn in Eal.
      + injection Eal as <- <-. unfold act_meta in A. fold (dir s id) in A. rewrite D in A. injection A as <- <-.
        split; [reflexivity|]. apply (g_dump k id _ 0). rewrite dir_put. unfold finished_dir. rewrite app_nil_r in Eq. subst don.
        reflexivity.
      + injection Eal as <- <-. unfold act_log in A.
        assert (Ex : snd x = Ok tt). { rewrite Eq in So. apply Forall_app in So. destruct So as [_ So]. now inversion So. }
        rewrite Ex in A. fold (dir s id) in A. rewrite D in A. cbn [t_runs t_meta] in A.
        assert (F : shas (fst x) (logged k don) = false).
        { destruct (shas (fst x) (logged k don)) eqn:H; [|reflexivity]. apply (ahas_In _ Seqb_spec) in H.
          unfold akeys, logged in H. rewrite map_map in H. cbn in H. rewrite Eq, map_app in Nd. cbn in Nd.
          apply NoDup_remove_2 in Nd. destruct Nd. apply in_app_iff. now left. }
        rewrite F in A. injection A as <- <-. split; [reflexivity|]. apply (g_runs _ _ _ (don ++ [x]) rest).
        * rewrite dir_put. unfold logged. now rewrite map_app.
        * rewrite <- app_assoc. exact Eq.
    - assert (X : r = Ok tt /\ f_trajs s' = f_trajs s /\ l = skipn (S n) (dumps k)).
      { destruct n as [|[|[|n]]]; cbn in Eal; try (destruct n; discriminate); injection Eal as <- <-; cbn in A; injection A as <- <-; repeat split. }
      destruct X as (-> & X & ->). split; [reflexivity|]. apply g_dump. unfold dir in *. now rewrite X.
  Qed.

  Lemma gstage_nil k id s : gstage k id s [] -> dir s id = Some (finished_dir k).
  Proof.
    intros G. remember [] as l eqn:E. destruct G as [D|D|don rest D Eq|n D]; try discriminate.
    - destruct rest; discriminate.
    - exact D.
  Qed.

  (** The actions before the dump leave the shared files alone. *)
  Definition shared_eq s s' : Prop := f_cfg s' = f_cfg s /\ f_cfg2 s' = f_cfg2 s /\ f_meta s' = f_meta s.

  Lemma shared_refl s : shared_eq s s.
  Proof. now repeat split. Qed.

  Lemma passes_shared k s s' : shared_eq s s' -> passes k s -> passes k s'.
  Proof. intros (A & B & C). unfold passes, act_coherence, meta_dir_empty. cbn [snd]. now rewrite A, B, C. Qed.

  Definition pre k id : list (@action cfg) :=
    act_prepare id :: act_coherence same (k_cfg k) (k_type k) (k_backend k) :: logs k id (k_base k :: k_steps k)
      ++ [act_meta id (call_meta k)].

  Lemma actions_pre k id : actions same k id = pre k id ++ dumps k.
  Proof. unfold pre. cbn [app]. rewrite <- app_assoc. reflexivity. Qed.

  Lemma pre_shared k id a s : In a (pre k id) -> shared_eq s (fst (a s)).
  Proof.
    intros [<-|[<-|I]].
    - unfold act_prepare. destruct (has_meta s id); [apply shared_refl|]. destruct (sget id (f_trajs s)); now repeat split.
    - apply shared_refl.
    - apply in_app_iff in I. destruct I as [I|[<-|[]]].
      + apply in_map_iff in I. destruct I as (x & <- & _). unfold act_log. destruct (snd x) as [[]|e]; [|apply shared_refl].
        destruct (sget id (f_trajs s)) as [d|]; [|apply shared_refl]. destruct (shas _ _); now repeat split.
      + unfold act_meta. destruct (sget id (f_trajs s)); now repeat split.
  Qed.

  Lemma exec_app l1 l2 s : exec None (l1 ++ l2) s =
    match exec None l1 s with (s1, Finished) => exec None l2 s1 | x => x end.
  Proof.
    revert s. induction l1 as [|a l1 IH]; intros s; cbn [app exec]; [reflexivity|].
    destruct (a s) as [s1 [[]|e]]; cbn [option_map]; [apply IH|reflexivity].
  Qed.

  Lemma exec_shared l s s' o :
    (forall a t, In a l -> shared_eq t (fst (a t))) -> exec None l s = (s', o) -> shared_eq s s'.
  Proof.
    revert s. induction l as [|a l IH]; intros s H; cbn [exec]; [intros E; injection E as <- _; apply shared_refl|].
    pose proof (H a s (or_introl eq_refl)) as (A & B & C). destruct (a s) as [s1 [[]|e]]; cbn [option_map fst] in *.
    - intros E. destruct (IH s1 (fun b t I => H b t (or_intror I)) E) as (A' & B' & C'). repeat split; congruence.
    - intros E. injection E as <- _. now repeat split.
  Qed.

  Lemma exec_good k id : sound_call k -> forall l2 l s, passes k s -> gstage k id s (l ++ l2) ->
    (forall a t, In a l -> shared_eq t (fst (a t))) ->
    exists s', exec None l s = (s', Finished) /\ shared_eq s s' /\ gstage k id s' l2
               /\ forall i, i <> id -> dir s' i = dir s i.
  Proof.
    intros So l2. induction l as [|a l IH]; intros s Pa G Sh.
    - exists s. cbn. split; [reflexivity|]. split; [apply shared_refl|]. split; [exact G|auto].
    - cbn [app] in G. cbn [exec]. destruct (a s) as [s1 r] eqn:A. destruct (gstage_step _ _ _ _ _ _ _ So Pa G A) as [-> G'].
      destruct (stage_step same _ _ _ _ _ _ _ (gstage_stage _ _ _ _ G) A) as (_ & Fr & _).
      pose proof (Sh a s (or_introl eq_refl)) as S1. rewrite A in S1. cbn in S1.
      destruct (IH s1 (passes_shared _ _ _ S1 Pa) G' (fun b t I => Sh b t (or_intror I))) as (s' & E & S2 & G2 & Fr2).
      exists s'. cbn [option_map]. split; [exact E|]. split; [|split; [exact G2|]].
      + destruct S1 as (A1 & B1 & C1), S2 as (A2 & B2 & C2). repeat split; congruence.
      + intros i N. rewrite Fr2, Fr by exact N. reflexivity.
  Qed.

  (** A trajectory on a fresh directory whose evaluations succeed ends with
      everything written. *)
  Theorem trajectory_succeeds k s id :
    (match k_id k with Some i => Ok i | None => next_traj_id s end) = Ok id ->
    dir s id = None -> sound_call k -> passes k s ->
    exists s', run_trajectory same None k s = (s', Finished)
               /\ dir s' id = Some (finished_dir k)
               /\ (forall i, i <> id -> dir s' i = dir s i)
               /\ f_cfg s' = Some (k_cfg k) /\ f_cfg2 s' = Some (k_cfg k) /\ f_meta s' = Some (k_type k, str_lower (k_backend k)).
  Proof.
    intros Hid D So Pa. unfold run_trajectory. rewrite Hid, actions_pre, exec_app.
    destruct (exec_good k id So (dumps k) (pre k id) s Pa) as (s1 & E & Sh & G & Fr).
    - rewrite <- actions_pre. now constructor.
    - intros a t I. now apply (pre_shared k id).
    - rewrite E. cbn. eexists. split; [reflexivity|]. cbn.
      assert (X : dir s1 id = Some (finished_dir k)).
      { assert (Le : List.length (dumps k) = 3%nat) by reflexivity. clear E Fr Sh. revert Le. destruct G as [Dd|Dd|don rest Dd Eq|n Dd]; intros Le.
        - rewrite actions_pre, app_length in Le. cbn in Le. lia.
        - cbn in Le. rewrite app_length in Le. cbn in Le. lia.
        - rewrite app_length in Le. cbn in Le. lia.
        - exact Dd. }
      split; [exact X|]. split; [exact Fr|]. now repeat split.
  Qed.

  (** ** Blocked trajectories *)

  (** The next id belongs to a directory with leftovers of an unfinished
      trajectory. *)
  Definition stuck (base : string) s : Prop :=
    exists id rs, next_traj_id s = Ok id /\ dir s id = Some (MkDir rs None) /\ In base (akeys rs).

  Lemma stuck_run base b k s : stuck base s -> k_id k = None -> fst (k_base k) = base ->
    exists o, run_trajectory same b k s = (s, o) /\ o <> Finished.
  Proof.
    intros (id & rs & Nx & D & I) Hid Hb. unfold run_trajectory. rewrite Hid, Nx, actions_eq.
    assert (P : act_prepare id s = (s, Ok tt)).
    { unfold act_prepare, has_meta. unfold dir in D. now rewrite D. }
    destruct b as [[|b]|]; cbn [exec]; [exists Crashed; split; [reflexivity|discriminate]| |].
    - rewrite P. cbn [option_map pred]. destruct b as [|b]; cbn [exec]; [exists Crashed; split; [reflexivity|discriminate]|].
      unfold act_coherence at 1. destruct (if meta_dir_empty s then _ else _) as [[]|e]; [|exists (Failed e); split; [reflexivity|discriminate]].
      cbn [option_map pred logs map app exec]. destruct b as [|b]; [exists Crashed; split; [reflexivity|discriminate]|].
      unfold act_log at 1. destruct (snd (k_base k)) as [[]|e]; [|exists (Failed e); split; [reflexivity|discriminate]].
      unfold dir in D. rewrite D. cbn [t_runs]. rewrite (proj2 (ahas_In _ Seqb_spec (fst (k_base k)) rs)); [exists (Failed EOS); split; [reflexivity|discriminate]|now rewrite Hb].
    - rewrite P. cbn [option_map pred]. unfold act_coherence at 1. destruct (if meta_dir_empty s then _ else _) as [[]|e]; [|exists (Failed e); split; [reflexivity|discriminate]].
      cbn [option_map pred logs map app exec].
      unfold act_log at 1. destruct (snd (k_base k)) as [[]|e]; [|exists (Failed e); split; [reflexivity|discriminate]].
      unfold dir in D. rewrite D. cbn [t_runs]. rewrite (proj2 (ahas_In _ Seqb_spec (fst (k_base k)) rs)); [exists (Failed EOS); split; [reflexivity|discriminate]|now rewrite Hb].
  Qed.

  Theorem stuck_forever base l s : stuck base s ->
    Forall (fun bk => k_id (snd bk) = None /\ fst (k_base (snd bk)) = base) l -> run_calls same l s = s.
  Proof.
    intros St F. induction F as [|[b k] l [Hi Hb] _ IH]; [reflexivity|]. unfold run_calls in *. cbn [fold_left fst snd].
    destruct (stuck_run base b k s St Hi Hb) as (o & E & _). rewrite E. cbn. exact IH.
  Qed.

  (** A trajectory on a fresh id that stops -- killed, or an evaluation
      raised -- after its base run and before its meta file leaves the run
      stuck. *)
  Lemma exec_stops k id b : forall rest don s s' o,
    dir s id = Some (MkDir (logged k don) None) -> k_base k :: k_steps k = don ++ rest -> don <> [] ->
    exec b (logs k id rest ++ tail k id) s = (s', o) ->
    (exists rs, dir s' id = Some (MkDir rs None) /\ In (fst (k_base k)) (akeys rs)) \/ (exists tm rs, completed s' id tm rs).
  Proof.
    assert (Hb : forall don rest, k_base k :: k_steps k = don ++ rest -> don <> [] -> In (fst (k_base k)) (akeys (logged k don))).
    { intros don rest Eq N. destruct don as [|x don]; [easy|]. injection Eq as <- _. now left. }
    intros rest. revert b. induction rest as [|x rest IH]; intros b don s s' o D Eq N.
    - cbn [logs map app]. intros E.
      assert (St : stage same k id s (tail k id)).
      { apply (st_runs same k id s (logged k don) don []); [exact D|exact Eq|]. intros r R. unfold logged. apply in_map_iff. now exists r. }
      unfold tail in E. cbn [exec] in E. destruct b as [[|b]|].
      + injection E as <- _. left. eexists. split; [exact D|]. exact (Hb don [] Eq N).
      + unfold act_meta in E. fold (dir s id) in E. rewrite D in E. right.
        pose proof (exec_effect same k id (dumps k) _ _ _ _ (st_dump same k id _ 0) E) as (K & _).
        eexists. eexists. apply K. unfold completed. apply dir_put.
      + unfold act_meta in E. fold (dir s id) in E. rewrite D in E. right.
        pose proof (exec_effect same k id (dumps k) _ _ _ _ (st_dump same k id _ 0) E) as (K & _).
        eexists. eexists. apply K. unfold completed. apply dir_put.
    - cbn [logs map app exec].
      assert (C : forall b', match act_log (call_origin k) id x s with (s1, Err e) => (s1, Failed e) | (s1, Ok tt) => exec b' (logs k id rest ++ tail k id) s1 end = (s', o) ->
        (exists rs, dir s' id = Some (MkDir rs None) /\ In (fst (k_base k)) (akeys rs)) \/ (exists tm rs, completed s' id tm rs)).
      { intros b'. unfold act_log. destruct (snd x) as [[]|e].
        - fold (dir s id). rewrite D. cbn [t_runs t_meta]. destruct (shas _ _).
          + intros E. injection E as <- _. left. eexists. split; [exact D|exact (Hb _ _ Eq N)].
          + apply (IH b' (don ++ [x])).
            * rewrite dir_put. unfold logged. now rewrite map_app.
            * rewrite <- app_assoc. exact Eq.
            * now destruct don.
        - intros E. injection E as <- _. left. eexists. split; [exact D|exact (Hb _ _ Eq N)]. }
      destruct b as [[|b]|]; [|exact (C _)|exact (C _)].
      intros E. injection E as <- _. left. eexists. split; [exact D|exact (Hb _ _ Eq N)].
  Qed.

  (** The ids already done stay the same ones, so the next id does too. *)
  Lemma next_id_same s s' id :
    next_traj_id s = Ok id -> keeps_done s s' -> (forall tm rs, ~ completed s' id tm rs) -> next_traj_id s' = Ok id.
  Proof.
    intros Nx K NC. destruct (next_id_ok s id Nx) as (i & -> & B & _ & Lo).
    unfold next_traj_id. destruct (find _ _) as [j|] eqn:F.
    - destruct (next_id_ok s' (traj_name j)) as (j' & E & B' & NC' & Lo').
      { unfold next_traj_id. now rewrite F. }
      apply traj_name_inj in E. subst j'. f_equal. f_equal. destruct (lt_eq_lt_dec i j) as [[L|E]|L]; [|easy|].
      + destruct (Lo' i ltac:(lia)) as (tm & rs & C). now apply NC in C.
      + destruct (Lo j ltac:(lia)) as (tm & rs & C). apply K in C. now apply NC' in C.
    - exfalso. destruct (next_id_error s' EMorrisLog) as (_ & Al).
      { unfold next_traj_id. now rewrite F. }
      destruct (Al i B) as (tm & rs & C). now apply NC in C.
  Qed.

  Theorem unfinished_blocks b k s s' o id :
    k_id k = None -> next_traj_id s = Ok id -> dir s id = None ->
    run_trajectory same b k s = (s', o) ->
    (exists d, dir s' id = Some d /\ In (fst (k_base k)) (akeys (t_runs d))) ->
    (forall tm rs, ~ completed s' id tm rs) ->
    stuck (fst (k_base k)) s'.
  Proof.
    intros Hid Nx D R (d & D' & I) NC. exists id.
    destruct d as [rs [tm|]]; [now apply NC in D'|]. exists rs. split; [|split; [exact D'|exact I]].
    destruct (run_effect same b k s s' o R) as (K & _). exact (next_id_same s s' id Nx K NC).
  Qed.

  (** ** Coherence *)

  Section Coherence.
    Hypothesis same_refl : forall c, same c c = true.
    Hypothesis same_sym : forall c d, same c d = true -> same d c = true.
    Hypothesis same_trans : forall c d e, same c d = true -> same d e = true -> same c e = true.

    Lemma coherent_sym o1 o2 : coherent same o1 o2 -> coherent same o2 o1.
    Proof using same_sym. intros (A & B & C). repeat split; auto. Qed.
    Lemma coherent_trans o1 o2 o3 : coherent same o1 o2 -> coherent same o2 o3 -> coherent same o1 o3.
    Proof using same_trans. intros (A & B & C) (A' & B' & C'). repeat split; [exact (same_trans _ _ _ A A')|congruence|congruence]. Qed.

    (** The shared files describe the trajectories done. *)
    Definition described s : Prop :=
      (meta_dir_empty s = true /\ forall id tm rs, ~ completed s id tm rs)
      \/ exists c ty b, f_cfg s = Some c /\ f_cfg2 s = Some c /\ f_meta s = Some (ty, str_lower b)
                        /\ forall id o, produced s id o -> coherent same o (MkOrigin c ty b).

    Lemma described_coherent s : described s -> all_coherent same s.
    Proof using same_sym same_trans.
      intros [[_ N]|(c & ty & b & _ & _ & _ & P)] id1 id2 o1 o2 P1 P2.
      - destruct P1 as (tm & rs & C & _). now apply N in C.
      - apply (coherent_trans _ (MkOrigin c ty b)); [now apply (P id1)|apply coherent_sym; now apply (P id2)].
    Qed.

    Lemma same_done_described s s' :
      shared_eq s s' -> (forall id tm rs, completed s' id tm rs <-> completed s id tm rs) -> described s -> described s'.
    Proof.
      intros (A & B & C) K [[E N]|(c & ty & b & F1 & F2 & F3 & P)].
      - left. split; [unfold meta_dir_empty in *; now rewrite A, B, C|]. intros id tm rs X. apply K in X. now apply N in X.
      - right. exists c, ty, b. rewrite A, B, C. repeat (split; [assumption|]). intros id o (tm & rs & X & Y).
        apply (P id). exists tm, rs. split; [now apply K|exact Y].
    Qed.

    (** Before the meta file of the trajectory is written, the set of done
        trajectories does not change. *)
    Definition same_done s s' : Prop := forall i tm rs, completed s' i tm rs <-> completed s i tm rs.

    Lemma put_undone id d s : t_meta d = None -> (forall tm rs, ~ completed s id tm rs) -> same_done s (put_dir id d s).
    Proof.
      intros M N i tm rs. unfold completed. destruct (string_dec i id) as [->|Ne].
      - rewrite dir_put. split; [intros H; injection H as ->; discriminate|]. intros C. now apply N in C.
      - now rewrite dir_put_other.
    Qed.

    Lemma logs_undone k id : forall rest s s' o,
      (exists rs, dir s id = Some (MkDir rs None)) -> exec None (logs k id rest) s = (s', o) ->
      same_done s s' /\ exists rs, dir s' id = Some (MkDir rs None).
    Proof.
      induction rest as [|x rest IH]; intros s s' o [rs D]; cbn [logs map exec].
      - intros H. injection H as <- _. split; [easy|now exists rs].
      - unfold act_log at 1. destruct (snd x) as [[]|e]; [|intros H; injection H as <- _; split; [easy|now exists rs]].
        fold (dir s id). rewrite D. cbn [t_runs t_meta].
        destruct (shas _ _); [intros H; injection H as <- _; split; [easy|now exists rs]|].
        cbn [option_map]. intros H. destruct (IH _ _ _ (ex_intro _ _ (dir_put _ _ _)) H) as [S X]. split; [|exact X].
        intros i tm rs'. rewrite (S i tm rs'). apply put_undone; [reflexivity|]. intros tm' rs2 C. unfold completed in C. congruence.
    Qed.

    Lemma early_done k id s s' o :
      exec None (act_prepare id :: act_coherence same (k_cfg k) (k_type k) (k_backend k) :: logs k id (k_base k :: k_steps k)) s = (s', o) ->
      same_done s s' /\ (o = Finished -> passes k s /\ exists rs, dir s' id = Some (MkDir rs None)).
    Proof.
      intros E. remember (logs k id (k_base k :: k_steps k)) as ll eqn:Hll. cbn [exec] in E.
      assert (P : exists s1 r, act_prepare id s = (s1, r) /\ same_done s s1 /\ shared_eq s s1
                    /\ (r = Ok tt -> exists rs, dir s1 id = Some (MkDir rs None))).
      { unfold act_prepare. destruct (has_meta s id) eqn:M; [exists s; eexists; repeat split; try easy; discriminate|].
        destruct (sget id (f_trajs s)) as [[rs tm]|] eqn:G.
        - exists s. eexists. split; [reflexivity|]. split; [easy|]. split; [apply shared_refl|]. intros _. exists rs.
          unfold has_meta in M. rewrite G in M. cbn in M. destruct tm; [discriminate|exact G].
        - eexists. eexists. split; [reflexivity|]. split; [|split; [now repeat split|intros _; exists []; apply dir_put]].
          apply put_undone; [reflexivity|]. intros tm rs C. unfold completed, dir in C. congruence. }
      destruct P as (s1 & r & Pr & Sd & Sh & Dr). rewrite Pr in E.
      destruct r as [[]|e]; [|injection E as <- <-; split; [exact Sd|discriminate]].
      cbn [option_map] in E. destruct (act_coherence same (k_cfg k) (k_type k) (k_backend k) s1) as [s2 r2] eqn:Co.
      assert (s2 = s1) as -> by (unfold act_coherence in Co; now injection Co).
      destruct r2 as [[]|e]; [|injection E as <- <-; split; [exact Sd|discriminate]].
      subst ll. destruct (logs_undone k id _ _ _ _ (Dr eq_refl) E) as [S2 X]. split.
      - intros i tm rs. rewrite (S2 i tm rs). apply Sd.
      - intros _. split; [|exact X]. apply (passes_shared k s1 s).
        + destruct Sh as (A & B & C). now repeat split.
        + unfold passes. now rewrite Co.
    Qed.

    Lemma exec_logged k id s s1 :
      exec None (act_prepare id :: act_coherence same (k_cfg k) (k_type k) (k_backend k) :: logs k id (k_base k :: k_steps k)) s = (s1, Finished) ->
      forall rs, dir s1 id = Some (MkDir rs None) -> In (fst (k_base k), call_origin k) rs.
    Proof.
      intros E.
      assert (G : forall rest don t t', stage same k id t (logs k id rest ++ tail k id) -> True -> exec None (logs k id rest) t = (t', Finished) ->
        (exists rs0, dir t id = Some (MkDir rs0 None) /\ k_base k :: k_steps k = don ++ rest /\ forall r, In r don -> In (fst r, call_origin k) rs0) ->
        exists rs0, dir t' id = Some (MkDir rs0 None) /\ forall r, In r (k_base k :: k_steps k) -> In (fst r, call_origin k) rs0).
      { induction rest as [|x rest IH]; intros don t t' St _ Ex (rs0 & D & Eq & P).
        - cbn in Ex. injection Ex as <-. exists rs0. split; [exact D|]. rewrite Eq, app_nil_r. exact P.
        - cbn [logs map exec] in Ex. unfold act_log at 1 in Ex. destruct (snd x) as [[]|e]; [|discriminate].
          fold (dir t id) in Ex. rewrite D in Ex. cbn [t_runs t_meta] in Ex. destruct (shas _ _); [discriminate|]. cbn [option_map] in Ex.
          assert (Z : exists rs1, dir (put_dir id (MkDir (rs0 ++ [(fst x, call_origin k)]) None) t) id = Some (MkDir rs1 None)
             /\ k_base k :: k_steps k = (don ++ [x]) ++ rest /\ forall r, In r (don ++ [x]) -> In (fst r, call_origin k) rs1).
          { eexists. split; [apply dir_put|]. split; [rewrite <- app_assoc; exact Eq|]. intros r R. apply in_app_iff.
            apply in_app_iff in R. destruct R as [R|[<-|[]]]; [left; now apply P|right; now left]. }
          apply (IH (don ++ [x]) _ _) with (3 := Ex); [|exact I|exact Z].
          destruct Z as (rs1 & Z1 & Z2 & Z3). exact (st_runs same k id _ rs1 (don ++ [x]) rest Z1 Z2 Z3). }
      remember (logs k id (k_base k :: k_steps k)) as ll eqn:Hll. cbn [exec] in E.
      destruct (act_prepare id s) as [t r] eqn:Pr. destruct r as [[]|e]; [|discriminate]. cbn [option_map] in E.
      destruct (act_coherence same (k_cfg k) (k_type k) (k_backend k) t) as [t2 r2] eqn:Co.
      assert (t2 = t) as -> by (unfold act_coherence in Co; now injection Co).
      destruct r2 as [[]|e]; [|discriminate]. cbn [option_map] in E. subst ll.
      pose proof (stage_step same k id s (act_prepare id) _ t (Ok tt) (st_start same k id s) Pr) as (_ & _ & _ & _ & St).
      specialize (St eq_refl).
      assert (D : exists rs0, dir t id = Some (MkDir rs0 None)).
      { unfold act_prepare in Pr. destruct (has_meta s id) eqn:M; [discriminate|]. destruct (sget id (f_trajs s)) as [[rs0 tm]|] eqn:Gg; injection Pr as <-.
        - exists rs0. unfold has_meta in M. rewrite Gg in M. cbn in M. destruct tm; [discriminate|exact Gg].
        - exists []. apply dir_put. }
      destruct D as [rs0 D].
      destruct (G (k_base k :: k_steps k) [] t s1) as (rs1 & D1 & P1).
      - exact (st_runs same k id t rs0 [] _ D eq_refl (fun r F => match F with end)).
      - exact I.
      - exact E.
      - exists rs0. split; [exact D|]. split; [reflexivity|]. easy.
      - intros rs Drs. rewrite D1 in Drs. injection Drs as <-. apply (P1 (k_base k)). now left.
    Qed.

    Lemma run_described k s s' o : nodup_runs s -> described s -> run_trajectory same None k s = (s', o) -> described s'.
    Proof using same_refl same_sym same_trans.
      intros Nd De. pose proof (run_effect same None k s s' o) as RE. unfold run_trajectory in *.
      destruct (match k_id k with Some id => Ok id | None => next_traj_id s end) as [id|e].
      2:{ intros H. now injection H as <- _. }
      intros R. destruct (RE R) as (_ & _ & Nd'). specialize (Nd' Nd). clear RE. revert R.
      change (actions same k id) with
        ((act_prepare id :: act_coherence same (k_cfg k) (k_type k) (k_backend k) :: logs k id (k_base k :: k_steps k)) ++ tail k id).
      rewrite exec_app.
      destruct (exec None (act_prepare id :: _) s) as [s1 o1] eqn:E.
      destruct (early_done k id s s1 o1 E) as [Sd Fi].
      assert (Sh : shared_eq s s1).
      { apply (exec_shared _ _ _ _) with (2 := E). intros a t I. apply (pre_shared k id). unfold pre. clear - I.
        destruct I as [<-|[<-|I]]; [now left|right; now left|right; right; apply in_app_iff; now left]. }
      pose proof (same_done_described s s1 Sh Sd De) as De1.
      destruct o1 as [|e|]; [|intros H; now injection H as <- _|intros H; now injection H as <- _].
      destruct (Fi eq_refl) as (Pa & rs & D1). clear Fi.
      cbn [tail exec option_map]. unfold act_meta. fold (dir s1 id). rewrite D1. cbn [dumps exec act_dump1 act_dump2 act_dump3].
      cbn. intros H. injection H as <- _.
      set (s3 := put_dir id (MkDir rs (Some (call_meta k))) s1).
      assert (Dir : forall i, dir (MkFs (sset id (MkDir rs (Some (call_meta k))) (f_trajs s1)) (Some (k_cfg k)) (Some (k_cfg k)) (Some (k_type k, str_lower (k_backend k)))) i = dir s3 i) by reflexivity.
      right. exists (k_cfg k), (k_type k), (k_backend k). cbn [f_cfg f_cfg2 f_meta]. split; [reflexivity|]. split; [reflexivity|]. split; [reflexivity|].
      intros i o' (tm & rs' & C & P). unfold completed in C. rewrite Dir in C. subst s3.
      destruct (string_dec i id) as [->|N].
      - rewrite dir_put in C. injection C as <- <-.
        (* the runs of this trajectory were logged by this call *)
        assert (L : In (fst (k_base k), call_origin k) rs).
        { exact (exec_logged k id s s1 E rs D1). }
        assert (o' = call_origin k).
        { pose proof (P (fst (k_base k)) (or_introl eq_refl)) as P0.
          assert (NDr : NoDup (akeys rs)). { apply (Nd' id (MkDir rs (Some (call_meta k)))). rewrite Dir. apply dir_put. }
          pose proof (In_aget _ Seqb_spec _ _ _ NDr L) as G1. pose proof (In_aget _ Seqb_spec _ _ _ NDr P0) as G2. congruence. }
        subst o'. now repeat split.
      - rewrite dir_put_other in C by exact N.
        assert (Q : produced s i o') by (exists tm, rs'; split; [now apply Sd|exact P]).
        destruct De as [[_ De]|(c & ty & b & F1 & F2 & F3 & De)].
        + destruct Q as (tm' & rs2 & C' & _). now apply De in C'.
        + pose proof (De i o' Q) as Co. apply (coherent_trans _ (MkOrigin c ty b)); [exact Co|].
          unfold passes, act_coherence, meta_dir_empty in Pa. cbn [snd] in Pa. rewrite F1, F2, F3 in Pa. cbn in Pa.
          destruct (same (k_cfg k) c) eqn:S1; cbn in Pa; [|discriminate].
          destruct (String.eqb_spec ty (k_type k)) as [->|]; cbn in Pa; [|discriminate].
          destruct (String.eqb_spec (str_lower b) (k_backend k)) as [Eb|]; cbn in Pa; [|discriminate].
          split; [apply same_sym; exact S1|]. split; [reflexivity|]. cbn [o_backend]. rewrite <- Eb. now rewrite str_lower_idem.
    Qed.

    Theorem sequential_coherent l s :
      nodup_runs s -> described s -> Forall (fun bk => fst bk = None) l -> described (run_calls same l s).
    Proof using same_refl same_sym same_trans.
      intros Nd De F. revert s Nd De. induction F as [|[b k] l Hb _ IH]; intros s Nd De; [exact De|].
      cbn in Hb. subst b. unfold run_calls in *. cbn [fold_left fst snd].
      destruct (run_trajectory same None k s) as [s1 o] eqn:R. cbn [fst]. apply IH.
      - now apply (run_effect same None k s s1 o R).
      - exact (run_described k s s1 o Nd De R).
    Qed.

    Theorem sequential_all_coherent l :
      Forall (fun bk => fst bk = None) l -> all_coherent same (run_calls same l fs0).
    Proof using same_refl same_sym same_trans.
      intros F. apply described_coherent, sequential_coherent; [apply fs0_facts| |exact F].
      left. split; [reflexivity|]. intros id tm rs C. discriminate C.
    Qed.
  End Coherence.

  (** ** Parallel trajectories that all finish *)

  Section Together.
    Variables (c : cfg) (ty b : string).
    Hypothesis same_c : same c c = true.
    Hypothesis lower_b : str_lower b = b.

    Definition agrees s : Prop := exists c1 c2, f_cfg s = Some c1 /\ f_cfg2 s = Some c2 /\ f_meta s = Some (ty, b)
                                                /\ same c c1 = true /\ same c c2 = true.

    Lemma agrees_passes k s : k_cfg k = c -> k_type k = ty -> k_backend k = b -> agrees s -> passes k s.
    Proof.
      intros E1 E2 E3 (c1 & c2 & F1 & F2 & F3 & S1 & S2). unfold passes, act_coherence, meta_dir_empty. cbn [snd].
      rewrite E1, E2, E3, F1, F2, F3, S1, S2. cbn. now rewrite !String.eqb_refl.
    Qed.

    Lemma agrees_step k id s a : k_cfg k = c -> k_type k = ty -> k_backend k = b ->
      In a (actions same k id) -> agrees s -> agrees (fst (a s)).
    Proof using same_c lower_b.
      intros E1 E2 E3 I (c1 & c2 & F1 & F2 & F3 & S1 & S2). rewrite actions_pre in I. apply in_app_iff in I. destruct I as [I|I].
      - destruct (pre_shared k id a s I) as (A & B & C). exists c1, c2. rewrite A, B, C. now repeat split.
      - destruct I as [<-|[<-|[<-|[]]]]; unfold agrees; cbn.
        + exists c, c2. rewrite E1. now repeat split.
        + exists c1, c. rewrite E1. now repeat split.
        + exists c1, c2. rewrite E2, E3, lower_b. now repeat split.
    Qed.

    Lemma gstage_In k id s l a : gstage k id s l -> In a l -> In a (actions same k id).
    Proof.
      intros G I. destruct G as [D|D|don rest D Eq|n D].
      - exact I.
      - rewrite actions_eq. now right.
      - rewrite actions_eq. right. right. apply in_app_iff. apply in_app_iff in I. destruct I as [I|I]; [left|now right].
        unfold logs in *. apply in_map_iff in I. destruct I as (x & <- & I). apply in_map. rewrite Eq. apply in_app_iff. now right.
      - rewrite actions_pre. apply in_app_iff. right. clear - I. revert I. destruct n as [|[|[|n]]]; cbn; try tauto.
        now destruct n.
    Qed.

    Lemma together_inv ks : NoDup (map snd ks) ->
      (forall kid, In kid ks -> sound_call (fst kid) /\ k_cfg (fst kid) = c /\ k_type (fst kid) = ty /\ k_backend (fst kid) = b) ->
      forall sched ps s ps' s',
      agrees s -> List.length ps = List.length ks ->
      (forall p l kid, nth_error ps p = Some l -> nth_error ks p = Some kid -> gstage (fst kid) (snd kid) s l) ->
      parallel sched ps s = (ps', s') ->
      List.length ps' = List.length ks /\
      (forall p l kid, nth_error ps' p = Some l -> nth_error ks p = Some kid -> gstage (fst kid) (snd kid) s' l).
    Proof using same_c lower_b.
      intros ND Hk. induction sched as [|p sched IH]; intros ps s ps' s' Ag Le Hs; cbn [parallel].
      { intros H. injection H as <- <-. now split. }
      destruct (nth_error ps p) as [[|a l]|] eqn:P; [apply (IH ps s ps' s' Ag Le Hs)| |apply (IH ps s ps' s' Ag Le Hs)].
      destruct (nth_error ks p) as [kid|] eqn:K.
      2:{ apply nth_error_None in K. assert (X : nth_error ps p = None) by (apply nth_error_None; lia). congruence. }
      pose proof (Hs _ _ _ P K) as G. destruct (Hk kid (nth_error_In _ _ K)) as (So & E1 & E2 & E3).
      destruct (a s) as [s1 r] eqn:A.
      destruct (gstage_step _ _ _ _ _ _ _ So (agrees_passes _ _ E1 E2 E3 Ag) G A) as [-> G'].
      destruct (stage_step same _ _ _ _ _ _ _ (gstage_stage _ _ _ _ G) A) as (_ & Fr & _).
      apply IH.
      - pose proof (agrees_step (fst kid) (snd kid) s a E1 E2 E3 (gstage_In _ _ _ _ _ G (or_introl eq_refl)) Ag) as X. now rewrite A in X.
      - clear - Le. revert p ks Le. induction ps as [|y ps IH]; intros [|p] ks Le; cbn in *; try exact Le.
        destruct ks; cbn in *; [discriminate|]. f_equal. apply IH. lia.
      - intros q l'' kid'' Q K''. rewrite nth_replace in Q. destruct (Nat.eqb_spec q p) as [->|N].
        + rewrite P in Q. injection Q as <-. rewrite K in K''. injection K'' as <-. exact G'.
        + apply (gstage_dir _ _ s); [|exact (Hs _ _ _ Q K'')].
          apply Fr. intros E. apply N. apply (proj1 (NoDup_nth_error (map snd ks)) ND).
          * rewrite map_length. apply nth_error_Some. congruence.
          * rewrite !nth_error_map, K, K''. cbn. now rewrite E.
    Qed.

    Theorem together_completes ks sched s ps' s' :
      NoDup (map snd ks) ->
      (forall kid, In kid ks -> sound_call (fst kid) /\ k_cfg (fst kid) = c /\ k_type (fst kid) = ty /\ k_backend (fst kid) = b
                                /\ dir s (snd kid) = None) ->
      agrees s ->
      parallel sched (procs same ks) s = (ps', s') -> Forall (fun l => l = []) ps' ->
      forall kid, In kid ks -> dir s' (snd kid) = Some (finished_dir (fst kid)).
    Proof using same_c lower_b.
      intros ND Hk Ag R Fin kid I.
      destruct (together_inv ks ND) with (sched := sched) (ps := procs same ks) (s := s) (ps' := ps') (s' := s') as [Le G].
      - intros kd Ik. destruct (Hk kd Ik) as (A & B & C & D & _). auto.
      - exact Ag.
      - unfold procs. apply map_length.
      - intros p l kd P K. unfold procs in P. rewrite nth_error_map, K in P. cbn in P. injection P as <-. constructor.
        apply (Hk kd). exact (nth_error_In _ _ K).
      - exact R.
      - apply In_nth_error in I. destruct I as [p K].
        destruct (nth_error ps' p) as [l|] eqn:P.
        + pose proof (G p l kid P K) as Gp. rewrite Forall_forall in Fin. rewrite (Fin l (nth_error_In _ _ P)) in Gp. now apply gstage_nil in Gp.
        + apply nth_error_None in P. assert (X : (p < List.length ks)%nat) by (apply nth_error_Some; congruence). lia.
    Qed.
  End Together.

  (** ** A back-end name with capital letters *)

  Theorem capital_backend k s :
    f_cfg s = Some (k_cfg k) -> f_cfg2 s = Some (k_cfg k) -> f_meta s = Some (k_type k, str_lower (k_backend k)) ->
    same (k_cfg k) (k_cfg k) = true -> str_lower (k_backend k) <> k_backend k ->
    forall id, (match k_id k with Some i => Ok i | None => next_traj_id s end) = Ok id -> has_meta s id = false ->
    exists s', run_trajectory same None k s = (s', Failed EMorrisCoherence).
  Proof.
    intros F1 F2 F3 Sc N id Hid M. unfold run_trajectory. rewrite Hid, actions_eq. cbn [exec].
    assert (P : exists s1, act_prepare id s = (s1, Ok tt) /\ shared_eq s s1).
    { unfold act_prepare. rewrite M. destruct (sget id (f_trajs s)); eexists; split; try reflexivity; now repeat split. }
    destruct P as (s1 & P & (A & B & C)). rewrite P. cbn [option_map]. unfold act_coherence at 1, meta_dir_empty.
    rewrite A, B, C, F1, F2, F3, Sc. cbn. rewrite String.eqb_refl. cbn.
    destruct (String.eqb_spec (str_lower (k_backend k)) (k_backend k)) as [E|_]; [now apply N in E|]. cbn. eexists. reflexivity.
  Qed.
End Proofs.
