(** Proofs about the book-keeping of a Morris run. *)
From Coq Require Import Decimal DecimalString DecimalNat DecimalFacts.
From Verif Require Import Base BaseLemmas MorrisRun MorrisRunSpec.

(** ** Identifiers *)

Lemma lower_char_idem c : lower_char (lower_char c) = lower_char c.
Proof. destruct c as [b0 b1 b2 b3 b4 b5 b6 b7]; destruct b0, b1, b2, b3, b4, b5, b6, b7; vm_compute; reflexivity. Qed.

Lemma str_lower_idem s : str_lower (str_lower s) = str_lower s.
Proof.
  unfold str_lower. rewrite chars_str_of, map_map. f_equal. apply map_ext. apply lower_char_idem.
Qed.

Lemma of_uint_iter_D0 n u : Nat.of_uint (Nat.iter n Decimal.D0 u) = Nat.of_uint u.
Proof.
  induction n as [|n IH]; [reflexivity|]. cbn [Nat.iter nat_rect].
  change (nat_rect (fun _ => Decimal.uint) u (fun _ => Decimal.D0) n) with (Nat.iter n Decimal.D0 u).
  rewrite <- IH. reflexivity.
Qed.

Lemma append_inj a b c : (a ++ b)%string = (a ++ c)%string -> b = c.
Proof. induction a as [|x a IH]; cbn; [auto|]. intros H. injection H as H. now apply IH. Qed.

Lemma traj_name_inj i j : traj_name i = traj_name j -> i = j.
Proof.
  unfold traj_name. intros H. apply append_inj in H.
  assert (U : pad3 (Nat.to_uint i) = pad3 (Nat.to_uint j)).
  { assert (A : Some (pad3 (Nat.to_uint i)) = Some (pad3 (Nat.to_uint j))) by (now rewrite <- !NilEmpty.usu, H).
    now injection A. }
  rewrite <- (DecimalNat.Unsigned.of_to i), <- (DecimalNat.Unsigned.of_to j).
  rewrite <- (of_uint_iter_D0 (3 - ndigits (Nat.to_uint i))), <- (of_uint_iter_D0 (3 - ndigits (Nat.to_uint j)) (Nat.to_uint j)).
  unfold pad3 in U. now rewrite U.
Qed.

Section Proofs.
  Context {cfg : Type} (same : cfg -> cfg -> bool).
  Implicit Types (s : mfs cfg) (k : call cfg).

  Lemma dir_put id d s : dir (put_dir id d s) id = Some d.
  Proof. unfold dir, put_dir. cbn. apply aget_aset_same, Seqb_spec. Qed.

  Lemma dir_put_other id id' d s : id' <> id -> dir (put_dir id d s) id' = dir s id'.
  Proof. unfold dir, put_dir. cbn. intros N. apply aget_aset_other; [apply Seqb_spec|exact N]. Qed.

  Lemma has_meta_iff s id : has_meta s id = true <-> exists tm rs, completed s id tm rs.
  Proof.
    unfold has_meta, completed, dir. destruct (sget id (f_trajs s)) as [[rs [tm|]]|]; cbn; split.
    - intros _. now exists tm, rs.
    - reflexivity.
    - discriminate.
    - intros (tm & rs' & C). discriminate C.
    - discriminate.
    - intros (tm & rs' & C). discriminate C.
  Qed.

  (** ** Identifiers handed out *)

  Lemma find_first {A} (p : A -> bool) l x :
    find p l = Some x -> exists l1 l2, l = l1 ++ x :: l2 /\ p x = true /\ forall y, In y l1 -> p y = false.
  Proof.
    induction l as [|a l IH]; cbn; [discriminate|]. destruct (p a) eqn:Pa.
    - intros H. injection H as <-. exists [], l. repeat split; [exact Pa|easy].
    - intros H. destruct (IH H) as (l1 & l2 & -> & Px & N). exists (a :: l1), l2.
      repeat split; [exact Px|]. intros y [<-|Y]; [exact Pa|now apply N].
  Qed.

  Lemma seq_split l1 l2 x a n : seq a n = l1 ++ x :: l2 -> x = (a + List.length l1)%nat /\ (List.length l1 < n)%nat
    /\ forall y, (a <= y < x)%nat -> In y l1.
  Proof.
    intros E. assert (L := f_equal (@List.length nat) E). rewrite seq_length, app_length in L. cbn in L.
    assert (X : nth (List.length l1) (seq a n) 0%nat = x).
    { rewrite E, app_nth2, Nat.sub_diag; [reflexivity|lia]. }
    rewrite seq_nth in X by lia. split; [lia|]. split; [lia|]. intros y Y.
    assert (Z : nth (y - a) (seq a n) 0%nat = y) by (rewrite seq_nth; lia).
    rewrite E, app_nth1 in Z by lia. rewrite <- Z. apply nth_In. lia.
  Qed.

  Theorem next_id_ok s id :
    next_traj_id s = Ok id ->
    exists i, id = traj_name i /\ (1 <= i <= 998)%nat
              /\ (forall tm rs, ~ completed s id tm rs)
              /\ (forall j, (1 <= j < i)%nat -> exists tm rs, completed s (traj_name j) tm rs).
  Proof.
    unfold next_traj_id. destruct (find _ _) as [i|] eqn:F; [|discriminate]. intros H. injection H as <-.
    apply find_first in F. destruct F as (l1 & l2 & E & P & N). apply seq_split in E. destruct E as (X & L & B).
    exists i. split; [reflexivity|]. split; [lia|]. apply negb_true_iff in P. split.
    - intros tm rs C. assert (T : has_meta s (traj_name i) = true) by (apply has_meta_iff; now exists tm, rs). congruence.
    - intros j J. apply has_meta_iff. apply B in J. apply N in J. now apply negb_false_iff.
  Qed.

  Theorem next_id_error s e :
    next_traj_id s = Err e ->
    e = EMorrisLog /\ forall j, (1 <= j <= 998)%nat -> exists tm rs, completed s (traj_name j) tm rs.
  Proof.
    unfold next_traj_id. destruct (find _ _) as [i|] eqn:F; [discriminate|]. intros H. injection H as <-.
    split; [reflexivity|]. intros j J. apply has_meta_iff.
    assert (In j (seq 1 998)) as I by (apply in_seq; lia).
    pose proof (find_none _ _ F j I) as X. cbn in X. now apply negb_false_iff.
  Qed.

  Lemma queue_props fuel taken i num l :
    queue fuel taken i num = Ok l ->
    List.length l = num /\ NoDup l /\ (forall x, In x l -> taken x = false /\ exists j, (i <= j)%nat /\ x = traj_name j).
  Proof.
    revert i num l. induction fuel as [|fuel IH]; intros i [|num] l; cbn [queue].
    - intros H. injection H as <-. repeat split; [constructor|easy|easy].
    - discriminate.
    - intros H. injection H as <-. repeat split; [constructor|easy|easy].
    - destruct (taken (traj_name i)) eqn:T.
      + intros H. destruct (IH _ _ _ H) as (L & N & P). split; [exact L|]. split; [exact N|].
        intros x X. destruct (P x X) as (Q1 & j & J & E). split; [exact Q1|]. exists j. split; [lia|exact E].
      + destruct (queue fuel taken (S i) num) as [l'|e] eqn:Q; cbn [bind]; [|discriminate].
        intros H. injection H as <-. destruct (IH _ _ _ Q) as (L & N & P). split; [cbn; lia|]. split.
        * constructor; [|exact N]. intros X. destruct (P _ X) as (_ & j & J & E). apply traj_name_inj in E. lia.
        * intros x [<-|X]; [split; [exact T|exists i; split; [lia|reflexivity]]|].
          destruct (P x X) as (Q1 & j & J & E). split; [exact Q1|]. exists j. split; [lia|exact E].
  Qed.

  Lemma queue_total fuel taken i num (T : list string) :
    (forall j, (i <= j)%nat -> taken (traj_name j) = true -> In (traj_name j) T) ->
    (num + List.length T <= fuel)%nat -> exists l, queue fuel taken i num = Ok l.
  Proof.
    revert i num T. induction fuel as [|fuel IH]; intros i [|num] T HT F; cbn [queue]; try (eexists; reflexivity); [cbn in F; lia|].
    destruct (taken (traj_name i)) eqn:Q.
    - pose proof (HT i (le_n _) Q) as I. apply in_split in I. destruct I as (T1 & T2 & ->).
      apply (IH (S i) (S num) (T1 ++ T2)).
      + intros j J C. assert (D := HT j ltac:(lia) C). rewrite in_app_iff in *. cbn in D. destruct D as [D|[D|D]]; auto.
        apply traj_name_inj in D. lia.
      + rewrite app_length in *. cbn in F. lia.
    - destruct (IH (S i) num T) as [l' E].
      + intros j J C. apply HT; [lia|exact C].
      + lia.
      + rewrite E. cbn. eexists. reflexivity.
  Qed.

  Theorem morris_queue_ok s num :
    exists ids, morris_queue s num = Ok ids /\ List.length ids = num /\ NoDup ids
                /\ forall id tm rs, In id ids -> ~ completed s id tm rs.
  Proof.
    unfold morris_queue. destruct (queue_total (num + List.length (f_trajs s)) (has_meta s) 1 num (map fst (f_trajs s))) as [l E].
    - intros j _ H. unfold has_meta in H. destruct (sget (traj_name j) (f_trajs s)) as [d|] eqn:G; [|discriminate].
      exact (aget_Some_key _ Seqb_spec _ _ _ G).
    - rewrite map_length. lia.
    - exists l. destruct (queue_props _ _ _ _ _ E) as (L & N & P). repeat split; try assumption.
      intros id tm rs I C. destruct (P id I) as [F _].
      assert (T : has_meta s id = true) by (apply has_meta_iff; now exists tm, rs). congruence.
  Qed.

  (** ** One action of a trajectory *)

  Definition dumps k := [act_dump1 (k_cfg k); act_dump2 (k_cfg k); act_dump3 (k_type k) (k_backend k)] : list (@action cfg).
  Definition tail k id := act_meta id (call_meta k) :: dumps k.
  Definition logs k id rest : list (@action cfg) := map (act_log (call_origin k) id) rest.

  (** Where a trajectory is. *)
  Inductive stage k id s : list (@action cfg) -> Prop :=
  | st_start : stage k id s (actions same k id)
  | st_prepared rs : dir s id = Some (MkDir rs None) ->
      stage k id s (act_coherence same (k_cfg k) (k_type k) (k_backend k) :: logs k id (k_base k :: k_steps k) ++ tail k id)
  | st_runs rs don rest : dir s id = Some (MkDir rs None) -> k_base k :: k_steps k = don ++ rest ->
      (forall r, In r don -> In (fst r, call_origin k) rs) ->
      stage k id s (logs k id rest ++ tail k id)
  | st_dump n : stage k id s (skipn n (dumps k)).

  Lemma stage_dir k id s s' l : dir s' id = dir s id -> stage k id s l -> stage k id s' l.
  Proof.
    intros E []; [constructor|apply (st_prepared _ _ _ rs); congruence| |constructor].
    apply (st_runs _ _ _ rs don rest); [congruence|assumption|assumption].
  Qed.

  Definition nodup_runs s : Prop := forall id d, dir s id = Some d -> NoDup (akeys (t_runs d)).

  (** What one action does. *)
  Definition effect k id s s' (r : res unit) l : Prop :=
    keeps_done s s'
    /\ (forall id', id' <> id -> dir s' id' = dir s id')
    /\ (all_logged s -> all_logged s')
    /\ (nodup_runs s -> nodup_runs s')
    /\ (r = Ok tt -> stage k id s' l).

  Lemma effect_same_dirs k id s s' r l :
    f_trajs s' = f_trajs s -> (r = Ok tt -> stage k id s' l) -> effect k id s s' r l.
  Proof.
    intros E St. assert (D : forall i, dir s' i = dir s i) by (intros i; unfold dir; now rewrite E).
    split. { intros i tm rs. unfold completed. now rewrite D. }
    split; [auto|]. split.
    { intros A i tm rs C. unfold completed in C. rewrite D in C. destruct (A i tm rs C) as (o & tm' & rs' & C' & P).
      exists o, tm', rs'. split; [|exact P]. unfold completed. now rewrite D. }
    split; [|exact St]. intros N i d H. rewrite D in H. now apply (N i).
  Qed.

  (** Replacing the directory of a trajectory that is not done. *)
  Lemma effect_put k id s d r l :
    (forall tm rs, ~ completed s id tm rs) ->
    (forall tm rs, d = MkDir rs (Some tm) -> exists o, forall x, In x (listed tm) -> In (x, o) rs) ->
    (nodup_runs s -> NoDup (akeys (t_runs d))) ->
    (r = Ok tt -> stage k id (put_dir id d s) l) ->
    effect k id s (put_dir id d s) r l.
  Proof.
    intros NC Dd Nd St. split.
    { intros i tm rs C. unfold completed. destruct (string_dec i id) as [->|N]; [now apply NC in C|].
      now rewrite dir_put_other. }
    split. { intros i N. now apply dir_put_other. }
    split.
    { intros A i tm rs C. destruct (string_dec i id) as [->|N].
      - unfold completed in C. rewrite dir_put in C. injection C as C. destruct (Dd tm rs C) as [o P].
        exists o, tm, rs. split; [|exact P]. unfold completed. rewrite dir_put. now rewrite C.
      - unfold completed in C. rewrite dir_put_other in C by exact N. destruct (A i tm rs C) as (o & tm' & rs' & C' & P).
        exists o, tm', rs'. split; [|exact P]. unfold completed. now rewrite dir_put_other. }
    split; [|exact St]. intros Nn i d' H. destruct (string_dec i id) as [->|N].
    - rewrite dir_put in H. injection H as <-. now apply Nd.
    - rewrite dir_put_other in H by exact N. now apply (Nn i).
  Qed.

  Lemma stage_step k id s a l s' r : stage k id s (a :: l) -> a s = (s', r) -> effect k id s s' r l.
  Proof.
    intros St A. remember (a :: l) as al eqn:Eal. destruct St as [|rs D|rs don rest D Eq Dn|n].
    - (* prepare *)
      unfold actions in Eal. injection Eal as <- <-. unfold act_prepare in A. destruct (has_meta s id) eqn:M.
      { injection A as <- <-. apply effect_same_dirs; [reflexivity|discriminate]. }
      destruct (sget id (f_trajs s)) as [d|] eqn:G; injection A as <- <-.
      + apply effect_same_dirs; [reflexivity|]. intros _. destruct d as [rs tm]. unfold has_meta in M. rewrite G in M. cbn in M.
        destruct tm; [discriminate|]. exact (st_prepared _ _ _ rs G).
      + apply effect_put.
        * intros tm rs C. unfold completed, dir in C. congruence.
        * intros tm rs C. discriminate C.
        * intros _. constructor.
        * intros _. apply (st_prepared _ _ _ []). apply dir_put.
    - injection Eal as <- <-. unfold act_coherence in A. injection A as <- <-. apply effect_same_dirs; [reflexivity|].
      intros _. apply (st_runs _ _ _ rs [] (k_base k :: k_steps k)); [exact D|reflexivity|easy].
    - destruct rest as [|x rest]; cbn in Eal.
      + injection Eal as <- <-. unfold act_meta in A. fold (dir s id) in A. rewrite D in A. injection A as <- <-.
        apply effect_put.
        * intros tm rs' C. unfold completed in C. congruence.
        * intros tm rs' C. injection C as <- <-. exists (call_origin k). intros y Y. rewrite app_nil_r in Eq. subst don.
          change (listed (call_meta k)) with (map fst (k_base k :: k_steps k)) in Y. apply in_map_iff in Y.
          destruct Y as (z & <- & Z). now apply Dn.
        * intros Nn. exact (Nn _ _ D).
        * intros _. exact (st_dump k id _ 0).
      + injection Eal as <- <-. unfold act_log in A. destruct x as [nm [[]|e]]; cbn [fst snd] in A.
        2:{ injection A as <- <-. apply effect_same_dirs; [reflexivity|discriminate]. }
        fold (dir s id) in A. rewrite D in A. cbn [t_runs t_meta] in A.
        destruct (shas nm rs) eqn:Hs; injection A as <- <-; [apply effect_same_dirs; [reflexivity|discriminate]|].
        apply effect_put.
        * intros tm rs' C. unfold completed in C. congruence.
        * intros tm rs' C. discriminate C.
        * intros Nn. pose proof (Nn _ _ D) as ND. cbn [t_runs] in *. unfold akeys. rewrite map_app. cbn.
          assert (X : ~ In nm (akeys rs)) by (intros I; apply (ahas_In _ Seqb_spec) in I; congruence).
          unfold akeys in *. apply NoDup_Add with (a := nm) (l := map fst rs); [|split; assumption].
          clear. induction (map fst rs) as [|y m IH]; cbn; constructor; exact IH.
        * intros _. apply (st_runs _ _ _ (rs ++ [(nm, call_origin k)]) (don ++ [(nm, Ok tt)]) rest).
          -- apply dir_put.
          -- rewrite <- app_assoc. exact Eq.
          -- intros r R. apply in_app_iff. apply in_app_iff in R. destruct R as [R|[<-|[]]]; [left; now apply Dn|right; now left].
    - assert (X : f_trajs s' = f_trajs s /\ l = skipn (S n) (dumps k)).
      { destruct n as [|[|[|n]]]; cbn in Eal; try (destruct n; discriminate); injection Eal as <- <-; cbn in A; injection A as <- <-; now split. }
      destruct X as [X ->]. apply effect_same_dirs; [exact X|]. intros _. constructor.
  Qed.

  (** ** A trajectory, with every crash point *)

  Lemma exec_effect k id : forall l b s s' o, stage k id s l -> exec b l s = (s', o) ->
    keeps_done s s' /\ (all_logged s -> all_logged s') /\ (nodup_runs s -> nodup_runs s').
  Proof.
    induction l as [|a l IH]; intros b s s' o St; cbn [exec].
    { intros H. injection H as <- _. unfold keeps_done. auto. }
    assert (C : forall b', match a s with (s1, Err e) => (s1, Failed e) | (s1, Ok tt) => exec b' l s1 end = (s', o) ->
      keeps_done s s' /\ (all_logged s -> all_logged s') /\ (nodup_runs s -> nodup_runs s')).
    { intros b'. destruct (a s) as [s1 r] eqn:A. destruct (stage_step k id s a l s1 r St A) as (K & _ & L & N & St').
      destruct r as [[]|e].
      - intros H. destruct (IH _ _ _ _ (St' eq_refl) H) as (K2 & L2 & N2). split; [|split]; auto.
        intros i tm rs X. apply K2, K, X.
      - intros H. injection H as <- _. auto. }
    destruct b as [[|b]|]; [|exact (C _)|exact (C _)].
    intros H. injection H as <- _. unfold keeps_done. auto.
  Qed.

  Lemma run_effect b k s s' o : run_trajectory same b k s = (s', o) ->
    keeps_done s s' /\ (all_logged s -> all_logged s') /\ (nodup_runs s -> nodup_runs s').
  Proof.
    unfold run_trajectory. destruct (match k_id k with Some id => Ok id | None => next_traj_id s end) as [id|e].
    - apply (exec_effect k id). constructor.
    - intros H. injection H as <- _. unfold keeps_done. auto.
  Qed.

  Lemma run_calls_effect l : forall s, let s' := run_calls same l s in
    keeps_done s s' /\ (all_logged s -> all_logged s') /\ (nodup_runs s -> nodup_runs s').
  Proof.
    induction l as [|[b k] l IH]; intros s; cbn zeta.
    - unfold keeps_done. auto.
    - unfold run_calls in *. cbn [fold_left fst snd]. destruct (run_trajectory same b k s) as [s1 o] eqn:R. cbn [fst].
      destruct (run_effect _ _ _ _ _ R) as (K & L & N). destruct (IH s1) as (K2 & L2 & N2). split; [|split]; auto.
      intros i tm rs X. apply K2, K, X.
  Qed.

  Lemma fs0_facts : all_logged (@fs0 cfg) /\ nodup_runs (@fs0 cfg).
  Proof. split; intros i; [intros tm rs C|intros d C]; discriminate C. Qed.

  Theorem done_means_logged l : all_logged (run_calls same l fs0).
  Proof. destruct (run_calls_effect l fs0) as (_ & L & _). apply L, fs0_facts. Qed.

  Theorem done_is_kept l s : keeps_done s (run_calls same l s).
  Proof. apply run_calls_effect. Qed.

  (** ** Parallel trajectories *)

  Lemma nth_replace {A} p q (x : A) l :
    nth_error (replace p x l) q = if Nat.eqb q p then match nth_error l p with Some _ => Some x | None => None end else nth_error l q.
  Proof.
    revert p q. induction l as [|y l IH]; intros [|p] [|q]; cbn; try reflexivity.
    - now destruct (q =? p)%nat.
    - apply IH.
  Qed.

  Definition procs ks := map (fun kid : call cfg * string => actions same (fst kid) (snd kid)) ks.

  Lemma parallel_inv ks : NoDup (map snd ks) -> forall sched ps s ps' s',
    (forall p l kid, nth_error ps p = Some l -> nth_error ks p = Some kid -> l = [] \/ stage (fst kid) (snd kid) s l) ->
    (forall p l, nth_error ps p = Some l -> exists kid, nth_error ks p = Some kid) ->
    parallel sched ps s = (ps', s') ->
    keeps_done s s' /\ (all_logged s -> all_logged s').
  Proof.
    intros ND. induction sched as [|p sched IH]; intros ps s ps' s' Hs Hk; cbn [parallel].
    { intros H. injection H as <- <-. unfold keeps_done. auto. }
    destruct (nth_error ps p) as [[|a l]|] eqn:P; [apply (IH ps s ps' s' Hs Hk)| |apply (IH ps s ps' s' Hs Hk)].
    destruct (Hk _ _ P) as [kid K]. destruct (Hs _ _ _ P K) as [|St]; [discriminate|].
    destruct (a s) as [s1 r] eqn:A. destruct (stage_step _ _ _ _ _ _ _ St A) as (Kd & Fr & L & _ & St').
    assert (G : forall l', (l' = [] \/ stage (fst kid) (snd kid) s1 l') -> parallel sched (replace p l' ps) s1 = (ps', s') ->
              keeps_done s s' /\ (all_logged s -> all_logged s')).
    { intros l' Hl' H. 
      destruct (IH (replace p l' ps) s1 ps' s') as [K2 L2].
      - intros q l'' kid'' Q K''. rewrite nth_replace in Q. destruct (Nat.eqb_spec q p) as [->|N].
        + rewrite P in Q. injection Q as <-. rewrite K in K''. injection K'' as <-. exact Hl'.
        + destruct (Hs _ _ _ Q K'') as [->|St'']; [now left|right]. apply (stage_dir _ _ s); [|exact St''].
          apply Fr. intros E. apply N. apply (proj1 (NoDup_nth_error (map snd ks)) ND).
          * rewrite map_length. apply nth_error_Some. congruence.
          * rewrite !nth_error_map, K, K''. cbn. now rewrite E.
      - intros q l'' Q. rewrite nth_replace in Q. destruct (Nat.eqb_spec q p) as [->|N]; [now exists kid|exact (Hk _ _ Q)].
      - exact H.
      - split; [intros i tm rs X; apply K2, Kd, X|auto]. }
    destruct r as [[]|e]; [apply G; right; now apply St'|apply G; now left].
  Qed.

  Theorem parallel_safe ks sched s ps' s' :
    NoDup (map snd ks) -> parallel sched (procs ks) s = (ps', s') ->
    keeps_done s s' /\ (all_logged s -> all_logged s').
  Proof.
    intros ND. apply (parallel_inv ks ND).
    - intros p l kid P K. right. unfold procs in P. rewrite nth_error_map, K in P. cbn in P. injection P as <-. constructor.
    - intros p l P. unfold procs in P. rewrite nth_error_map in P. destruct (nth_error ks p) as [kid|]; [now exists kid|discriminate].
  Qed.
End Proofs.
