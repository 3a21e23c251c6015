(** The file system part: what logging does to the files at every crash
    point. *)
From Coq Require Import Permutation.
From Verif Require Import Base BaseLemmas Species Reactions Chemistry MorrisStats Tables InitialGuess GlobalModel GlobalSpec.
Open Scope list_scope.

Lemma path_eqb_spec a b : path_eqb a b = true <-> a = b.
Proof.
  revert b. induction a as [|x a IH]; intros [|y b]; cbn; split; intros H; try discriminate; auto.
  - apply andb_prop in H. destruct H as [H1 H2]. apply String.eqb_eq in H1. apply IH in H2. congruence.
  - injection H as -> ->. rewrite String.eqb_refl. now apply IH.
Qed.
Lemma path_dec (a b : path) : {a = b} + {a <> b}.
Proof. apply list_eq_dec, string_dec. Qed.

Lemma fget_same p (c : content) l : fget p (fset p c l) = Some c.
Proof. apply aget_aset_same, path_eqb_spec. Qed.
Lemma fget_other p q (c : content) l : p <> q -> fget p (fset q c l) = fget p l.
Proof. apply aget_aset_other, path_eqb_spec. Qed.

Lemma isdir_In s p : isdir s p = true <-> In p (fs_dirs s).
Proof.
  unfold isdir. rewrite existsb_exists. split.
  - intros (q & I & H). apply path_eqb_spec in H. now subst.
  - intros I. exists p. split; [exact I|now apply path_eqb_spec].
Qed.

Lemma under_app p q : under p (p ++ q) = true.
Proof. induction p; cbn; [reflexivity|now rewrite String.eqb_refl]. Qed.
Lemma under_iff p q : under p q = true <-> exists r, q = p ++ r.
Proof.
  split; [|intros (r & ->); apply under_app].
  revert q. induction p as [|x p IH]; intros [|y q] H; cbn in H; try discriminate; [now exists []|now exists (y :: q)|].
  apply andb_prop in H. destruct H as [H1 H2]. apply String.eqb_eq in H1. destruct (IH _ H2) as (r & ->). exists r. now subst.
Qed.
Lemma under_refl p : under p p = true.
Proof. apply under_iff. exists []. now rewrite app_nil_r. Qed.

Lemma kept_refl s : kept s s.
Proof. split; auto. Qed.
Lemma kept_trans a b c : kept a b -> kept b c -> kept a c.
Proof. intros [A B] [C D]. split; auto. Qed.

(** What is not a directory contains nothing. *)
Lemma nothing_below s p q : fs_ok s -> isdir s p = false -> under p q = true -> isdir s q = false /\ (p <> q -> fget q (fs_files s) = None).
Proof.
  intros [O1 O2] F U. apply under_iff in U. destruct U as (r & ->). induction r as [|x r IH] using rev_ind.
  - rewrite app_nil_r. split; [exact F|easy].
  - rewrite app_assoc. destruct IH as [IH _]. split.
    + destruct (isdir s ((p ++ r) ++ [x])) eqn:D; [|reflexivity]. apply O2 in D. rewrite removelast_last in D. congruence.
    + intros _. destruct (fget ((p ++ r) ++ [x]) (fs_files s)) eqn:G; [|reflexivity]. apply O1 in G. rewrite removelast_last in G.
      destruct G. congruence.
Qed.

(** ** Invariants of executions *)
Lemma exec_inv (I : gfs -> Prop) l : (forall a s, In a l -> I s -> I (fst (a s))) -> forall b s, I s -> I (fst (exec b l s)).
Proof.
  induction l as [|a l IH]; intros H b s Hs; cbn [exec]; [exact Hs|].
  destruct b as [[|b]|]; [exact Hs| |].
  all: pose proof (H a s (or_introl eq_refl) Hs) as X; destruct (a s) as [s' [[]|e]]; cbn [fst] in *; [|exact X];
    apply IH; [intros; apply H; [now right|assumption]|exact X].
Qed.

Lemma exec_app b l1 l2 s :
  exec b (l1 ++ l2) s =
  match exec b l1 s with
  | (s', Finished) => exec (match b with Some n => Some (n - List.length l1)%nat | None => None end) l2 s'
  | r => r
  end.
Proof.
  revert b s. induction l1 as [|a l1 IH]; intros b s; cbn [exec app List.length].
  - destruct b as [n|]; [|reflexivity]. now rewrite Nat.sub_0_r.
  - destruct b as [[|b]|]; [reflexivity| |].
    all: destruct (a s) as [s' [[]|e]]; [|reflexivity]; rewrite IH; cbn [option_map pred]; reflexivity.
Qed.

(** ** The steps *)
Lemma put_inv p c s : put p c s = (s, Err EOS) \/
  (put p c s = (MkGfs (fs_dirs s) (fset p c (fs_files s)), Ok tt) /\ isdir s (removelast p) = true /\ isdir s p = false).
Proof.
  unfold put. destruct (isdir s (removelast p)) eqn:A; cbn [negb orb]; [|now left].
  destruct (isdir s p) eqn:B; [now left|]. right. auto.
Qed.

Lemma isdir_files s f p : isdir (MkGfs (fs_dirs s) f) p = isdir s p.
Proof. reflexivity. Qed.

Lemma put_ok p c s : fs_ok s -> fs_ok (fst (put p c s)).
Proof.
  intros H. destruct (put_inv p c s) as [->|(-> & A & B)]; [exact H|]. cbn [fst]. destruct H as [H1 H2]. split; [|exact H2].
  intros q d. cbn [fs_files]. rewrite !isdir_files.
  destruct (path_dec q p) as [->|N]; [auto|]. rewrite fget_other by exact N. apply H1.
Qed.

Lemma mkdir_inv p s : mkdir p s = (s, Err EOS) \/
  (mkdir p s = (MkGfs (p :: fs_dirs s) (fs_files s), Ok tt) /\ isdir s p = false /\ isfile s p = false /\ isdir s (removelast p) = true).
Proof.
  unfold mkdir. destruct (isdir s p) eqn:A; [now left|]. destruct (isfile s p) eqn:B; [now left|].
  destruct (isdir s (removelast p)) eqn:C; cbn; [right; auto|now left].
Qed.

Lemma isdir_cons s p q f : isdir (MkGfs (p :: fs_dirs s) f) q = path_eqb q p || isdir s q.
Proof. reflexivity. Qed.

Lemma mkdir_ok p s : fs_ok s -> fs_ok (fst (mkdir p s)).
Proof.
  intros H. destruct (mkdir_inv p s) as [->|(-> & A & B & C)]; [exact H|]. cbn [fst]. destruct H as [H H2]. split.
  2: { intros q. rewrite !isdir_cons. intros G. apply orb_prop in G. destruct G as [G|G].
       - apply path_eqb_spec in G. subst q. rewrite C. apply orb_true_r.
       - rewrite (H2 q G). apply orb_true_r. }
  intros q d. cbn [fs_files]. intros G.
  rewrite !isdir_cons. destruct (H q d G) as [X Y]. rewrite X, Y, orb_true_r. split; [reflexivity|].
  rewrite orb_false_r. destruct (path_eqb q p) eqn:Z; [|reflexivity]. apply path_eqb_spec in Z. subst q.
  unfold isfile in B. now rewrite G in B.
Qed.

Lemma mkdir_kept p s : kept s (fst (mkdir p s)).
Proof.
  destruct (mkdir_inv p s) as [->|(-> & A & B & C)]; [apply kept_refl|]. cbn [fst]. split; [|auto].
  intros q H. rewrite isdir_cons, H. apply orb_true_r.
Qed.

(** Every action of a log writes a file into the run directory, or nothing. *)
Definition writes (p : path) (a : action) : Prop :=
  forall s, (exists e, a s = (s, Err e)) \/ exists n c, a s = put (p ++ [n]) c s.

Lemma act_file_writes p log c a : In a (act_file p log c) -> writes p a.
Proof.
  unfold act_file. intros [<-|[<-|[]]] s; cbv beta.
  - destruct (log_name log) as [n|e]; [right; now exists n, CEmpty|left; now exists e].
  - destruct (log_name log) as [n|e]; [|left; now exists e]. destruct c as [c|e]; [right; now exists n, c|left; now exists e].
Qed.

Section G.
  Variables (E : env) (fhash : string -> option string).

  Lemma log_files_writes m te i p d a : In a (log_files E fhash m te i p d) -> writes p a.
  Proof.
    unfold log_files. rewrite !in_app_iff. intros H.
    repeat match type of H with _ \/ _ => destruct H as [H|H] end; eapply act_file_writes; exact H.
  Qed.

  Lemma writes_ok p a s : writes p a -> fs_ok s -> fs_ok (fst (a s)).
  Proof. intros W H. destruct (W s) as [(e & ->)|(n & c & ->)]; [exact H|now apply put_ok]. Qed.

  (** In a fresh directory nothing existing is touched. *)
  Lemma writes_kept p a s0 s : fs_ok s0 -> isdir s0 p = false -> writes p a -> kept s0 s -> kept s0 (fst (a s)).
  Proof.
    intros O F W K. destruct (W s) as [(e & ->)|(n & c & ->)]; [exact K|].
    destruct (put_inv (p ++ [n]) c s) as [->|(-> & _ & _)]; [exact K|]. cbn [fst]. destruct K as [K1 K2]. split.
    - intros q Hq. rewrite isdir_files. auto.
    - intros q d Hq. cbn [fs_files]. rewrite fget_other; [auto|]. intros ->. destruct (proj1 O _ _ Hq) as [X _].
      rewrite removelast_last in X. congruence.
  Qed.

  Lemma fail_writes p e : writes p (fun s => (s, Err e)).
  Proof. intros s. left. now exists e. Qed.

  Lemma fresh_log b p acts s : fs_ok s -> isdir s p = false -> (forall a, In a acts -> writes p a) ->
    fs_ok (fst (exec b (mkdir p :: acts) s)) /\ kept s (fst (exec b (mkdir p :: acts) s)).
  Proof.
    intros O F W. apply (exec_inv (fun s' => fs_ok s' /\ kept s s')); [|split; [exact O|apply kept_refl]].
    intros a s' [<-|I] [O' K'].
    - split; [now apply mkdir_ok|]. eapply kept_trans; [exact K'|apply mkdir_kept].
    - split; [apply (writes_ok p); auto|]. apply (writes_kept p); auto.
  Qed.

  (** *** Complete logs *)
  Lemma act_file_done b p log n c l s s' :
    log_name log = Ok n -> exec b (act_file p log c ++ l) s = (s', Finished) ->
    exists c' b', c = Ok c' /\ isdir s p = true /\ isdir s (p ++ [n]) = false /\
      exec b' l (MkGfs (fs_dirs s) (fset (p ++ [n]) c' (fset (p ++ [n]) CEmpty (fs_files s)))) = (s', Finished).
  Proof.
    intros L H. unfold act_file in H. cbn [app exec] in H. rewrite L in H.
    destruct b as [[|b]|]; [discriminate| |].
    all: destruct (put_inv (p ++ [n]) CEmpty s) as [Z|(Z & A & B)]; rewrite Z in H; [discriminate|]; clear Z.
    all: rewrite removelast_last in A; cbn [option_map pred] in H.
    1: destruct b as [|b]; [discriminate|].
    all: destruct c as [c|e]; [|discriminate].
    all: unfold put in H; rewrite !isdir_files, removelast_last, A, B in H; cbn [negb orb fs_dirs fs_files] in H.
    all: eexists _, _; split; [reflexivity|]; split; [exact A|]; split; [exact B|exact H].
  Qed.
End G.
