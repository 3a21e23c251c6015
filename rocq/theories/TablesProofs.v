(** Proofs about interpolated frames and compressed solutions. *)
From Coq Require Import Qabs Sorted Lqa.
From Verif Require Import Base BaseLemmas Morris MorrisStats Tables TablesSpec.
Open Scope Q_scope.

Lemma Qltb_iff a b : Qltb a b = true <-> a < b.
Proof.
  unfold Qltb. rewrite negb_true_iff. split.
  - intros E. apply Qnot_le_lt. intros L. apply Qle_bool_iff in L. congruence.
  - intros L. destruct (Qle_bool b a) eqn:E; [|reflexivity]. apply Qle_bool_iff in E. now apply Qlt_not_le in L.
Qed.

Lemma Qltb_false a b : Qltb a b = false <-> b <= a.
Proof.
  unfold Qltb. rewrite negb_false_iff. apply Qle_bool_iff.
Qed.

(** ** Interpolation *)

Lemma interp_cons t c a b rows :
  interp t (points_of (a :: b :: rows) c) =
  if Qltb t (time b) then Ok (if Qltb t (time a) then at_col a c else (at_col b c - at_col a c) / (time b - time a) * (t - time a) + at_col a c)
  else interp t (points_of (b :: rows) c).
Proof. reflexivity. Qed.

Lemma interp_sampled cols c t : forall rows pre,
  StronglySorted (fun a b => time a <= time b) rows -> rows <> [] ->
  (forall a l, rows = a :: l -> time a <= t) ->
  exists v, interp t (points_of rows c) = Ok v /\ sampled (MkTable cols (pre ++ rows)) c t v.
Proof.
  induction rows as [|a [|b rows] IH]; intros pre S N F; [easy| |].
  - cbn. eexists. split; [reflexivity|]. right. exists pre, a. split; [reflexivity|]. split; [now apply (F a [])|reflexivity].
  - rewrite interp_cons.
    destruct (Qltb t (time b)) eqn:E.
    + apply Qltb_iff in E. pose proof (F a _ eq_refl) as Fa.
      assert (Hlt : Qltb t (time a) = false) by now apply Qltb_false. rewrite Hlt.
      exists ((at_col b c - at_col a c) / (time b - time a) * (t - time a) + at_col a c). split; [reflexivity|]. left. exists pre, a, b, rows. split; [reflexivity|]. split; [now split|].
      unfold Qdiv. ring.
    + apply Qltb_false in E. inversion S as [|? ? S' _]; subst.
      destruct (IH (pre ++ [a]) S') as (v & I & Sa); [easy|intros x l X; injection X as -> ->; exact E|].
      exists v. split; [exact I|]. rewrite <- app_assoc in Sa. exact Sa.
Qed.

Lemma interp_of_sampled cols rows c t v :
  StronglySorted (fun a b => time a <= time b) rows -> sampled (MkTable cols rows) c t v ->
  exists v', interp t (points_of rows c) = Ok v' /\ v == v'.
Proof.
  intros S [(pre & a & b & post & E & (L & U) & V)|(pre & a & E & L & V)]; cbn [tb_rows] in E; subst rows.
  - induction pre as [|p pre IH].
    + cbn [app]. rewrite interp_cons.
      apply Qltb_iff in U as U'. rewrite U'. apply Qltb_false in L as L'. rewrite L'. 
      exists ((at_col b c - at_col a c) / (time b - time a) * (t - time a) + at_col a c). split; [reflexivity|].
      rewrite V. unfold Qdiv. ring.
    + inversion S as [|? ? S' Fa]; subst. destruct (IH S') as (v' & I & Ev). exists v'. split; [|exact Ev].
      destruct pre as [|q pre]; cbn [app] in I |- *; rewrite interp_cons.
      * apply Qltb_false in L as L'. rewrite L'. exact I.
      * assert (Q : time q <= t).
        { inversion S' as [|? ? _ Fq]; subst. rewrite Forall_forall in Fq. apply Qle_trans with (time a); [|exact L].
          apply Fq. apply in_or_app. right. now left. }
        apply Qltb_false in Q. rewrite Q. exact I.
  - induction pre as [|p pre IH].
    + cbn. eexists. split; [reflexivity|exact V].
    + inversion S as [|? ? S' Fa]; subst. destruct (IH S') as (v' & I & Ev). exists v'. split; [|exact Ev].
      destruct pre as [|q pre]; cbn [app] in I |- *; rewrite interp_cons.
      * apply Qltb_false in L as L'. rewrite L'. exact I.
      * assert (Q : time q <= t).
        { inversion S' as [|? ? _ Fq]; subst. rewrite Forall_forall in Fq. apply Qle_trans with (time a); [|exact L].
          apply Fq. apply in_or_app. right. now left. }
        apply Qltb_false in Q. rewrite Q. exact I.
Qed.

Lemma sampled_unique tb c t v w : ascending tb -> sampled tb c t v -> sampled tb c t w -> v == w.
Proof.
  destruct tb as [cols rows]. intros A V W.
  destruct (interp_of_sampled _ _ _ _ _ A V) as (x & X & Ex), (interp_of_sampled _ _ _ _ _ A W) as (y & Y & Ey).
  rewrite X in Y. injection Y as ->. now rewrite Ex, Ey.
Qed.

Lemma covered_sampled tb c t : ascending tb -> covered tb t ->
  exists v, interp t (points_of (tb_rows tb) c) = Ok v /\ sampled tb c t v.
Proof.
  destruct tb as [cols rows]. intros A (a & l & b & E & (pre & E') & L). cbn [tb_rows] in *.
  apply (interp_sampled cols c t rows []); [exact A|rewrite E; easy|].
  intros x m X. rewrite E in X. injection X as <- <-. apply L.
Qed.

Lemma assert_range_iff tb t : assert_range (tb_rows tb) t = Ok tt <-> covered tb t.
Proof.
  unfold assert_range, in_range, first_time, last_time, covered. destruct (tb_rows tb) as [|a l] eqn:R.
  - cbn. split; [discriminate|]. intros (x & m & b & E & _). discriminate E.
  - cbn [bind]. destruct (rev (a :: l)) as [|b m] eqn:V.
    + apply (f_equal (@List.length _)) in V. rewrite rev_length in V. discriminate V.
    + assert (B : a :: l = rev m ++ [b]).
      { rewrite <- (rev_involutive (a :: l)), V. reflexivity. }
      cbn [bind]. change (snd a "t"%string) with (time a). change (snd b "t"%string) with (time b).
      destruct (Qle_bool (time a) t && Qle_bool t (time b)) eqn:D; cbn [negb raise_if].
      * split; [intros _|reflexivity]. apply andb_prop in D. destruct D as (D1 & D2). apply Qle_bool_iff in D1, D2.
        exists a, l, b. split; [reflexivity|]. split; [exists (rev m); exact B|now split].
      * split; [discriminate|]. intros (x & k & y & E & (pre & E') & L & U). injection E as <- <-.
        rewrite E' in B. apply app_inj_tail in B. destruct B as (_ & <-). apply Qle_bool_iff in L, U. rewrite L, U in D. discriminate D.
Qed.

Lemma assert_range_err tb t e : tb_rows tb <> [] -> assert_range (tb_rows tb) t = Err e -> e = EAssertion.
Proof.
  intros N. unfold assert_range, in_range, first_time, last_time. destruct (tb_rows tb) as [|a l] eqn:R; [easy|].
  destruct (rev (a :: l)) as [|b m] eqn:V.
  - apply (f_equal (@List.length _)) in V. rewrite rev_length in V. discriminate V.
  - cbn [bind]. destruct (_ && _); cbn; congruence.
Qed.

(** One frame holds every column, at the requested time. *)
Definition frame_of (tb : table) (t : Q) (f : list (string * Q)) : Prop :=
  map fst f = tb_cols tb /\
  forall c v, In (c, v) f -> (c = "t"%string -> v = t) /\ (c <> "t"%string -> sampled tb c t v).

Lemma frame_at_ok tb t : ascending tb -> covered tb t -> exists f, frame_at tb t = Ok f /\ frame_of tb t f.
Proof.
  intros A C. unfold frame_at, frame_of.
  assert (G : forall cols, exists f, mapM (fun col => if String.eqb col "t" then Ok (col, t)
      else let* v := interp t (points_of (tb_rows tb) col) in Ok (col, v)) cols = Ok f /\ map fst f = cols /\
      forall c v, In (c, v) f -> (c = "t"%string -> v = t) /\ (c <> "t"%string -> sampled tb c t v)).
  { induction cols as [|c cols (f & F & M & P)]; [exists []; cbn; easy|]. cbn [mapM].
    destruct (String.eqb_spec c "t") as [E|E].
    - cbn [bind]. rewrite F. cbn [bind]. eexists. split; [reflexivity|]. split; [cbn; now rewrite M|].
      intros x v [X|X]; [|now apply P]. injection X as <- <-. now split.
    - destruct (covered_sampled tb c t A C) as (v & I & Sa). rewrite I. cbn [bind]. rewrite F. cbn [bind].
      eexists. split; [reflexivity|]. split; [cbn; now rewrite M|].
      intros x w [X|X]; [|now apply P]. injection X as <- <-. now split. }
  apply G.
Qed.

Theorem frames_ok tb times :
  ascending tb -> In "t"%string (tb_cols tb) -> (forall t, In t times -> covered tb t) ->
  exists fs, get_results_frames tb times = Ok fs /\ Forall2 (frame_of tb) times fs.
Proof.
  intros A T C. unfold get_results_frames. apply memS_In in T. rewrite T. cbn [negb raise_if bind].
  assert (R : exists u, mapM (assert_range (tb_rows tb)) times = Ok u).
  { clear T. induction times as [|t times IH]; [now exists []|]. cbn [mapM].
    destruct (IH (fun x X => C x (or_intror X))) as (u & U).
    rewrite (proj2 (assert_range_iff tb t) (C t (or_introl eq_refl))). cbn [bind]. rewrite U. cbn. now eexists. }
  destruct R as (u & ->). cbn [bind]. clear T. induction times as [|t times IH]; [exists []; split; [reflexivity|constructor]|].
  cbn [mapM]. destruct (frame_at_ok tb t A (C t (or_introl eq_refl))) as (f & -> & F). cbn [bind].
  destruct (IH (fun x X => C x (or_intror X))) as (fs & -> & Fs). cbn [bind]. eexists. split; [reflexivity|]. now constructor.
Qed.

Theorem frames_rejected tb times t :
  In "t"%string (tb_cols tb) -> tb_rows tb <> [] -> In t times -> ~ covered tb t ->
  get_results_frames tb times = Err EAssertion.
Proof.
  intros T N I C. unfold get_results_frames. apply memS_In in T. rewrite T. cbn [negb raise_if bind].
  assert (R : mapM (assert_range (tb_rows tb)) times = Err EAssertion); [|now rewrite R].
  clear T. induction times as [|x times IH]; [easy|]. cbn [mapM]. destruct (assert_range (tb_rows tb) x) as [[]|e] eqn:E; cbn [bind].
  - destruct I as [->|I]; [now apply assert_range_iff in E|]. now rewrite (IH I).
  - now rewrite (assert_range_err tb x e N E).
Qed.

Theorem sampled_between tb c t v : sampled tb c t v ->
  exists a b, In a (tb_rows tb) /\ In b (tb_rows tb) /\ time a <= t /\ (t <= time b \/ a = b) /\
    (at_col a c <= v <= at_col b c \/ at_col b c <= v <= at_col a c).
Proof.
  intros [(pre & a & b & post & E & (L & U) & V)|(pre & a & E & L & V)].
  - exists a, b. rewrite E. split; [apply in_or_app; right; now left|]. split; [apply in_or_app; right; right; now left|].
    split; [exact L|]. split; [left; lra|]. rewrite V.
    set (w := (t - time a) / (time b - time a)).
    assert (W0 : 0 <= w) by (apply Qle_shift_div_l; lra).
    assert (W1 : w <= 1) by (apply Qle_shift_div_r; lra).
    clearbody w. clear - W0 W1. destruct (Qlt_le_dec (at_col a c) (at_col b c)); [left|right]; split; nra.
  - exists a, a. rewrite E. split; [apply in_or_app; right; now left|]. split; [apply in_or_app; right; now left|].
    split; [exact L|]. split; [now right|]. left. lra.
Qed.

Theorem sampled_exact tb c t v r : strictly_ascending tb -> In r (tb_rows tb) -> time r == t -> sampled tb c t v -> v == at_col r c.
Proof.
  intros S I T V. assert (A : ascending tb).
  { clear -S. unfold ascending, strictly_ascending in *. induction S as [|a l S IH F]; constructor; [exact IH|].
    apply (Forall_impl _ (fun b => @Qlt_le_weak _ _) F). }
  apply (sampled_unique tb c t v _ A V). apply in_split in I. destruct I as (pre & post & E).
  destruct post as [|b post].
  - right. exists pre, r. split; [exact E|]. split; [lra|reflexivity].
  - left. exists pre, r, b, post. split; [exact E|]. assert (L : time r < time b).
    { clear -S E. unfold strictly_ascending in S. rewrite E in S. clear E. induction pre as [|p pre IH].
      - inversion S as [|? ? _ F]; subst. now inversion F.
      - inversion S; subst. now apply IH. }
    split; [lra|]. rewrite <- T. field. lra.
Qed.
