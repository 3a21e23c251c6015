(** Proofs about the evaluation of Morris trajectories. *)
From Coq Require Import Qabs Permutation Sorted Lqa.
From Verif Require Import Base BaseLemmas Morris MorrisSpec MorrisDesign MorrisStats.
Open Scope Q_scope.

(** What [run_trajectory] logs of a trajectory [l] from [x0] when the back-end
    computes [F] of the factor vector: the values of all points, the deltas
    and the names of the factors that were changed. *)
Definition logged_traj (F : list Q -> outputs) (names : list string) (x0 : list Q) (l : list (nat * Q * list Q)) (t : traj_log) : Prop :=
  tl_vals t = map F (points x0 l) /\
  tl_deltas t = map (fun p => snd (fst p)) l /\
  Forall2 (fun i n => nth_error names i = Some n) (changed l) (tl_factors t).

(** The elementary effects of a trajectory: one per step, labelled with the
    factor moved, the difference quotient of the output between two points
    that differ in this factor alone. *)
Fixpoint difference_quotients (F : list Q -> outputs) (names : list string) (x : list Q) (l : list (nat * Q * list Q))
  (rows : list (string * outputs)) : Prop :=
  match l, rows with
  | [], [] => True
  | (i, d, x') :: l', (n, e) :: rows' =>
      nth_error names i = Some n /\ moved i d x x' /\ (forall o, e o = (F x' o - F x o) / d)
      /\ difference_quotients F names x' l' rows'
  | _, _ => False
  end.

Lemma Forall2_len {A B} (R : A -> B -> Prop) a b : Forall2 R a b -> List.length a = List.length b.
Proof. induction 1; cbn; congruence. Qed.

Theorem evaluate_ok m step F names x0 l t :
  logged_traj F names x0 l t -> design m step x0 l ->
  exists rows mean, evaluate_trajectory t = Ok (rows, mean) /\ difference_quotients F names x0 l rows
    /\ forall o, mean o = qmean (map (fun x => F x o) (points x0 l)).
Proof.
  intros (V & D & N) De. destruct t as [vals deltas fs]. cbn [tl_vals tl_deltas tl_factors] in *. subst vals deltas.
  unfold evaluate_trajectory. cbn [tl_vals tl_deltas tl_factors].
  assert (L1 : List.length (map F (points x0 l)) = S (List.length l)) by (rewrite map_length; unfold points; cbn; now rewrite map_length).
  assert (L2 : List.length (map (fun p : nat * Q * list Q => snd (fst p)) l) = List.length l) by apply map_length.
  rewrite L1, L2, Nat.eqb_refl. cbn [negb raise_if bind].
  assert (L : List.length fs = List.length l).
  { apply Forall2_len in N. unfold changed in N. rewrite map_length in N. congruence. }
  rewrite L, Nat.eqb_refl. cbn [negb raise_if bind]. eexists. eexists. split; [reflexivity|]. split.
  - clear L L1 L2. revert x0 fs N De. induction l as [|[[i d] x'] l IH]; intros x0 fs N De.
    + inversion N; subst. exact I.
    + cbn in N. inversion N as [|? n ? fs' Hn N']; subst. destruct De as (M & _ & _ & De).
      cbn [map fst snd combine effect_rows difference_quotients]. cbn [map] in IH.
      split; [exact Hn|]. split; [exact M|]. split; [reflexivity|]. apply IH; assumption.
  - intros o. f_equal. rewrite map_map. reflexivity.
Qed.

(** ** Affine outputs *)

(** [F] is affine in the factors: [a + sum_i b_i x_i]. *)
Fixpoint dot (b x : list Q) : Q := match b, x with p :: b', q :: x' => p * q + dot b' x' | _, _ => 0 end.

Definition affine (F : list Q -> outputs) (o : string) (a : Q) (b : list Q) : Prop :=
  forall x, List.length x = List.length b -> F x o == a + dot b x.

Lemma dot_moved b : forall i d x x' bi, moved i d x x' -> List.length x = List.length b -> nth_error b i = Some bi ->
  dot b x' - dot b x == bi * d.
Proof.
  induction b as [|p b IH]; intros i d x x' bi (L & O & u & v & Hu & Hv & E) Lb Hb; [destruct i; discriminate|].
  destruct x as [|q x]; [discriminate|]. destruct x' as [|q' x']; [discriminate|]. cbn [dot].
  destruct i as [|i].
  - cbn in Hu, Hv, Hb. injection Hu as ->. injection Hv as ->. injection Hb as ->.
    assert (x' = x) as ->.
    { clear - O L.
      assert (H : forall j, nth_error x' j = nth_error x j) by (intros j; exact (O (S j) ltac:(lia))).
      clear O L. revert x' H. induction x as [|y x IH]; intros [|y' x'] H.
      - reflexivity.
      - specialize (H 0%nat). discriminate.
      - specialize (H 0%nat). discriminate.
      - pose proof (H 0%nat) as H0. injection H0 as ->. f_equal. apply IH. intros j. exact (H (S j)). }
    rewrite E. ring.
  - assert (q' = q) as -> by (pose proof (O 0%nat ltac:(lia)) as H0; now injection H0).
    assert (M : moved i d x x').
    { split; [cbn in L; lia|]. split; [intros j J; exact (O (S j) ltac:(lia))|]. now exists u, v. }
    specialize (IH i d x x' bi M ltac:(cbn in Lb; lia) Hb). lra.
Qed.

Lemma quotients_affine F names o a b : affine F o a b -> forall l x rows step m,
  design m step x l -> ~ step == 0 -> List.length x = List.length b ->
  difference_quotients F names x l rows ->
  Forall2 (fun t r => nth_error names (fst (fst t)) = Some (fst r) /\
                      forall bi, nth_error b (fst (fst t)) = Some bi -> snd r o == bi) l rows.
Proof.
  intros Af. induction l as [|[[i d] x'] l IH]; intros x [|[n e] rows] step m De Nz Lx Dq; cbn in Dq; try easy.
  destruct De as (M & Hd & _ & De). destruct Dq as (Hn & _ & He & Dq). constructor.
  - cbn [fst snd]. split; [exact Hn|]. intros bi Hb. rewrite He.
    rewrite (Af x Lx), (Af x').
    + pose proof (dot_moved b i d x x' bi M Lx Hb) as Q.
      assert (Dz : ~ d == 0) by (destruct Hd as [E|E]; rewrite E; [exact Nz|lra]).
      assert (X : a + dot b x' - (a + dot b x) == bi * d) by lra. rewrite X. field. exact Dz.
    + destruct M as (L & _). congruence.
  - apply (IH x' rows step m); try assumption. destruct M as (L & _). congruence.
Qed.

(** ** Means over the trajectories *)

Lemma qsum_const l c : (forall x, In x l -> x == c) -> qsum l == inject_Z (Z.of_nat (List.length l)) * c.
Proof.
  induction l as [|x l IH]; intros H.
  - cbn. ring.
  - cbn [qsum fold_right List.length]. change (fold_right Qplus 0 l) with (qsum l).
    rewrite (H x (or_introl eq_refl)), IH by (intros y Y; apply H; now right).
    rewrite Nat2Z.inj_succ. unfold Z.succ. rewrite inject_Z_plus. change (inject_Z 1) with 1. ring.
Qed.

Lemma qmean_const l c : l <> [] -> (forall x, In x l -> x == c) -> qmean l == c.
Proof.
  intros N H. unfold qmean. rewrite (qsum_const l c H). field.
  intros E. apply (inject_Z_injective _ 0) in E. destruct l; [easy|discriminate E].
Qed.

(** Rows of several trajectories, one effect of [f] in each. *)
Lemma group_concat (rss : list (list (string * outputs))) f :
  group (List.concat rss) f = List.concat (map (fun rs => group rs f) rss).
Proof.
  unfold group. induction rss as [|rs rss IH]; [reflexivity|]. cbn. now rewrite filter_app, map_app, IH.
Qed.

Lemma group_single rows f e : NoDup (map fst rows) -> In (f, e) rows -> group rows f = [e].
Proof.
  unfold group. induction rows as [|[g u] rows IH]; intros ND I; [easy|]. cbn in ND. inversion ND as [|? ? Ng ND']; subst.
  cbn [filter fst]. destruct (String.eqb_spec g f) as [->|Ne].
  - destruct I as [I|I].
    + injection I as ->. cbn. f_equal.
      assert (X : filter (fun r : string * outputs => String.eqb (fst r) f) rows = []).
      { apply filter_nil. intros [h w] Hh. cbn. apply String.eqb_neq. intros ->. apply Ng. apply in_map_iff. now exists (f, w). }
      now rewrite X.
    + exfalso. apply Ng. apply in_map_iff. now exists (f, e).
  - destruct I as [I|I]; [congruence|]. now apply IH.
Qed.

Theorem mu_is_mean std ts evs st :
  mapM evaluate_trajectory ts = Ok evs -> get_morris_stats std ts = Ok st ->
  Forall (fun ev => NoDup (map fst (fst ev))) evs ->
  forall f es, Forall2 (fun ev e => In (f, e) (fst ev)) evs es ->
  forall o, ms_mu st f o = qmean (map (fun e : outputs => e o) es)
            /\ ms_sigma st f o = std (map (fun e : outputs => e o) es).
Proof.
  intros E G ND f es F o. unfold get_morris_stats in G. rewrite E in G. cbn [bind] in G.
  destruct evs as [|ev0 evs0]; [discriminate|]. cbn [raise_if bind] in G.
  remember (ev0 :: evs0) as evs eqn:Hev. injection G as <-. cbn [ms_mu ms_sigma].
  assert (X : group (List.concat (map fst evs)) f = es).
  { rewrite group_concat, map_map. clear E Hev ev0 evs0. induction F as [|ev e evs es I F IH]; [reflexivity|].
    inversion ND as [|? ? N1 N2]; subst. cbn. rewrite (group_single _ _ _ N1 I). cbn. f_equal. now apply IH. }
  now rewrite X.
Qed.

(** ** The labels *)

Lemma quotients_labels F names : forall l x rows, difference_quotients F names x l rows ->
  Forall2 (fun i n => nth_error names i = Some n) (changed l) (map fst rows).
Proof.
  induction l as [|[[i d] x'] l IH]; intros x [|[n e] rows] Dq; cbn in Dq; try easy; [constructor|].
  destruct Dq as (Hn & _ & _ & Dq). cbn. constructor; [exact Hn|]. now apply (IH x').
Qed.

Lemma labels_NoDup (names : list string) is ns : NoDup names -> NoDup is ->
  Forall2 (fun i n => nth_error names i = Some n) is ns -> NoDup ns.
Proof.
  intros Nn Ni F. induction F as [|i n is ns H F IH]; [constructor|]. inversion Ni as [|? ? A B]; subst.
  constructor; [|now apply IH]. intros I. apply A. clear IH Ni A B.
  induction F as [|j k is ns Hj F IH]; [easy|]. destruct I as [->|I]; [|right; now apply IH].
  left. symmetry. apply (proj1 (NoDup_nth_error names) Nn); [|congruence]. apply nth_error_Some. congruence.
Qed.

(** ** Any number of trajectories of an affine model *)

Section Affine.
  Variables (m : morris) (delta : Q) (density : Z).
  Hypothesis init : morris_init delta density = Ok m.
  Hypothesis fine : (2 * density | 100000)%Z.
  Hypothesis moves : ~ round5 (mm_delta m) == 0.

  (** A trajectory the code can run: seed on the grid, any permutation, any
      signs. *)
  Definition run_of (F : list Q -> outputs) (names : list string) (t : traj_log) : Prop :=
    exists x0 perm flip l, Forall (on_grid m) x0 /\ List.length x0 = List.length names /\ (2 <= List.length x0)%nat
      /\ Permutation perm (seq 0 (List.length x0)) /\ trajectory m perm flip x0 = (l, Ok tt)
      /\ logged_traj F names x0 l t.

  Lemma run_effects F names o a b t : NoDup names -> affine F o a b -> List.length b = List.length names -> run_of F names t ->
    exists rows mean, evaluate_trajectory t = Ok (rows, mean) /\ NoDup (map fst rows)
      /\ forall i n bi, nth_error names i = Some n -> nth_error b i = Some bi -> exists e, In (n, e) rows /\ e o == bi.
  Proof using init fine moves.
    intros Nn Af Lb (x0 & perm & flip & l & G & Lx & L2 & P & T & Lg).
    destruct (trajectory_ok m delta density flip init fine perm x0 L2 G P) as (l' & T' & _ & Nc & Al & De).
    rewrite T in T'. injection T' as <-.
    destruct (evaluate_ok m _ F names x0 l t Lg De) as (rows & mean & E & Dq & _).
    exists rows, mean. split; [exact E|]. split.
    - exact (labels_NoDup names _ _ Nn Nc (quotients_labels _ _ _ _ _ Dq)).
    - intros i n bi Hn Hb.
      assert (I : In i (changed l)). { apply Al. rewrite Lx. apply nth_error_Some. congruence. }
      unfold changed in I. apply in_map_iff in I. destruct I as (st & Ei & I). subst i.
      pose proof (quotients_affine F names o a b Af l x0 rows _ m De moves (eq_trans Lx (eq_sym Lb)) Dq) as Q.
      clear - Q I Hn Hb. induction Q as [|st' [n' e] l rows (H1 & H2) Q IH]; [easy|]. destruct I as [->|I].
      + exists e. split; [|now apply H2]. left. cbn [fst] in H1. cbn [fst snd] in *. rewrite Hn in H1. now injection H1 as ->.
      + destruct (IH I) as (e' & J & X). exists e'. split; [now right|exact X].
  Qed.

  Theorem affine_recovered std F names o a b ts :
    NoDup names -> affine F o a b -> List.length b = List.length names -> ts <> [] -> Forall (run_of F names) ts ->
    exists st, get_morris_stats std ts = Ok st /\
      forall i n bi, nth_error names i = Some n -> nth_error b i = Some bi ->
        In n (ms_labels st) /\ ms_mu st n o == bi.
  Proof using init fine moves.
    intros Nn Af Lb Nt R.
    assert (Ev : exists evs, mapM evaluate_trajectory ts = Ok evs /\ List.length evs = List.length ts /\
       Forall (fun ev => NoDup (map fst (fst ev)) /\
         forall i n bi, nth_error names i = Some n -> nth_error b i = Some bi -> exists e, In (n, e) (fst ev) /\ e o == bi) evs).
    { clear Nt. induction R as [|t ts H R IH]; [exists []; repeat split; constructor|].
      destruct (run_effects F names o a b t Nn Af Lb H) as (rows & mean & E & N & Q). destruct IH as (evs & E2 & L & Q2).
      exists ((rows, mean) :: evs). cbn [mapM]. rewrite E, E2. cbn. split; [reflexivity|]. split; [congruence|]. constructor; [now split|exact Q2]. }
    destruct Ev as (evs & E & L & Q).
    assert (Ne : evs <> []) by (destruct evs, ts; cbn in L; try easy; discriminate).
    assert (S : exists st, get_morris_stats std ts = Ok st /\ ms_labels st = odedupS (map fst (List.concat (map fst evs)))).
    { unfold get_morris_stats. rewrite E. cbn [bind]. destruct evs; [easy|]. cbn [raise_if bind]. eexists. now split. }
    destruct S as (st & S & Lab). exists st. split; [exact S|]. intros i n bi Hn Hb.
    assert (Es : exists es, Forall2 (fun (ev : list (string * outputs) * outputs) e => In (n, e) (fst ev)) evs es /\ forall e, In e es -> e o == bi).
    { clear - Q Hn Hb. induction Q as [|ev evs (_ & H) Q IH]; [exists []; split; [constructor|easy]|].
      destruct (H i n bi Hn Hb) as (e & I & X). destruct IH as (es & F2 & Y). exists (e :: es). split; [now constructor|].
      intros e' [<-|I']; [exact X|now apply Y]. }
    destruct Es as (es & F2 & Eq). split.
    - rewrite Lab. apply odedupS_In. destruct evs as [|ev evs]; [easy|]. inversion F2 as [|? e ? ? I]; subst. apply in_map_iff. exists (n, e).
      split; [reflexivity|]. cbn. apply in_app_iff. now left.
    - destruct (mu_is_mean std ts evs st E S (Forall_impl _ (fun ev H => proj1 H) Q) n es F2 o) as [-> _].
      apply qmean_const.
      + pose proof (Forall2_len _ _ _ F2) as Le. destruct es; [|easy]. destruct evs; [easy|discriminate].
      + intros x X. apply in_map_iff in X. destruct X as (e & <- & I). now apply Eq.
  Qed.
End Affine.

(** ** Ranking *)

(** No score stands before a smaller one; undefined scores come last. *)
Definition before (a b : string * flt) : Prop :=
  match snd a, snd b with
  | NaN, NaN => True
  | NaN, _ => False
  | _, NaN => True
  | x, y => fltb y x = false
  end.

Lemma score_le_before a b : score_le (snd a) (snd b) = true <-> before a b.
Proof.
  unfold score_le, before. destruct (snd a) as [p| | |], (snd b) as [q| | |]; cbn; try easy.
  rewrite !negb_involutive. split; [intros ->; reflexivity|]. intros H. apply negb_false_iff in H. exact H.
Qed.

Lemma before_total a b : before a b \/ before b a.
Proof.
  unfold before. destruct (snd a) as [p| | |], (snd b) as [q| | |]; cbn; auto.
  destruct (Qlt_le_dec q p) as [L|L].
  - right. apply negb_false_iff, Qle_bool_iff. apply Qlt_le_weak. exact L.
  - left. apply negb_false_iff, Qle_bool_iff. exact L.
Qed.

Lemma before_trans a b c : before a b -> before b c -> before a c.
Proof.
  unfold before. destruct (snd a) as [p| | |], (snd b) as [q| | |], (snd c) as [r| | |]; cbn; try easy.
  rewrite !negb_false_iff, !Qle_bool_iff. intros A B. exact (Qle_trans _ _ _ A B).
Qed.

Lemma rank_insert_perm x l : Permutation (rank_insert x l) (x :: l).
Proof.
  induction l as [|y l IH]; cbn; [reflexivity|]. destruct (score_le _ _); [reflexivity|].
  rewrite IH. apply perm_swap.
Qed.

Lemma rank_sort_perm l : Permutation (rank_sort l) l.
Proof. induction l as [|x l IH]; cbn; [reflexivity|]. rewrite rank_insert_perm. now constructor. Qed.

Lemma rank_insert_sorted x l : StronglySorted before l -> StronglySorted before (rank_insert x l).
Proof.
  induction l as [|y l IH]; intros S; cbn; [constructor; constructor|].
  inversion S as [|? ? S' F]; subst. destruct (score_le (snd x) (snd y)) eqn:E.
  - apply score_le_before in E. constructor; [exact S|]. constructor; [exact E|].
    rewrite Forall_forall in *. intros z Z. exact (before_trans _ _ _ E (F z Z)).
  - assert (Y : before y x). { destruct (before_total x y) as [B|B]; [apply score_le_before in B; congruence|exact B]. }
    constructor; [now apply IH|]. rewrite Forall_forall in *. intros z Z.
    apply (Permutation_in _ (rank_insert_perm x l)) in Z. destruct Z as [<-|Z]; [exact Y|now apply F].
Qed.

Lemma rank_sort_sorted l : StronglySorted before (rank_sort l).
Proof. induction l as [|x l IH]; cbn; [constructor|]. now apply rank_insert_sorted. Qed.

Theorem ranking_ok std cols meth outs logs r :
  get_ranking std cols meth outs logs = Ok r ->
  exists ms m0 rest, mapM (get_morris_stats std) logs = Ok ms /\ ms = m0 :: rest /\ incl outs cols /\
    StronglySorted before r /\ Permutation r (map (fun f => (f, score meth ms outs f)) (ms_labels m0)).
Proof.
  unfold get_ranking. destruct (mapM (get_morris_stats std) logs) as [ms|e]; cbn [bind]; [|discriminate].
  destruct ms as [|m0 rest]; [discriminate|]. destruct (subsetS outs cols) eqn:S; cbn [negb raise_if bind]; [|discriminate].
  intros H. injection H as <-. exists (m0 :: rest), m0, rest. split; [reflexivity|]. split; [reflexivity|].
  split; [now apply subsetS_incl|]. split; [apply rank_sort_sorted|apply rank_sort_perm].
Qed.

(** ** The score *)

Definition num (x : flt) : Prop := exists q, x = Fin q.

Lemma nansum_fin l : nansum (map Fin l) = Fin (fold_left Qplus l 0).
Proof.
  unfold nansum. generalize 0 at 1 2. induction l as [|x l IH]; intros a; [reflexivity|]. cbn. apply IH.
Qed.

Lemma fold_qsum l a : fold_left Qplus l a == a + qsum l.
Proof.
  revert a. induction l as [|x l IH]; intros a; cbn; [ring|]. rewrite IH. change (fold_right Qplus 0 l) with (qsum l). ring.
Qed.

(** Largest of a non-empty list of numbers. *)
Lemma nanmax_fin l : l <> [] -> exists x, In x l /\ nanmax (map Fin l) = Fin x /\ forall y, In y l -> y <= x.
Proof.
  destruct l as [|a l]; [easy|]. intros _. unfold nanmax. cbn [map fold_left is_nan].
  revert a. induction l as [|b l IH]; intros a.
  - exists a. split; [now left|]. split; [reflexivity|]. intros y [<-|[]]. apply Qle_refl.
  - cbn [map fold_left is_nan]. destruct (fltb (Fin a) (Fin b)) eqn:F.
    + destruct (IH b) as (x & I & E & M). exists x. split; [destruct I as [<-|I]; [right; now left|right; now right]|]. split; [exact E|].
      cbn in F. apply negb_true_iff in F. assert (A : a <= b).
      { apply Qnot_lt_le. intros L. apply Qlt_le_weak, Qle_bool_iff in L. congruence. }
      intros y [<-|[<-|I']]; [exact (Qle_trans _ _ _ A (M b (or_introl eq_refl)))|now apply M; left|now apply M; right].
    + destruct (IH a) as (x & I & E & M). exists x. split; [destruct I as [<-|I]; [now left|right; now right]|]. split; [exact E|].
      cbn in F. apply negb_false_iff, Qle_bool_iff in F.
      intros y [<-|[<-|I']]; [now apply M; left|exact (Qle_trans _ _ _ F (M a (or_introl eq_refl)))|now apply M; right].
Qed.

Lemma nanmax_nan l : Forall (fun x => x = NaN) l -> nanmax l = NaN.
Proof. unfold nanmax. induction 1 as [|x l -> F IH]; [reflexivity|]. exact IH. Qed.

Lemma undefined_sigma outs ms f :
  (forall m o, In m ms -> ms_sigma m f o = NaN) -> score RMax ms outs f = NaN.
Proof.
  intros S. cbn [score]. apply nanmax_nan. rewrite Forall_forall. intros x X. apply in_map_iff in X. destruct X as (m & <- & I).
  assert (E : nanmax (map (sigma_rel m f) outs) = NaN).
  { apply nanmax_nan. rewrite Forall_forall. intros y Y. apply in_map_iff in Y. destruct Y as (o & <- & _).
    unfold sigma_rel. rewrite (S m o I). unfold fdivq. destruct (Qeq_bool (ms_mean m o) 0); reflexivity. }
  rewrite E. generalize (nanmax (map (fun o => fabs (mu_rel m f o)) outs)). now intros [].
Qed.

Lemma effect_rows_length : forall deltas vals, List.length vals = S (List.length deltas) ->
  List.length (effect_rows vals deltas) = List.length deltas.
Proof.
  induction deltas as [|d ds IH]; intros [|a [|b vals]] L; cbn in L |- *; try discriminate; [reflexivity|].
  f_equal. apply (IH (b :: vals)). cbn. lia.
Qed.

(** One trajectory only: the standard deviation is undefined, and so is every
    score with the default method. *)
Theorem single_trajectory_nan std cols outs fs logs r :
  (forall x, std [x] = NaN) -> NoDup fs ->
  Forall (fun ts => exists t, ts = [t] /\ tl_factors t = fs) logs ->
  get_ranking std cols RMax outs logs = Ok r -> forall f v, In (f, v) r -> v = NaN.
Proof.
  intros Hs ND Hl G f v I. destruct (ranking_ok _ _ _ _ _ _ G) as (ms & m0 & rest & E & Em & _ & _ & P).
  apply (Permutation_in _ P) in I. apply in_map_iff in I. destruct I as (g & Eg & Ig). injection Eg as -> <-.
  assert (Q : Forall (fun m => (forall x, In x (ms_labels m) <-> In x fs) /\ forall x o, In x fs -> ms_sigma m x o = NaN) ms).
  { clear G P Em Ig. revert ms E. induction Hl as [|ts logs (t & -> & Ht) Hl IH]; intros ms E; cbn [mapM] in E.
    - injection E as <-. constructor.
    - destruct (get_morris_stats std [t]) as [m|e] eqn:Gm; cbn [bind] in E; [|discriminate].
      destruct (mapM (get_morris_stats std) logs) as [ms'|e]; cbn [bind] in E; [|discriminate]. injection E as <-.
      constructor; [|now apply IH].
      unfold get_morris_stats in Gm. cbn [mapM] in Gm. destruct (evaluate_trajectory t) as [ev|e] eqn:Ev; cbn [bind] in Gm; [|discriminate].
      cbn [raise_if bind] in Gm. injection Gm as <-. cbn [ms_labels ms_sigma].
      unfold evaluate_trajectory in Ev. destruct (negb _) eqn:L1 in Ev; [discriminate|]. cbn [raise_if bind] in Ev.
      destruct (negb _) eqn:L2 in Ev; [discriminate|]. cbn [raise_if bind] in Ev. injection Ev as <-. cbn [map fst List.concat].
      apply negb_false_iff, Nat.eqb_eq in L1, L2. rewrite app_nil_r, Ht in *.
      pose proof (effect_rows_length _ _ L1) as L3.
      assert (X : map fst (combine fs (effect_rows (tl_vals t) (tl_deltas t))) = fs).
      { revert L2 L3. generalize (effect_rows (tl_vals t) (tl_deltas t)) as rs. generalize (List.length (tl_deltas t)) as k. clear.
        induction fs as [|y fs IH]; intros k [|w rs] A B; cbn in *; try reflexivity; [lia|]. f_equal. apply (IH (pred k)); lia. }
      split.
      + intros x. rewrite odedupS_In, X. reflexivity.
      + intros x o Ix. rewrite <- X in Ix, ND. apply in_map_iff in Ix. destruct Ix as ([x' e] & Ex & Ix). cbn in Ex. subst x'.
        rewrite (group_single _ _ _ ND Ix). apply Hs. }
  rewrite Forall_forall in Q. apply undefined_sigma. intros m o Im. apply (Q m Im). apply (Q m0); [subst ms; now left|exact Ig].
Qed.

(** ** The scores, when all values are numbers *)

(** The relative mean effect and spread of a factor on an output. *)
Definition rel_effect (m : morris_stats) (f o : string) : Q := Qabs (ms_mu m f o / ms_mean m o).
Definition rel_spread (sg : morris_stats -> string -> Q) (m : morris_stats) (o : string) : Q := sg m o / ms_mean m o.

Definition numbers (ms : list morris_stats) (outs : list string) (f : string) (sg : morris_stats -> string -> Q) : Prop :=
  forall m o, In m ms -> In o outs -> ms_sigma m f o = Fin (sg m o) /\ ~ ms_mean m o == 0.

Lemma fdivq_fin x y : ~ y == 0 -> fdivq (Fin x) y = Fin (x / y).
Proof.
  intros N. unfold fdivq. destruct (Qeq_bool y 0) eqn:E; [|reflexivity]. apply Qeq_bool_iff in E. now apply N in E.
Qed.

Lemma effects_fin ms outs f sg m : numbers ms outs f sg -> In m ms ->
  map (fun o => fabs (mu_rel m f o)) outs = map Fin (map (rel_effect m f) outs).
Proof.
  intros N I. rewrite map_map. apply map_ext_in. intros o Io. unfold mu_rel.
  rewrite fdivq_fin; [reflexivity|]. now apply (N m o I Io).
Qed.

Lemma spreads_fin ms outs f sg m : numbers ms outs f sg -> In m ms ->
  map (sigma_rel m f) outs = map Fin (map (rel_spread sg m) outs).
Proof.
  intros N I. rewrite map_map. apply map_ext_in. intros o Io. unfold sigma_rel. destruct (N m o I Io) as (-> & Z).
  now rewrite fdivq_fin.
Qed.

Lemma qsum_cons a l : qsum (a :: l) = a + qsum l.
Proof. reflexivity. Qed.

Theorem score_max_ok ms outs f sg : ms <> [] -> outs <> [] -> numbers ms outs f sg ->
  exists v, score RMax ms outs f = Fin v /\
    (exists m o o', In m ms /\ In o outs /\ In o' outs /\ v = rel_effect m f o + rel_spread sg m o') /\
    (forall m o o', In m ms -> In o outs -> In o' outs -> rel_effect m f o + rel_spread sg m o' <= v).
Proof.
  intros Nm No N. cbn [score].
  assert (P : exists g : morris_stats -> Q, forall m, In m ms ->
    fadd (nanmax (map (fun o => fabs (mu_rel m f o)) outs)) (nanmax (map (sigma_rel m f) outs)) = Fin (g m) /\
    (exists o o', In o outs /\ In o' outs /\ g m = rel_effect m f o + rel_spread sg m o') /\
    (forall o o', In o outs -> In o' outs -> rel_effect m f o + rel_spread sg m o' <= g m)).
  { exists (fun m => match fadd (nanmax (map (fun o => fabs (mu_rel m f o)) outs)) (nanmax (map (sigma_rel m f) outs)) with Fin q => q | _ => 0 end).
    intros m I. rewrite (effects_fin ms outs f sg m N I), (spreads_fin ms outs f sg m N I).
    assert (K : forall h : string -> Q, map h outs <> []) by (intros h E; apply map_eq_nil in E; contradiction).
    destruct (nanmax_fin (map (rel_effect m f) outs) (K _)) as (x & Ix & -> & Mx).
    destruct (nanmax_fin (map (rel_spread sg m) outs) (K _)) as (y & Iy & -> & My).
    cbn [fadd]. split; [reflexivity|]. apply in_map_iff in Ix, Iy. destruct Ix as (o & <- & Io), Iy as (o' & <- & Io').
    split; [exists o, o'; auto|]. intros p p' Ip Ip'. apply Qplus_le_compat; [apply Mx|apply My]; now apply in_map. }
  destruct P as (g & P).
  rewrite (map_ext_in _ (fun m => Fin (g m))); [|intros m I; apply (P m I)]. rewrite <- map_map.
  destruct (nanmax_fin (map g ms)) as (v & Iv & -> & M); [intros E; now apply map_eq_nil in E|].
  exists v. split; [reflexivity|]. split.
  - apply in_map_iff in Iv. destruct Iv as (m & <- & Im). destruct (P m Im) as (_ & (o & o' & A & B & C) & _). exists m, o, o'. auto.
  - intros m o o' Im Io Io'. apply Qle_trans with (g m); [now apply (P m Im)|]. apply M. now apply in_map.
Qed.

Theorem score_mean_ok ms outs f sg : ms <> [] -> outs <> [] -> numbers ms outs f sg ->
  exists v, score RMean ms outs f = Fin v /\
    v == qmean (map (fun m => qmean (map (fun o => rel_effect m f o + rel_spread sg m o) outs)) ms).
Proof.
  intros Nm No N. cbn [score].
  assert (P : forall l a, incl l ms ->
    exists b, fold_left (fun a m => fadd (fadd a (nansum (map (fun o => fabs (mu_rel m f o)) outs))) (nansum (map (sigma_rel m f) outs))) l (Fin a) = Fin b
      /\ b == a + qsum (map (fun m => qsum (map (fun o => rel_effect m f o + rel_spread sg m o) outs)) l)).
  { induction l as [|m l IH]; intros a I; [exists a; split; [reflexivity|cbn; ring]|]. cbn [fold_left].
    assert (Im : In m ms) by (apply I; now left).
    rewrite (effects_fin ms outs f sg m N Im), (spreads_fin ms outs f sg m N Im), !nansum_fin. cbn [fadd].
    destruct (IH (a + fold_left Qplus (map (rel_effect m f) outs) 0 + fold_left Qplus (map (rel_spread sg m) outs) 0)) as (b & E & B).
    { intros x X. apply I. now right. }
    exists b. split; [exact E|]. rewrite B, !fold_qsum. cbn [map]. rewrite (qsum_cons (qsum _)).
    assert (S : forall os, qsum (map (fun o => rel_effect m f o + rel_spread sg m o) os) == qsum (map (rel_effect m f) os) + qsum (map (rel_spread sg m) os)).
    { clear. induction os as [|o os IH]; [reflexivity|]. unfold qsum in *. cbn [map fold_right]. rewrite IH. ring. }
    rewrite S. ring. }
  destruct (P ms 0 (incl_refl _)) as (b & E & B). rewrite E.
  assert (L : forall A (l : list A), l <> [] -> ~ inject_Z (Z.of_nat (List.length l)) == 0).
  { intros A [|x l] H X; [easy|]. apply (proj1 (inject_Z_injective _ 0)) in X. cbn [List.length] in X. apply (Nat2Z.inj _ 0) in X. discriminate X. }
  rewrite !fdivq_fin by (apply L; assumption). eexists. split; [reflexivity|].
  rewrite B. unfold qmean. rewrite !map_length.
  assert (S : forall (g : morris_stats -> Q) k l, qsum (map (fun m => g m / k) l) == qsum (map g l) / k).
  { intros g k. induction l as [|x l IH]; unfold qsum in *; cbn [map fold_right]; [unfold Qdiv; ring|]. rewrite IH. unfold Qdiv. ring. }
  assert (M : map (fun m => qsum (map (fun o => rel_effect m f o + rel_spread sg m o) outs) / inject_Z (Z.of_nat (List.length (map (fun o => rel_effect m f o + rel_spread sg m o) outs)))) ms
            = map (fun m => qsum (map (fun o => rel_effect m f o + rel_spread sg m o) outs) / inject_Z (Z.of_nat (List.length outs))) ms).
  { apply map_ext. intros m. now rewrite map_length. }
  rewrite M, (S (fun m => qsum (map (fun o => rel_effect m f o + rel_spread sg m o) outs))).
  unfold Qdiv. ring.
Qed.
