(** Proofs about compress_solution. *)
From Coq Require Import Qabs Sorted Lqa Permutation.
From Verif Require Import Base BaseLemmas Morris MorrisStats Tables TablesSpec TablesProofs.
Open Scope Q_scope.

Lemma loc_nth d : forall rows s k, map fst rows = map Z.of_nat (seq s (List.length rows)) -> (k < List.length rows)%nat ->
  loc rows (Z.of_nat (s + k)) = Ok (snd (nth k rows d)).
Proof.
  unfold loc. induction rows as [|[i r] rows IH]; intros s k E L; cbn [List.length] in L; [lia|].
  cbn [map List.length seq fst] in E. injection E as Ei E. subst i. cbn [aget]. destruct k as [|k].
  - rewrite Nat.add_0_r, Z.eqb_refl. reflexivity.
  - destruct (Z.eqb_spec (Z.of_nat (s + S k)) (Z.of_nat s)) as [X|_]; [lia|]. cbn [nth].
    replace (s + S k)%nat with (S s + k)%nat by lia. apply IH; [exact E|lia].
Qed.

Lemma label_nth (d : Z * row) : forall rows s k, map fst rows = map Z.of_nat (seq s (List.length rows)) -> (k < List.length rows)%nat ->
  fst (nth k rows d) = Z.of_nat (s + k).
Proof.
  induction rows as [|[i r] rows IH]; intros s k E L; cbn [List.length] in L; [lia|].
  cbn [map List.length seq fst] in E. injection E as Ei E. destruct k as [|k]; cbn [nth fst]; [now rewrite Nat.add_0_r|].
  rewrite (IH (S s)); [f_equal; lia|exact E|lia].
Qed.

Lemma close_iff cols thr (a b : Z * row) :
  (forall c, In c cols -> 0 <= at_col a c) ->
  all_close cols thr (snd a) (snd b) = true <->
  forall c, In c cols -> c <> "t"%string -> 0 < at_col a c /\ Qabs (at_col b c - at_col a c) < thr * at_col a c.
Proof.
  intros N. unfold all_close. rewrite forallb_forall.
  assert (P : forall c, In c cols -> c <> "t"%string ->
    fltb (fdivq (Fin (Qabs (snd b c - snd a c))) (snd a c)) (Fin thr) = true <->
    0 < at_col a c /\ Qabs (at_col b c - at_col a c) < thr * at_col a c).
  { intros c I _. specialize (N c I). change (snd a c) with (at_col a c). change (snd b c) with (at_col b c).
    generalize dependent (at_col a c). generalize (at_col b c). clear. intros y x N. unfold fdivq.
    destruct (Qeq_bool x 0) eqn:Z.
    - apply Qeq_bool_iff in Z. assert (A : (if Qeq_bool (Qabs (y - x)) 0 then NaN else if Qltb 0 (Qabs (y - x)) then PInf else NInf) = NaN
        \/ (if Qeq_bool (Qabs (y - x)) 0 then NaN else if Qltb 0 (Qabs (y - x)) then PInf else NInf) = PInf).
      { destruct (Qeq_bool (Qabs (y - x)) 0) eqn:W; [now left|right].
        assert (H : 0 < Qabs (y - x)).
        { destruct (Qlt_le_dec 0 (Qabs (y - x))) as [H|H]; [exact H|]. exfalso. pose proof (Qabs_nonneg (y - x)).
          assert (Q : Qabs (y - x) == 0) by lra. apply Qeq_bool_iff in Q. congruence. }
        apply Qltb_iff in H. now rewrite H. }
      destruct A as [-> | ->]; cbn; (split; [discriminate|lra]).
    - assert (X : 0 < x).
      { destruct (Qlt_le_dec 0 x) as [H|H]; [exact H|]. exfalso. assert (Q : x == 0) by lra. apply Qeq_bool_iff in Q. congruence. }
      cbn [fltb]. rewrite negb_true_iff. split.
      + intros E. split; [exact X|]. assert (L : Qabs (y - x) / x < thr).
        { apply Qnot_le_lt. intros L. apply Qle_bool_iff in L. congruence. }
        apply (Qmult_lt_r _ _ x X) in L. assert (Q : Qabs (y - x) / x * x == Qabs (y - x)) by (field; lra). lra.
      + intros (_ & L). destruct (Qle_bool thr (Qabs (y - x) / x)) eqn:E; [|reflexivity]. apply Qle_bool_iff in E.
        apply (Qmult_le_compat_r _ _ x) in E; [|lra]. assert (Q : Qabs (y - x) / x * x == Qabs (y - x)) by (field; lra). lra. }
  split; intros H c I.
  - intros T. apply (P c I T). specialize (H c I). destruct (String.eqb_spec c "t"); [contradiction|exact H].
  - destruct (String.eqb_spec c "t") as [_|T]; [reflexivity|]. apply (P c I T). now apply H.
Qed.

Section Compress.
  Variables (tb : table) (thr step : Q) (d : Z * row).
  Hypothesis idx : default_index tb.
  Let n := List.length (tb_rows tb).
  Let at_row k := nth k (tb_rows tb) d.
  Let test (a b : Z * row) : bool :=
    if Qltb (Qabs (snd b "t"%string - snd a "t"%string)) step then true else all_close (tb_cols tb) thr (snd a) (snd b).

  Lemma inner_ok front : (front < n)%nat -> forall fuel next drop, (front < next <= n - 1)%nat -> (n - 1 - next < fuel)%nat ->
    exists next', (next <= next' <= n - 1)%nat /\
      compress_inner fuel tb thr step (Z.of_nat front) (Z.of_nat next) drop
        = Ok (Z.of_nat next', rev (map Z.of_nat (seq next (next' - next))) ++ drop) /\
      (forall k, (next <= k < next')%nat -> test (at_row front) (at_row k) = true) /\
      (next' = (n - 1)%nat \/ test (at_row front) (at_row next') = false).
  Proof using idx.
    intros F. induction fuel as [|fuel IH]; intros next drop B Fu; [lia|]. cbn [compress_inner]. fold n.
    destruct (Z.geb_spec (Z.of_nat next) (Z.of_nat n - 1)) as [G|G].
    - assert (next = n - 1)%nat by lia. exists next. rewrite Nat.sub_diag. split; [lia|]. split; [reflexivity|]. split; [lia|now left].
    - pose proof (loc_nth d _ 0 next idx ltac:(fold n; lia)) as L1. pose proof (loc_nth d _ 0 front idx ltac:(fold n; lia)) as L2.
      cbn [Nat.add] in L1, L2. rewrite L1. cbn [bind]. rewrite L2. cbn [bind].
      fold (at_row next) (at_row front).
      assert (T : test (at_row front) (at_row next) = true ->
        exists next', (next <= next' <= n - 1)%nat /\
          compress_inner fuel tb thr step (Z.of_nat front) (Z.of_nat next + 1) (Z.of_nat next :: drop)
            = Ok (Z.of_nat next', rev (map Z.of_nat (seq next (next' - next))) ++ drop) /\
          (forall k, (next <= k < next')%nat -> test (at_row front) (at_row k) = true) /\
          (next' = (n - 1)%nat \/ test (at_row front) (at_row next') = false)).
      { intros T. destruct (IH (S next) (Z.of_nat next :: drop)) as (next' & B' & E & A & D); [lia|lia|].
        exists next'. split; [lia|]. split.
        - replace (Z.of_nat next + 1)%Z with (Z.of_nat (S next)) by lia. rewrite E.
          replace (next' - next)%nat with (S (next' - S next)) by lia. cbn [seq map rev]. now rewrite <- app_assoc.
        - split; [|exact D]. intros k Hk. destruct (Nat.eq_dec k next) as [->|]; [exact T|apply A; lia]. }
      unfold test in T at 1. destruct (Qltb _ step) eqn:Q1 in T |- *; [now apply T|].
      destruct (all_close _ _ _ _) eqn:Q2 in T |- *; [now apply T|].
      exists next. rewrite Nat.sub_diag. split; [lia|]. split; [reflexivity|]. split; [lia|right]. unfold test. now rewrite Q1.
  Qed.

  Lemma skipn_nth : forall k, (k < n)%nat -> skipn k (tb_rows tb) = at_row k :: skipn (S k) (tb_rows tb).
  Proof.
    subst n at_row. cbn beta. induction (tb_rows tb) as [|r rows IH]; intros k L; cbn [List.length] in L; [lia|].
    destruct k as [|k]; [reflexivity|]. cbn [skipn nth]. apply IH. lia.
  Qed.

  Lemma skipn_range : forall len k, (k + len <= n)%nat ->
    skipn k (tb_rows tb) = map at_row (seq k len) ++ skipn (k + len) (tb_rows tb).
  Proof.
    induction len as [|len IH]; intros k L; [now rewrite Nat.add_0_r|]. rewrite skipn_nth by lia. cbn [seq map app].
    f_equal. replace (k + S len)%nat with (S k + len)%nat by lia. apply IH. lia.
  Qed.

  Lemma outer_ok : forall fuel front drop, (front <= n - 1)%nat -> (0 < n)%nat -> (n - 1 - front < fuel)%nat ->
    exists groups D,
      compress_outer fuel tb thr step (Z.of_nat front) drop = Ok (D ++ drop) /\
      skipn front (tb_rows tb) = flat_map (fun g => fst g :: snd g) groups ++ [at_row (n - 1)] /\
      (forall z, In z D <-> exists x, In x (flat_map snd groups) /\ fst x = z) /\
      (forall fr ds x, In (fr, ds) groups -> In x ds -> test fr x = true) /\
      (forall pre fr ds fr' ds' post, groups = pre ++ (fr, ds) :: (fr', ds') :: post -> test fr fr' = false) /\
      (groups = [] \/ exists ds gs, groups = (at_row front, ds) :: gs).
  Proof using idx.
    induction fuel as [|fuel IH]; intros front drop B N Fu; [lia|]. cbn [compress_outer]. fold n.
    destruct (Z.geb_spec (Z.of_nat front) (Z.of_nat n - 1)) as [G|G].
    - assert (front = n - 1)%nat by lia. subst front. exists [], []. split; [reflexivity|]. split.
      { rewrite skipn_nth by lia. cbn [flat_map app]. f_equal. apply skipn_all2. fold n. lia. }
      split; [intros z; split; [easy|intros (x & X & _); easy]|]. split; [easy|]. split; [|now left].
      intros pre fr ds fr' ds' post E. apply (f_equal (@List.length _)) in E. rewrite app_length in E. cbn in E. lia.
    - destruct (inner_ok front ltac:(lia) (S n) (S front) drop) as (next & B' & E & A & D); [lia|lia|].
      replace (Z.of_nat front + 1)%Z with (Z.of_nat (S front)) by lia. rewrite E. cbn [bind fst snd].
      destruct (IH next (rev (map Z.of_nat (seq (S front) (next - S front))) ++ drop)) as (gs & D' & E' & K & M & T & C & H); [lia|lia|lia|].
      exists ((at_row front, map at_row (seq (S front) (next - S front))) :: gs), (D' ++ rev (map Z.of_nat (seq (S front) (next - S front)))).
      split; [now rewrite <- app_assoc|]. split.
      { rewrite skipn_nth by lia. cbn [flat_map fst snd app]. f_equal.
        rewrite (skipn_range (next - S front) (S front)) by lia. replace (S front + (next - S front))%nat with next by lia.
        rewrite K. now rewrite app_assoc. }
      assert (Lb : forall k, (S front <= k < next)%nat -> fst (at_row k) = Z.of_nat k).
      { intros k Hk. unfold at_row. apply (label_nth d _ 0 k idx). fold n. lia. }
      split.
      { intros z. rewrite in_app_iff, M, <- in_rev, in_map_iff. cbn [flat_map snd]. split.
        - intros [(x & X & <-)|(k & <- & Ik)].
          + exists x. split; [apply in_or_app; now right|reflexivity].
          + apply in_seq in Ik. exists (at_row k). split; [|apply Lb; lia]. apply in_or_app. left. apply in_map, in_seq. lia.
        - intros (x & X & <-). apply in_app_or in X. destruct X as [X|X]; [right|left; now exists x].
          apply in_map_iff in X. destruct X as (k & <- & Ik). exists k. split; [|exact Ik]. apply in_seq in Ik. rewrite Lb by lia. reflexivity. }
      split.
      { intros fr ds x [X|X] Ix; [|now apply (T fr ds)]. injection X as <- <-. apply in_map_iff in Ix. destruct Ix as (k & <- & Ik).
        apply in_seq in Ik. apply A. lia. }
      split; [|right; eexists; eexists; reflexivity].
      intros [|g pre] fr ds fr' ds' post X.
      + cbn [app] in X. injection X as <- <- X. destruct H as [->|(ds2 & gs2 & ->)]; [discriminate X|]. injection X as <- <- <-.
        destruct D as [->|D]; [|exact D]. exfalso.
        apply (f_equal (@List.length _)) in K. rewrite skipn_length, app_length in K. fold n in K. cbn in K. lia.
      + cbn [app] in X. injection X as _ X. now apply (C pre fr ds fr' ds' post).
  Qed.
End Compress.

Lemma flat_perm {A} (gs : list (A * list A)) : Permutation (flat_map (fun g => fst g :: snd g) gs) (map fst gs ++ flat_map snd gs).
Proof.
  induction gs as [|[x l] gs IH]; [constructor|]. cbn [flat_map map fst snd app]. constructor.
  rewrite IH, !app_assoc. apply Permutation_app_tail, Permutation_app_comm.
Qed.

Lemma filter_groups {A} (p : A -> bool) (gs : list (A * list A)) :
  (forall x, In x (map fst gs) -> p x = true) -> (forall x, In x (flat_map snd gs) -> p x = false) ->
  filter p (flat_map (fun g => fst g :: snd g) gs) = map fst gs.
Proof.
  induction gs as [|[x l] gs IH]; intros T F; [reflexivity|]. cbn [flat_map map fst snd app filter] in *.
  rewrite (T x (or_introl eq_refl)). f_equal. rewrite filter_app, IH.
  - replace (filter p l) with (@nil A); [reflexivity|]. symmetry. apply filter_nil. intros y Y. apply F, in_or_app. now left.
  - intros y Y. apply T. now right.
  - intros y Y. apply F, in_or_app. now right.
Qed.

Lemma NoDup_app_r {A} (l m : list A) x : NoDup (l ++ m) -> In x l -> In x m -> False.
Proof.
  induction l as [|y l IH]; [easy|]. cbn. intros N [->|I] M; inversion N; subst; [|now apply IH].
  apply H1, in_or_app. now right.
Qed.

Theorem compress_ok tb thr mts : default_index tb -> non_negative tb -> In "t"%string (tb_cols tb) -> tb_rows tb <> [] ->
  exists out last, compress_solution tb thr mts = Ok out /\ tb_cols out = tb_cols tb /\
    (exists pre, tb_rows tb = pre ++ [last]) /\
    thinned (redundant (tb_cols tb) thr (time last * mts)) (tb_rows tb) (tb_rows out).
Proof.
  intros I P T N. unfold compress_solution. apply memS_In in T. rewrite T. cbn [negb raise_if bind].
  destruct (exists_last N) as (pre & last & E).
  assert (LT : last_time (tb_rows tb) = Ok (time last)) by (unfold last_time; rewrite E, rev_app_distr; reflexivity).
  rewrite LT. cbn [bind].
  assert (L : (0 < List.length (tb_rows tb))%nat) by (rewrite E, app_length; cbn; lia).
  destruct (outer_ok tb thr (time last * mts) last I (S (List.length (tb_rows tb))) 0 []) as (gs & D & O & K & M & A & C & _); [lia|exact L|lia|].
  cbn [Z.of_nat] in O. rewrite O. cbn [bind]. rewrite app_nil_r in *. cbn [skipn] in K.
  assert (La : nth (List.length (tb_rows tb) - 1) (tb_rows tb) last = last).
  { rewrite E, app_length. cbn [List.length]. rewrite app_nth2 by lia. replace (_ - _ - _)%nat with 0%nat by lia. reflexivity. }
  rewrite La in K.
  assert (ND : NoDup (map fst (tb_rows tb))).
  { rewrite I. apply FinFun.Injective_map_NoDup; [intros x y; lia|apply seq_NoDup]. }
  assert (Pm : Permutation (tb_rows tb) (last :: map fst gs ++ flat_map snd gs)).
  { rewrite K at 1. rewrite Permutation_app_comm. cbn [app]. constructor. apply flat_perm. }
  assert (ND2 : NoDup (map fst (last :: map fst gs ++ flat_map snd gs))).
  { now apply (Permutation_NoDup (Permutation_map fst Pm)). }
  unfold drop_rows.
  assert (Dk : forallb (fun i => memZ i (map fst (tb_rows tb))) D = true).
  { apply forallb_forall. intros z Z. apply M in Z. destruct Z as (x & X & <-). apply memZ_In, in_map. rewrite Pm. right. apply in_or_app. now right. }
  rewrite Dk. cbn [negb raise_if bind]. eexists. exists last. split; [reflexivity|]. cbn [tb_cols tb_rows]. split; [reflexivity|].
  split; [now exists pre|].
  assert (Keep : forall x, In x (last :: map fst gs) -> negb (memZ (fst x) D) = true).
  { intros x X. apply negb_true_iff, memZ_false. intros Z. apply M in Z. destruct Z as (y & Y & Eq).
    change (last :: map fst gs ++ flat_map snd gs) with ((last :: map fst gs) ++ flat_map snd gs) in ND2. rewrite map_app in ND2.
    apply (NoDup_app_r _ _ (fst x) ND2); [now apply in_map|]. rewrite <- Eq. now apply in_map. }
  assert (Step : forall a b, In a (tb_rows tb) ->
     (if Qltb (Qabs (snd b "t"%string - snd a "t"%string)) (time last * mts) then true else all_close (tb_cols tb) thr (snd a) (snd b)) = true
     <-> redundant (tb_cols tb) thr (time last * mts) a b).
  { intros a b Ia. unfold redundant. rewrite <- (close_iff (tb_cols tb) thr a b (fun c Ic => P a c Ia Ic)).
    change (snd b "t"%string) with (time b). change (snd a "t"%string) with (time a).
    destruct (Qltb _ _) eqn:Q; [apply Qltb_iff in Q; tauto|]. apply Qltb_false in Q. split; [tauto|]. intros [X|X]; [lra|exact X]. }
  assert (Fr : forall fr ds, In (fr, ds) gs -> In fr (tb_rows tb)).
  { intros fr ds X. rewrite Pm. right. apply in_or_app. left. apply in_map_iff. now exists (fr, ds). }
  exists gs, last. split; [exact K|]. split.
  { rewrite K at 1. rewrite filter_app, filter_groups.
    - cbn [filter]. now rewrite (Keep last (or_introl eq_refl)).
    - intros x X. apply Keep. now right.
    - intros x X. apply negb_false_iff, memZ_In, M. now exists x. }
  split.
  - intros fr ds x X Ix. apply Step; [now apply (Fr fr ds)|]. now apply (A fr ds).
  - intros pr fr ds fr' ds' po X R. apply Step in R; [|apply (Fr fr ds); rewrite X; apply in_or_app; right; now left].
    pose proof (C pr fr ds fr' ds' po X) as Cx. discriminate (eq_trans (eq_sym R) Cx).
Qed.
