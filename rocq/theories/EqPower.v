(** The power profile. *)
From Coq Require Import Reals Qreals Qabs Sorted.
From Verif Require Import Base BaseLemmas Morris Tables TablesProofs ExtReal Equations EqSpec EqPure.
From Coq Require Import Lqa.
Open Scope Q_scope.

(** The loop as a recursion. *)
Fixpoint adj (int : bool) (d a : Q) (l : list Q) : list Q :=
  match l with
  | b :: l' => if Qeq_bool a b then store int (a - d) :: adj int d (store int (b + d)) l' else a :: adj int d b l'
  | [] => [a]
  end.

Lemma adjust_shift int d js : forall a l,
  fold_left (fun l i => adjust_at int d i l) (map Datatypes.S js) (a :: l) = a :: fold_left (fun l i => adjust_at int d i l) js l.
Proof.
  induction js as [|j js IH]; intros a l; [reflexivity|]. cbn [map fold_left].
  replace (adjust_at int d (Datatypes.S j) (a :: l)) with (a :: adjust_at int d j l) by (destruct l; reflexivity).
  apply IH.
Qed.

Lemma adjust_adj int d : forall l a, adjust int d (a :: l) = adj int d a l.
Proof.
  assert (H : forall n l a, List.length l = n ->
    fold_left (fun l i => adjust_at int d i l) (seq 0 n) (a :: l) = adj int d a l).
  { induction n as [|n IH]; intros l a L; destruct l as [|b l]; try discriminate L; [reflexivity|].
    cbn [seq fold_left adjust_at]. rewrite <- seq_shift. injection L as L. cbn [adj].
    destruct (Qeq_bool a b); rewrite adjust_shift, IH by exact L; reflexivity. }
  intros l a. unfold adjust. cbn [List.length]. rewrite Nat.sub_succ, Nat.sub_0_r. apply H. reflexivity.
Qed.

Lemma adj_length int d : forall l a, List.length (adj int d a l) = Datatypes.S (List.length l).
Proof. induction l as [|b l IH]; intros a; [reflexivity|]. cbn [adj]. destruct (Qeq_bool a b); cbn [List.length]; rewrite IH; reflexivity. Qed.

Lemma adjust_length int d l : List.length (adjust int d l) = List.length l.
Proof. destruct l as [|a l]; [reflexivity|]. rewrite adjust_adj, adj_length. reflexivity. Qed.

Lemma adj_moved d : forall l a x, a == x \/ a == x + d -> Forall2 (moved_by d) (x :: l) (adj false d a l).
Proof.
  induction l as [|b l IH]; intros a x H; cbn [adj].
  - constructor; [|constructor]. unfold moved_by. tauto.
  - destruct (Qeq_bool a b) eqn:E; cbn [store].
    + constructor; [|apply IH; right; reflexivity]. unfold moved_by. destruct H as [H|H]; rewrite H; [left|right; left]; ring.
    + constructor; [unfold moved_by; tauto|apply IH; left; reflexivity].
Qed.

Lemma adjust_moved d l : Forall2 (moved_by d) l (adjust false d l).
Proof. destruct l as [|a l]; [constructor|]. rewrite adjust_adj. apply adj_moved. left. reflexivity. Qed.

(** The two assertions together. *)
Lemma ascending_sorted l : ascending l = true -> distinct l = true -> StronglySorted Qlt l.
Proof.
  induction l as [|a l IH]; intros A D; [constructor|].
  cbn [distinct] in D. apply andb_prop in D. destruct D as [D1 D2]. apply Bool.negb_true_iff in D1.
  assert (A2 : ascending l = true) by (destruct l; [reflexivity|]; cbn [ascending] in A; apply andb_prop in A; apply A).
  pose proof (IH A2 D2) as S. constructor; [exact S|].
  destruct l as [|b l]; [constructor|]. cbn [ascending] in A. apply andb_prop in A. destruct A as [Ab _].
  apply Qle_bool_iff in Ab. cbn [existsb] in D1. apply Bool.orb_false_iff in D1. destruct D1 as [N _].
  assert (L : a < b). { apply Qle_lteq in Ab. destruct Ab as [|E]; [assumption|]. apply Qeq_bool_iff in E. congruence. }
  inversion S as [|x y S' F]; subst. constructor; [exact L|].
  eapply Forall_impl; [|exact F]. intros c Lc. lra.
Qed.

Lemma sorted_ascending l : StronglySorted Qlt l -> ascending l = true /\ distinct l = true.
Proof.
  intros S. induction S as [|a l S [IA ID] F]; [split; reflexivity|]. split.
  - destruct l as [|b l]; [reflexivity|]. change (Qle_bool a b && ascending (b :: l) = true)%bool.
    rewrite IA, Bool.andb_true_r. apply Qle_bool_iff.
    inversion F; subst. lra.
  - cbn [distinct]. rewrite ID, Bool.andb_true_r. apply Bool.negb_true_iff.
    destruct (existsb (Qeq_bool a) l) eqn:E; [|reflexivity]. apply existsb_exists in E. destruct E as (b & I & E).
    apply Qeq_bool_iff in E. rewrite Forall_forall in F. specialize (F b I). lra.
Qed.

Lemma sorted_nth l : StronglySorted Qlt l -> strictly_ascending l.
Proof.
  induction 1 as [|a l S IH F]; intros i j [L1 L2]; cbn [List.length] in L2; [lia|].
  destruct j as [|j]; [lia|]. destruct i as [|i]; cbn [nth].
  - rewrite Forall_forall in F. apply F, nth_In. lia.
  - apply IH. lia.
Qed.

(** What acceptance says about the profile. *)
Lemma accepted_power K model v p e : eq_init K model v p = Ok e ->
  s_tpow (st e) = adjust (p_int p) ((1 # 100000) * p_t_end p) (p_times p) /\ s_par (st e) = p /\
  StronglySorted Qlt (s_tpow (st e)) /\ s_tpow (st e) <> [] /\
  nth 0 (s_tpow (st e)) 0 <= 0 /\ p_t_end p <= last (s_tpow (st e)) 0.
Proof.
  unfold eq_init. intros H.
  destruct (shapes_ok v); cbn [negb raise_if bind] in H; [|discriminate H].
  set (l := adjust _ _ _) in *.
  destruct (ascending l) eqn:A; cbn [negb raise_if bind] in H; [|discriminate H].
  destruct (distinct l) eqn:D; cbn [negb raise_if bind] in H; [|discriminate H].
  destruct l as [|t0 l'] eqn:L; cbn [bind] in H; [discriminate H|].
  destruct (rev (t0 :: l')) as [|tn r] eqn:R; cbn [bind] in H; [discriminate H|].
  destruct (Qle_bool t0 0) eqn:T0; cbn [andb negb raise_if bind] in H; [|discriminate H].
  destruct (Qle_bool (p_t_end p) tn) eqn:Tn; cbn [negb raise_if bind] in H; [|discriminate H].
  destruct (mapM _ _); cbn [bind] in H; [|discriminate H].
  destruct (raise_if _ _); cbn [bind] in H; [|discriminate H].
  injection H as <-. cbn [st s_tpow s_par].
  split; [reflexivity|]. split; [reflexivity|]. split; [apply ascending_sorted; assumption|]. split; [discriminate|].
  apply Qle_bool_iff in T0, Tn. split; [exact T0|].
  assert (E : last (t0 :: l') 0 = tn).
  { rewrite <- (rev_involutive (t0 :: l')), R. cbn [rev]. apply last_last. }
  rewrite E. exact Tn.
Qed.

Lemma knots_ok K model v p e : eq_init K model v p = Ok e ->
  strictly_ascending (s_tpow (st e)) /\ List.length (s_tpow (st e)) = List.length (p_times p) /\
  nth 0 (s_tpow (st e)) 0 <= 0 /\ p_t_end p <= last (s_tpow (st e)) 0.
Proof.
  intros H. destruct (accepted_power _ _ _ _ _ H) as (E & _ & S & _ & A & B).
  split; [apply sorted_nth; exact S|]. split; [rewrite E; apply adjust_length|]. split; assumption.
Qed.

Lemma knots_moved K model v p e : eq_init K model v p = Ok e -> p_int p = false ->
  Forall2 (moved_by ((1 # 100000) * p_t_end p)) (p_times p) (s_tpow (st e)).
Proof.
  intros H I. destruct (accepted_power _ _ _ _ _ H) as (E & _). rewrite E, I. apply adjust_moved.
Qed.

(** ** Interpolation *)

Lemma interp_step x t p t' p' ts ps : interp x (combine (t :: t' :: ts) (p :: p' :: ps)) =
  if Qltb x t' then Ok (if Qltb x t then p else (p' - p) / (t' - t) * (x - t) + p) else interp x (combine (t' :: ts) (p' :: ps)).
Proof. reflexivity. Qed.

Lemma interp_at_knot : forall ts ps i, StronglySorted Qlt ts -> List.length ts = List.length ps -> (i < List.length ts)%nat ->
  exists q, interp (nth i ts 0) (combine ts ps) = Ok q /\ q == nth i ps 0.
Proof.
  induction ts as [|t ts IH]; intros ps i S L Li; cbn [List.length] in *; [lia|].
  destruct ps as [|p ps]; [discriminate L|]. injection L as L. inversion S as [|? ? S' F]; subst.
  destruct ts as [|t' ts], ps as [|p' ps]; try discriminate L.
  - destruct i; [|cbn in Li; lia]. exists p. split; reflexivity.
  - rewrite interp_step. destruct i as [|i].
    + cbn [nth]. inversion F; subst. rewrite (proj2 (Qltb_iff t t')) by assumption.
      rewrite (proj2 (Qltb_false t t)) by lra. eexists. split; [reflexivity|]. unfold Qdiv. ring.
    + change (nth (Datatypes.S i) (t :: t' :: ts) 0) with (nth i (t' :: ts) 0).
      change (nth (Datatypes.S i) (p :: p' :: ps) 0) with (nth i (p' :: ps) 0).
      assert (G : t' <= nth i (t' :: ts) 0).
      { destruct i as [|i]; [cbn [nth]; lra|]. apply Qlt_le_weak. apply (sorted_nth _ S' 0%nat (Datatypes.S i)). cbn [List.length] in *. lia. }
      rewrite (proj2 (Qltb_false _ _) G). apply (IH (p' :: ps) i S' L). cbn [List.length] in *. lia.
Qed.

Lemma interp_polygon : forall ts ps t, StronglySorted Qlt ts -> List.length ts = List.length ps ->
  (2 <= List.length ts)%nat -> nth 0 ts 0 <= t <= last ts 0 ->
  exists q, interp t (combine ts ps) = Ok q /\ on_polygon ts ps t q.
Proof.
  induction ts as [|t0 ts IH]; intros ps t S L L2 B; cbn [List.length] in *; [lia|].
  destruct ps as [|p0 ps]; [discriminate L|]. injection L as L. inversion S as [|? ? S' F]; subst.
  destruct ts as [|t1 ts]; [cbn [List.length] in L2; lia|]. destruct ps as [|p1 ps]; [discriminate L|].
  assert (Lt : t0 < t1) by (inversion F; assumption).
  cbn [nth] in B. destruct B as [B1 B2].
  assert (Seg : t < t1 \/ (ts = [] /\ t <= t1) -> exists q,
     (q == (p1 - p0) / (t1 - t0) * (t - t0) + p0 -> on_polygon (t0 :: t1 :: ts) (p0 :: p1 :: ps) t q) /\
     q = (p1 - p0) / (t1 - t0) * (t - t0) + p0).
  { intros C. eexists. split; [|reflexivity]. intros _. exists 0%nat. cbn [nth List.length].
    assert (Le : t <= t1) by (destruct C as [C|[_ C]]; lra).
    set (w := (t - t0) / (t1 - t0)).
    assert (W1 : 0 <= w) by (apply Qle_shift_div_l; lra).
    assert (W2 : w <= 1) by (apply Qle_shift_div_r; lra).
    assert (E : (p1 - p0) / (t1 - t0) * (t - t0) + p0 == p0 + w * (p1 - p0)) by (unfold w; field; lra).
    split; [lia|]. split; [lra|]. split; [field; lra|].
    destruct (Qlt_le_dec p0 p1); [left|right]; rewrite E; split; nra. }
  rewrite interp_step. destruct (Qltb t t1) eqn:C.
  - apply Qltb_iff in C. rewrite (proj2 (Qltb_false t t0)) by exact B1.
    destruct (Seg (or_introl C)) as (q & P & Q). eexists. split; [reflexivity|]. rewrite <- Q. apply P. rewrite Q. reflexivity.
  - apply Qltb_false in C. destruct ts as [|t2 ts].
    + destruct ps; [|discriminate L]. cbn [last] in B2. exists p1. split; [reflexivity|]. exists 0%nat. cbn [nth List.length].
      assert (E : t == t1) by lra. split; [lia|]. split; [lra|]. split; [rewrite E; ring|].
      destruct (Qlt_le_dec p0 p1); [left|right]; lra.
    + destruct (IH (p1 :: ps) t S' L) as (q & Q & i & I1 & I2); [cbn [List.length]; lia| |].
      { split; [exact C|exact B2]. }
      exists q. split; [exact Q|]. exists (Datatypes.S i). cbn [List.length] in *. split; [lia|exact I2].
Qed.

Lemma last_nth_len (l : list Q) d : last l d = nth (List.length l - 1) l d.
Proof.
  induction l as [|a [|b l] IH]; [reflexivity|reflexivity|].
  change (last (a :: b :: l) d) with (last (b :: l) d). rewrite IH. cbn [List.length nth].
  rewrite !Nat.sub_succ, !Nat.sub_0_r. reflexivity.
Qed.

Lemma power_knots K model v p e i : eq_init K model v p = Ok e -> List.length (p_power p) = List.length (p_times p) ->
  (i < List.length (p_times p))%nat ->
  exists q, get_power_ext (st e) (nth i (s_tpow (st e)) 0) = Ok q /\ q == nth i (p_power p) 0.
Proof.
  intros H L Li. destruct (accepted_power _ _ _ _ _ H) as (E & P & S & _).
  assert (Len : List.length (s_tpow (st e)) = List.length (p_times p)) by (rewrite E; apply adjust_length).
  unfold get_power_ext. rewrite P, L, Len, Nat.eqb_refl. cbn [negb raise_if bind].
  apply interp_at_knot; [exact S|congruence|lia].
Qed.

Lemma power_between K model v p e t : eq_init K model v p = Ok e -> List.length (p_power p) = List.length (p_times p) ->
  0 < p_t_end p -> 0 <= t <= p_t_end p ->
  exists q, get_power_ext (st e) t = Ok q /\ on_polygon (s_tpow (st e)) (p_power p) t q.
Proof.
  intros H L T B. destruct (accepted_power _ _ _ _ _ H) as (E & P & S & N & A & Z).
  assert (Len : List.length (s_tpow (st e)) = List.length (p_times p)) by (rewrite E; apply adjust_length).
  unfold get_power_ext. rewrite P, L, Len, Nat.eqb_refl. cbn [negb raise_if bind].
  apply interp_polygon; [exact S|congruence| |lra].
  destruct (s_tpow (st e)) as [|a [|b l]]; [congruence| |cbn [List.length]; lia]. cbn [nth last] in A, Z. lra.
Qed.

(** ** Which series are accepted *)

Lemma adj_spaced d : 0 < d -> forall n l a, (List.length l <= n)%nat -> well_spaced d (a :: l) ->
  StronglySorted Qlt (adj false d a l) /\ Forall (fun x => a - d <= x) (adj false d a l).
Proof.
  intros D. induction n as [|n IH]; intros l a Ln W.
  - destruct l; [|cbn in Ln; lia]. cbn [adj]. split; [repeat constructor|]. constructor; [lra|constructor].
  - destruct l as [|b l]; [cbn [adj]; split; [repeat constructor|constructor; [lra|constructor]]|].
    cbn [well_spaced] in W. destruct W as [Hab Wb]. cbn [adj List.length] in *.
    destruct (Qeq_bool a b) eqn:E; cbn [store].
    + apply Qeq_bool_iff in E. destruct Hab as [Hab|[_ Hc]]; [lra|].
      destruct l as [|c l].
      * cbn [adj]. split; [constructor; [repeat constructor|constructor; [lra|constructor]]|].
        constructor; [lra|]. constructor; [lra|constructor].
      * cbn [adj]. assert (Nq : Qeq_bool (b + d) c = false).
        { destruct (Qeq_bool (b + d) c) eqn:X; [|reflexivity]. apply Qeq_bool_iff in X. lra. }
        rewrite Nq. destruct Wb as [_ Wc].
        destruct (IH l c) as [S F]; [cbn [List.length] in *; lia|exact Wc|].
        assert (Fb : Forall (Qlt (b + d)) (adj false d c l)) by (eapply Forall_impl; [|exact F]; cbn beta; intros; lra).
        split; [constructor; [constructor; [exact S|exact Fb]|constructor; [lra|eapply Forall_impl; [|exact F]; cbn beta; intros; lra]]|].
        constructor; [lra|]. constructor; [lra|]. eapply Forall_impl; [|exact F]; cbn beta; intros; lra.
    + destruct Hab as [Hab|[Q _]]; [|apply Qeq_bool_iff in Q; congruence].
      destruct (IH l b) as [S F]; [lia|exact Wb|].
      split; [constructor; [exact S|eapply Forall_impl; [|exact F]; cbn beta; intros; lra]|].
      constructor; [lra|]. eapply Forall_impl; [|exact F]; cbn beta; intros; lra.
Qed.

Lemma moved_ends d l : 0 < d -> well_spaced d l -> l <> [] ->
  nth 0 (adjust false d l) 0 <= nth 0 l 0 /\ last l 0 <= last (adjust false d l) 0.
Proof.
  intros D W N. destruct l as [|a l]; [congruence|]. rewrite adjust_adj. split.
  - destruct l as [|b l]; cbn [adj]; [cbn [nth]; lra|]. destruct (Qeq_bool a b); cbn [store nth]; lra.
  - clear N. revert a W. assert (H : forall n l a x, (List.length l <= n)%nat -> well_spaced d (x :: l) -> x <= a <= x + d ->
      (a == x \/ match l with b :: _ => x + 2 * d < b | [] => True end) -> last (x :: l) 0 <= last (adj false d a l) 0).
    { induction n as [|n IH]; intros m a x Ln W A C.
      - destruct m; [|cbn in Ln; lia]. cbn [adj last]. lra.
      - destruct m as [|b m]; [cbn [adj last]; lra|]. cbn [adj List.length] in *.
        cbn [well_spaced] in W. destruct W as [Hb Wb].
        change (last (x :: b :: m) 0) with (last (b :: m) 0).
        destruct (Qeq_bool a b) eqn:E; cbn [store].
        + apply Qeq_bool_iff in E. destruct C as [C|C]; [|lra]. destruct Hb as [Hb|[_ Hc]]; [lra|].
          pose proof (IH m (b + d) b ltac:(lia) Wb ltac:(lra) (or_intror Hc)) as R.
          destruct (adj false d (b + d) m) eqn:X; [|exact R].
          apply (f_equal (@List.length Q)) in X. rewrite adj_length in X. discriminate X.
        + pose proof (IH m b b ltac:(lia) Wb ltac:(lra) (or_introl (Qeq_refl b))) as R.
          destruct (adj false d b m) eqn:X; [|exact R].
          apply (f_equal (@List.length Q)) in X. rewrite adj_length in X. discriminate X. }
    intros a W. apply (H (List.length l) l a a); [lia|exact W|lra|left; reflexivity].
Qed.

Lemma mapM_Err {A B} (f : A -> res B) l x : mapM f l = Err x -> exists a, In a l /\ f a = Err x.
Proof.
  induction l as [|a l IH]; cbn [mapM]; [discriminate|]. destruct (f a) as [b|y] eqn:E; cbn [bind].
  - destruct (mapM f l) as [bs|y]; cbn [bind]; [discriminate|]. intros [= ->]. destruct (IH eq_refl) as (c & I & C).
    exists c. split; [right; exact I|exact C].
  - intros [= ->]. exists a. split; [left; reflexivity|exact E].
Qed.

Lemma accepts_spaced K model v p : p_int p = false -> 0 < p_t_end p -> well_spaced ((1 # 100000) * p_t_end p) (p_times p) ->
  p_times p <> [] -> nth 0 (p_times p) 0 <= 0 -> p_t_end p <= last (p_times p) 0 ->
  eq_init K model v p <> Err EAssertion.
Proof.
  intros I T W N A Z. set (d := (1 # 100000) * p_t_end p) in *. assert (D : 0 < d) by (unfold d; lra).
  unfold eq_init. fold d. rewrite I.
  destruct (shapes_ok v); cbn [negb raise_if bind]; [|discriminate].
  destruct (moved_ends d (p_times p) D W N) as [M0 Mn].
  assert (S : StronglySorted Qlt (adjust false d (p_times p))).
  { destruct (p_times p) as [|a l]; [congruence|]. rewrite adjust_adj. apply (adj_spaced d D (List.length l)); [lia|exact W]. }
  destruct (sorted_ascending _ S) as [-> ->]. cbn [negb raise_if bind].
  set (l := adjust false d (p_times p)) in *.
  destruct l as [|t0 l'] eqn:L; cbn [bind]; [discriminate|].
  destruct (rev (t0 :: l')) as [|tn r] eqn:R; cbn [bind]; [discriminate|].
  assert (E : last (t0 :: l') 0 = tn).
  { rewrite <- (rev_involutive (t0 :: l')), R. cbn [rev]. apply last_last. }
  rewrite E in Mn. cbn [nth] in M0.
  rewrite (proj2 (Qle_bool_iff t0 0)) by lra. rewrite (proj2 (Qle_bool_iff (p_t_end p) tn)) by lra.
  cbn [andb negb raise_if bind].
  destruct (mapM _ _) as [x|x] eqn:M; cbn [bind].
  - destruct (subsetS _ _); cbn [negb raise_if bind]; discriminate.
  - intros [= ->]. apply mapM_Err in M. destruct M as (j & _ & M). unfold partner_mass in M.
    destruct (_ && _)%bool; [|discriminate M]. destruct (filter _ _); discriminate M.
Qed.
