(** Proofs about the grid and the trajectories. *)
From Coq Require Import Qround Qabs Permutation Lqa.
From Verif Require Import Base BaseLemmas Species Reactions Chemistry ChemSpec Morris MorrisSpec.
Open Scope Q_scope.

Lemma Qltb_lt a b : Qltb a b = true <-> a < b.
Proof.
  unfold Qltb. rewrite negb_true_iff. split; intros H.
  - apply Qnot_le_lt. intros C. apply Qle_bool_iff in C. congruence.
  - destruct (Qle_bool b a) eqn:E; [|reflexivity]. apply Qle_bool_iff in E. exfalso. lra.
Qed.

(** ** Rounding *)

Lemma floor_bounds q : inject_Z (Qfloor q) <= q /\ q < inject_Z (Qfloor q) + 1.
Proof.
  split; [apply Qfloor_le|]. pose proof (Qlt_floor q) as H. rewrite inject_Z_plus in H. exact H.
Qed.

Lemma inject_le a b : (a <= b)%Z -> inject_Z a <= inject_Z b.
Proof. intros. now rewrite <- Zle_Qle. Qed.

Lemma inject_lt a b : inject_Z a < inject_Z b -> (a < b)%Z.
Proof. intros. now rewrite <- Zlt_Qlt in H. Qed.

Lemma half_even_close q : Qabs (q - inject_Z (half_even q)) <= 1 # 2.
Proof.
  pose proof (floor_bounds q) as [A B]. unfold half_even.
  destruct (Qcompare_spec (q - inject_Z (Qfloor q)) (1 # 2)) as [E|E|E]; [destruct (Z.even (Qfloor q))| |];
    try rewrite inject_Z_plus; apply Qabs_Qle_condition; change (inject_Z 1) with 1; split; lra.
Qed.

Lemma half_even_near q z : Qabs (q - inject_Z z) < 1 # 2 -> half_even q = z.
Proof.
  intros H. pose proof (half_even_close q) as C.
  apply Qabs_Qlt_condition in H. apply Qabs_Qle_condition in C. destruct H as [H1 H2], C as [C1 C2].
  assert (L : inject_Z (half_even q) < inject_Z (z + 1)) by (rewrite inject_Z_plus; change (inject_Z 1) with 1; lra).
  assert (U : inject_Z z < inject_Z (half_even q + 1)) by (rewrite inject_Z_plus; change (inject_Z 1) with 1; lra).
  apply inject_lt in L. apply inject_lt in U. lia.
Qed.

Definition tenmicro : Q := inject_Z 100000.

Lemma round5_near q z : Qabs (q * tenmicro - inject_Z z) < 1 # 2 -> round5 q == inject_Z z / tenmicro.
Proof.
  intros H. unfold round5, qround. change (inject_Z 100000) with tenmicro. rewrite (half_even_near _ z H).
  unfold tenmicro, Qeq, Qdiv, Qmult, Qinv, inject_Z. cbn. lia.
Qed.

Lemma round5_exact q z : q * tenmicro == inject_Z z -> round5 q == q.
Proof.
  intros H. rewrite (round5_near q z).
  - rewrite <- H. unfold tenmicro. field.
  - rewrite H. setoid_replace (inject_Z z - inject_Z z) with 0 by ring. reflexivity.
Qed.

Lemma round5_compat a b : a == b -> round5 a == round5 b.
Proof.
  intros H. unfold round5, qround, half_even.
  assert (X : a * inject_Z 100000 == b * inject_Z 100000) by now rewrite H.
  rewrite (Qfloor_comp _ _ X), (Qcompare_comp _ _ (Qminus_comp _ _ X _ _ (Qeq_refl _)) _ _ (Qeq_refl _)). reflexivity.
Qed.

(** ** The grid *)

Lemma inject_pos n : (0 < n)%Z -> 0 < inject_Z n.
Proof. intros. now rewrite <- (Zlt_Qlt 0). Qed.

Lemma inject_nz n : (n <> 0)%Z -> ~ inject_Z n == 0.
Proof. intros H C. apply H. apply (inject_Z_injective n 0). exact C. Qed.

Section Grid.
  Variables (m : morris) (delta : Q) (density : Z).
  Hypothesis init : morris_init delta density = Ok m.
  Hypothesis fine : (2 * density | 100000)%Z.

  Let n := density.

  Lemma init_facts :
    m = MkMorris delta density (map (fun a => round5 (1 / inject_Z n / 2 + a)) (arange01 n)) /\
    (0 < n)%Z /\ 0 < delta /\
    (forall g, In g (mm_grid m) -> g + delta < 1 \/ 0 < g - delta) /\
    exists k, half_even (delta / (1 / inject_Z n) * inject_Z 10000000000) = (k * 10000000000)%Z.
  Proof using init.
    revert init. unfold morris_init, raise_if, n.
    destruct (density =? 0)%Z eqn:Z0; cbn [bind]; [discriminate|].
    destruct (Qle_bool delta 0) eqn:D0; cbn [bind]; [discriminate|].
    destruct (density <=? 0)%Z eqn:N0; cbn [bind]; [discriminate|].
    destruct (negb (forallb _ _)) eqn:F; cbn [bind]; [discriminate|].
    destruct (negb (Qeq_bool _ _)) eqn:C; cbn [bind]; [discriminate|].
    intros H. injection H as <-. split; [reflexivity|]. split; [lia|]. split.
    { apply Qnot_le_lt. intros L. apply Qle_bool_iff in L. congruence. }
    split.
    - intros g Hg. apply negb_false_iff in F. rewrite forallb_forall in F. specialize (F g Hg).
      apply orb_true_iff in F. rewrite !Qltb_lt in F. exact F.
    - apply negb_false_iff, Qeq_bool_iff in C. unfold qround in C. cbn [Qnum Qden] in C.
      eexists. unfold Qeq, inject_Z in C. cbn [Qnum Qden] in C. rewrite Z.mul_1_r in C. exact C.
  Qed.

  Lemma density_eq : mm_density m = n.
  Proof using init. destruct init_facts as (-> & _). reflexivity. Qed.

  (** Points of the form z/(2n) are fixed by rounding. *)
  Lemma fine_exact z : exists w, inject_Z z / inject_Z (2 * n) * tenmicro == inject_Z w.
  Proof using fine init.
    destruct init_facts as (_ & Hn & _). destruct fine as [q Hq]. exists (z * q)%Z. unfold tenmicro. rewrite Hq.
    fold n. rewrite !inject_Z_mult. change (inject_Z 2) with 2. field. apply inject_nz. lia.
  Qed.

  Lemma round5_fine z q : q == inject_Z z / inject_Z (2 * n) -> round5 q == q.
  Proof using fine init.
    intros H. destruct (fine_exact z) as (w & Hw). apply (round5_exact q w). now rewrite H.
  Qed.

  Lemma raw_centre k : 1 / inject_Z n / 2 + inject_Z (Z.of_nat k) * (1 / inject_Z n) == centre n (Z.of_nat k).
  Proof using init.
    destruct init_facts as (_ & Hn & _). unfold centre. rewrite inject_Z_plus, !inject_Z_mult.
    change (inject_Z 2) with 2. change (inject_Z 1) with 1. field. apply inject_nz. lia.
  Qed.

  (** The grid of the object consists of the centres of the cells. *)
  Lemma grid_iff q : (exists g, In g (mm_grid m) /\ q == g) <-> on_grid m q.
  Proof using fine init.
    pose proof init_facts as (Hm & Hn & _). unfold on_grid. rewrite density_eq.
    assert (X : forall k, round5 (1 / inject_Z n / 2 + inject_Z (Z.of_nat k) * (1 / inject_Z n)) == centre n (Z.of_nat k)).
    { intros k. rewrite (round5_compat _ _ (raw_centre k)). apply (round5_fine (2 * Z.of_nat k + 1)). reflexivity. }
    rewrite Hm. cbn [mm_grid]. unfold arange01. split.
    - intros (g & Hg & E). apply in_map_iff in Hg. destruct Hg as (a & <- & Ha). apply in_map_iff in Ha.
      destruct Ha as (k & <- & Hk). apply in_seq in Hk. exists (Z.of_nat k). split; [lia|]. now rewrite E, X.
    - intros (k & Hk & E). exists (round5 (1 / inject_Z n / 2 + inject_Z (Z.of_nat (Z.to_nat k)) * (1 / inject_Z n))).
      split.
      + apply in_map_iff. exists (inject_Z (Z.of_nat (Z.to_nat k)) * (1 / inject_Z n)). split; [reflexivity|].
        apply in_map_iff. exists (Z.to_nat k). split; [reflexivity|]. apply in_seq. lia.
      + rewrite X, Z2Nat.id by lia. exact E.
  Qed.

  (** The accepted step is (up to rounding) a whole number of cells. *)
  Lemma step_cells : exists k, (0 <= k)%Z /\ round5 delta == inject_Z k / inject_Z n /\
    round5 (- delta) == - (inject_Z k / inject_Z n) /\
    Qabs (delta * inject_Z n - inject_Z k) <= 1 # 20000000000.
  Proof using fine init.
    destruct init_facts as (_ & Hn & Hd & _ & k & Hk). exists k.
    assert (Pn : 0 < inject_Z n) by now apply inject_pos.
    assert (Nn : ~ inject_Z n == 0) by (apply inject_nz; lia).
    pose proof (half_even_close (delta / (1 / inject_Z n) * inject_Z 10000000000)) as C. rewrite Hk in C.
    rewrite inject_Z_mult in C.
    assert (C' : Qabs (delta * inject_Z n - inject_Z k) <= 1 # 20000000000).
    { setoid_replace (delta / (1 / inject_Z n) * inject_Z 10000000000 - inject_Z k * inject_Z 10000000000)
        with ((delta * inject_Z n - inject_Z k) * inject_Z 10000000000) in C by (field; exact Nn).
      rewrite Qabs_Qmult in C. change (Qabs (inject_Z 10000000000)) with (inject_Z 10000000000) in C.
      set (y := Qabs (delta * inject_Z n - inject_Z k)) in *. clearbody y.
      change (inject_Z 10000000000) with (10000000000 # 1) in C. lra. }
    destruct (proj1 (Qabs_Qle_condition _ _) C') as [L U].
    assert (Q1 : exists q, (100000 = q * (2 * n))%Z) by exact fine. destruct Q1 as [q Hq].
    assert (Pq : (0 < q)%Z) by nia.
    assert (Hq' : tenmicro == 2 * inject_Z q * inject_Z n).
    { unfold tenmicro. rewrite Hq, !inject_Z_mult. change (inject_Z 2) with 2. ring. }
    assert (Hq1 : inject_Z q <= 50000). { change 50000 with (inject_Z 50000). apply inject_le. nia. }
    assert (Pq1 : 0 < inject_Z q) by now apply inject_pos.
    assert (Nz : inject_Z k * 2 * inject_Z q == inject_Z (k * 2 * q)) by (rewrite !inject_Z_mult; reflexivity).
    assert (Near : Qabs (delta * tenmicro - inject_Z (k * 2 * q)) < 1 # 2).
    { rewrite <- Nz, Hq'.
      setoid_replace (delta * (2 * inject_Z q * inject_Z n) - inject_Z k * 2 * inject_Z q)
        with (2 * inject_Z q * (delta * inject_Z n - inject_Z k)) by ring.
      set (e := delta * inject_Z n - inject_Z k) in *. set (p := inject_Z q) in *.
      apply Qabs_Qlt_condition. split; nra. }
    assert (Val : inject_Z (k * 2 * q) / tenmicro == inject_Z k / inject_Z n).
    { rewrite <- Nz, Hq'. field. split; [exact Nn|]. intros C0. lra. }
    split; [|split; [|split; [|exact C']]].
    - assert (T : inject_Z (-1) < inject_Z k).
      { change (inject_Z (-1)) with (-1). assert (0 < delta * inject_Z n) by nra. lra. }
      apply inject_lt in T. lia.
    - rewrite (round5_near _ _ Near). exact Val.
    - rewrite (round5_near (- delta) (- (k * 2 * q))).
      + rewrite inject_Z_opp. setoid_replace (- inject_Z (k * 2 * q) / tenmicro)
          with (- (inject_Z (k * 2 * q) / tenmicro)) by (unfold tenmicro; field). now rewrite Val.
      + rewrite inject_Z_opp. setoid_replace (- delta * tenmicro - - inject_Z (k * 2 * q))
          with (- (delta * tenmicro - inject_Z (k * 2 * q))) by ring. now rewrite Qabs_opp.
  Qed.

  (** A centre strictly inside the unit interval is a grid point. *)
  Lemma centre_inside k : (0 < centre n k < 1) <-> (0 <= k < n)%Z.
  Proof using init.
    destruct init_facts as (_ & Hn & _). unfold centre.
    assert (P : 0 < inject_Z (2 * n)) by (apply inject_pos; lia). split.
    - intros [A B].
      assert (V : inject_Z (2 * k + 1) == inject_Z (2 * k + 1) / inject_Z (2 * n) * inject_Z (2 * n)).
      { field. apply inject_nz. lia. }
      set (v := inject_Z (2 * k + 1) / inject_Z (2 * n)) in *. clearbody v.
      assert (A' : inject_Z 0 < inject_Z (2 * k + 1)).
      { rewrite V. change (inject_Z 0) with 0. nra. }
      assert (B' : inject_Z (2 * k + 1) < inject_Z (2 * n)).
      { rewrite V. nra. }
      apply inject_lt in A'. apply inject_lt in B'. lia.
    - intros [A B]. split.
      + apply Qlt_shift_div_l; [exact P|]. rewrite Qmult_0_l. apply inject_pos. lia.
      + apply Qlt_shift_div_r; [exact P|]. rewrite Qmult_1_l. rewrite <- Zlt_Qlt. lia.
  Qed.

  Lemma centre_shift k j : centre n k + inject_Z j / inject_Z n == centre n (k + j).
  Proof using init.
    destruct init_facts as (_ & Hn & _). unfold centre. rewrite !inject_Z_plus, !inject_Z_mult, inject_Z_plus.
    change (inject_Z 2) with 2. change (inject_Z 1) with 1. field. apply inject_nz. lia.
  Qed.

  (** From every grid point one of the two moves stays on the grid. *)
  Lemma can_move xi : on_grid m xi ->
    exists d, In d [round5 delta; round5 (- delta)] /\ 0 < xi + d < 1.
  Proof using fine init.
    intros G. destruct init_facts as (Hm & Hn & Hd & Chk & _). destruct step_cells as (j & Hj & D1 & D2 & Close).
    destruct (proj2 (grid_iff xi) G) as (g & Hg & Eg). destruct G as (k & Hk & Ek). rewrite density_eq in *.
    apply Qabs_Qle_condition in Close. destruct Close as [L U].
    assert (Pn : 0 < inject_Z n) by now apply inject_pos.
    assert (C2 : centre n k * (2 * inject_Z n) == inject_Z (2 * k + 1)).
    { unfold centre. rewrite !inject_Z_mult. change (inject_Z 2) with 2. field. apply inject_nz. lia. }
    assert (Eg2 : g == centre n k) by (rewrite <- Eg; exact Ek).
    destruct (Chk g Hg) as [H|H].
    - exists (round5 delta). split; [now left|].
      assert (T : (2 * k + 1 + 2 * j < 2 * n + 1)%Z).
      { apply inject_lt. rewrite !inject_Z_plus, (inject_Z_mult 2 j), (inject_Z_mult 2 n). 
        change (inject_Z 2) with 2 in *. change (inject_Z 1) with 1.
        assert (H' : centre n k * (2 * inject_Z n) + 2 * (delta * inject_Z n) < 2 * inject_Z n).
        { rewrite <- Eg2. nra. }
        rewrite C2, inject_Z_plus in H'. change (inject_Z 1) with 1 in H'. lra. }
      rewrite Ek, D1, centre_shift. apply centre_inside. lia.
    - exists (round5 (- delta)). split; [right; now left|].
      assert (T : (-1 < 2 * k + 1 - 2 * j)%Z).
      { apply inject_lt. change (inject_Z (-1)) with (-1). unfold Z.sub. rewrite inject_Z_plus, inject_Z_opp, (inject_Z_mult 2 j).
        change (inject_Z 2) with 2 in *.
        assert (H' : 0 < centre n k * (2 * inject_Z n) - 2 * (delta * inject_Z n)).
        { rewrite <- Eg2. nra. }
        rewrite C2 in H'. lra. }
      rewrite Ek, D2. setoid_replace (- (inject_Z j / inject_Z n)) with (inject_Z (- j) / inject_Z n).
      + rewrite centre_shift. apply centre_inside. lia.
      + rewrite inject_Z_opp. field. apply inject_nz. lia.
  Qed.

  (** A move that stays inside ends on the grid, exactly. *)
  Lemma move_exact xi d : on_grid m xi -> In d [round5 delta; round5 (- delta)] -> 0 < xi + d < 1 ->
    round5 (xi + d) == xi + d /\ on_grid m (round5 (xi + d)).
  Proof using fine init.
    intros (k & Hk & Ek) Hd I. destruct step_cells as (j & Hj & D1 & D2 & _). rewrite density_eq in *.
    destruct init_facts as (_ & Hn & _).
    assert (X : exists k', xi + d == centre n k').
    { destruct Hd as [<-|[<-|[]]].
      - exists (k + j)%Z. now rewrite Ek, D1, centre_shift.
      - exists (k + - j)%Z. rewrite Ek, D2, <- centre_shift. rewrite inject_Z_opp. field. apply inject_nz. lia. }
    destruct X as (k' & X).
    assert (R : round5 (xi + d) == xi + d) by exact (round5_fine (2 * k' + 1) _ X).
    split; [exact R|]. exists k'. rewrite density_eq. split; [|now rewrite R].
    apply centre_inside. now rewrite <- X.
  Qed.
End Grid.

(** ** Trajectories *)

Lemma set_nth_length {A} i (v : A) l : List.length (set_nth i v l) = List.length l.
Proof. revert i. induction l as [|a l IH]; intros [|i]; cbn; auto. Qed.

Lemma nth_set_nth {A} i j (v : A) l :
  nth_error (set_nth i v l) j = if Nat.eqb i j then (match nth_error l i with Some _ => Some v | None => None end)
                                else nth_error l j.
Proof. revert i j. induction l as [|a l IH]; intros [|i] [|j]; cbn [set_nth nth_error Nat.eqb]; try reflexivity; [destruct (Nat.eqb i j); reflexivity|apply IH]. Qed.

Lemma set_nth_Forall {A} (P : A -> Prop) i v l : Forall P l -> P v -> Forall P (set_nth i v l).
Proof.
  intros H Pv. revert i. induction H as [|a l Ha H IH]; intros [|i]; cbn; constructor; auto.
Qed.

Lemma find_none_all {A} (p : A -> bool) l : find p l = None -> forall x, In x l -> p x = false.
Proof. intros H. exact (find_none p l H). Qed.

Section Traj.
  Variables (m : morris) (delta : Q) (density : Z) (flip : nat -> bool).
  Hypothesis init : morris_init delta density = Ok m.
  Hypothesis fine : (2 * density | 100000)%Z.

  Lemma steps_ok perm : forall j x,
    Forall (fun i => (i < List.length x)%nat) perm -> Forall (on_grid m) x ->
    exists l, traj_steps m flip j perm x = (l, Ok tt) /\ changed l = perm /\ design m (round5 (mm_delta m)) x l.
  Proof using init fine.
    induction perm as [|i perm IH]; intros j x Hp Hx.
    - exists []. repeat split.
    - inversion Hp as [|? ? Hi Hp']; subst. cbn [traj_steps].
      destruct (nth_error x i) as [xi|] eqn:Nx; [|apply nth_error_None in Nx; lia].
      assert (Gx : on_grid m xi).
      { rewrite Forall_forall in Hx. apply Hx. now apply nth_error_In in Nx. }
      destruct (init_facts m delta density init) as (Hm & _).
      assert (Dm : mm_delta m = delta) by now rewrite Hm.
      set (ds := map round5 (if flip j then [mm_delta m; - mm_delta m] else [- mm_delta m; mm_delta m])).
      assert (Ids : forall d, In d ds <-> In d [round5 delta; round5 (- delta)]).
      { intros d. unfold ds. rewrite Dm. destruct (flip j); cbn [map In]; tauto. }
      destruct (find (fun d => Qltb 0 (xi + d) && Qltb (xi + d) 1) ds) as [d|] eqn:F.
      + apply find_some in F. destruct F as [Hd F]. apply andb_true_iff in F. rewrite !Qltb_lt in F.
        apply Ids in Hd. destruct (move_exact m delta density init fine xi d Gx Hd F) as [R G].
        destruct (IH (S j) (set_nth i (round5 (xi + d)) x)) as (l & El & Ec & Ed).
        * rewrite set_nth_length. exact Hp'.
        * apply set_nth_Forall; assumption.
        * rewrite El. exists ((i, d, set_nth i (round5 (xi + d)) x) :: l). split; [reflexivity|].
          split; [cbn; f_equal; exact Ec|]. cbn [design]. split; [|split; [|split; [|exact Ed]]].
          -- split; [apply set_nth_length|]. split.
             ++ intros k Hk. rewrite nth_set_nth. destruct (Nat.eqb_spec i k) as [->|_]; [now elim Hk|reflexivity].
             ++ exists xi, (round5 (xi + d)). split; [exact Nx|]. split; [|exact R].
                now rewrite nth_set_nth, Nat.eqb_refl, Nx.
          -- destruct (step_cells m delta density init fine) as (q & _ & D1 & D2 & _). rewrite Dm.
             destruct Hd as [<-|[<-|[]]]; [now left|right]. now rewrite D2, D1.
          -- apply set_nth_Forall; assumption.
      + exfalso. destruct (can_move m delta density init fine xi Gx) as (d & Hd & L & U).
        pose proof (find_none_all _ _ F d (proj2 (Ids d) Hd)) as C. apply andb_false_iff in C.
        assert (Qltb 0 (xi + d) = true) by now apply Qltb_lt.
        assert (Qltb (xi + d) 1 = true) by now apply Qltb_lt. destruct C; congruence.
  Qed.

  Theorem trajectory_ok perm x0 :
    (2 <= List.length x0)%nat -> Forall (on_grid m) x0 -> Permutation perm (seq 0 (List.length x0)) ->
    exists l, trajectory m perm flip x0 = (l, Ok tt) /\ List.length l = List.length x0 /\
      NoDup (changed l) /\ (forall i, In i (changed l) <-> (i < List.length x0)%nat) /\
      design m (round5 (mm_delta m)) x0 l.
  Proof using init fine.
    intros Hl Hx Hp. destruct (steps_ok perm 0 x0) as (l & El & Ec & Ed).
    - rewrite Forall_forall. intros i Hi. apply (Permutation_in _ Hp) in Hi. apply in_seq in Hi. lia.
    - exact Hx.
    - exists l. unfold trajectory. destruct (Nat.ltb_spec (List.length x0) 2) as [C|_]; [lia|].
      assert (negb (forallb (fun v => existsb (Qeq_bool v) (mm_grid m)) x0) = false) as ->.
      { apply negb_false_iff, forallb_forall. intros v Hv. apply existsb_exists.
        rewrite Forall_forall in Hx. destruct (proj2 (grid_iff m delta density init fine v) (Hx v Hv)) as (g & Hg & E).
        exists g. split; [exact Hg|]. now apply Qeq_bool_iff. }
      split; [exact El|]. split.
      { transitivity (List.length (changed l)); [unfold changed; now rewrite map_length|].
        rewrite Ec, (Permutation_length Hp), seq_length. reflexivity. }
      rewrite Ec. split; [apply (Permutation_NoDup (Permutation_sym Hp)), seq_NoDup|]. split; [|exact Ed].
      intros i. split; intros H.
      + apply (Permutation_in _ Hp) in H. apply in_seq in H. lia.
      + apply (Permutation_in _ (Permutation_sym Hp)). apply in_seq. lia.
  Qed.

  (** What is rejected: too few factors, or a start off the grid. *)
  Theorem trajectory_rejects perm x0 :
    (List.length x0 < 2)%nat \/ ~ Forall (on_grid m) x0 ->
    trajectory m perm flip x0 = ([], Err EMorrisInputs).
  Proof using init fine.
    intros H. unfold trajectory. destruct (Nat.ltb_spec (List.length x0) 2) as [_|C]; [reflexivity|].
    destruct H as [H|H]; [lia|].
    destruct (negb (forallb (fun v => existsb (Qeq_bool v) (mm_grid m)) x0)) eqn:F; [reflexivity|].
    exfalso. apply H. apply negb_false_iff in F. rewrite forallb_forall in F. apply Forall_forall. intros v Hv.
    specialize (F v Hv). apply existsb_exists in F. destruct F as (g & Hg & E). apply Qeq_bool_iff in E.
    apply (grid_iff m delta density init fine). exists g. split; assumption.
  Qed.

  (** ** The seed *)

  Lemma Qmin_list_spec l : forall a, In (Qmin_list a l) (a :: l) /\ forall b, In b (a :: l) -> Qmin_list a l <= b.
  Proof using.
    induction l as [|c l IH]; intros a.
    - cbn. split; [auto|]. intros b [<-|[]]. apply Qle_refl.
    - cbn [Qmin_list]. destruct (IH (if Qltb c a then c else a)) as [I M]. split.
      + destruct I as [<-|I]; [|right; right; exact I]. destruct (Qltb c a); [right; now left|now left].
      + pose proof (M _ (or_introl eq_refl)) as M0.
        assert (T : (if Qltb c a then c else a) <= a /\ (if Qltb c a then c else a) <= c).
        { destruct (Qltb c a) eqn:E; [apply Qltb_lt in E; split; lra|].
          split; [apply Qle_refl|]. unfold Qltb in E. apply negb_false_iff, Qle_bool_iff in E. exact E. }
        intros b [<-|[<-|Hb]]; [apply (Qle_trans _ _ _ M0), T|apply (Qle_trans _ _ _ M0), T|].
        apply M. now right.
  Qed.

  Lemma grid_nonempty : mm_grid m <> [].
  Proof using init fine.
    destruct (init_facts m delta density init) as (_ & Hn & _).
    destruct (proj2 (grid_iff m delta density init fine (centre density 0))) as (g & Hg & _).
    - exists 0%Z. rewrite (density_eq m delta density init). split; [lia|reflexivity].
    - intros C. rewrite C in Hg. destruct Hg.
  Qed.

  (** Discretising any vector gives a grid point none closer to it. *)
  Theorem seed_ok xc : exists x0, get_seed_x m xc = Ok x0 /\
    Forall2 (fun v g => on_grid m g /\ forall h, on_grid m h -> Qabs (g - v) <= Qabs (h - v)) xc x0.
  Proof using init fine.
    induction xc as [|v xc IH].
    - exists []. split; [reflexivity|constructor].
    - destruct IH as (x0 & E & F). unfold get_seed_x in *. cbn [mapM].
      set (ds := map (fun g => Qabs (g - v)) (mm_grid m)). destruct ds as [|d ds'] eqn:Ds.
      { exfalso. apply grid_nonempty. destruct (mm_grid m); [reflexivity|discriminate]. }
      destruct (Qmin_list_spec ds' d) as [I M]. rewrite <- Ds in I, M. unfold ds in I, M.
      set (mn := Qmin_list d ds') in *.
      destruct (find (fun g => Qeq_bool (Qabs (g - v)) mn) (mm_grid m)) as [g|] eqn:Fi.
      + cbn [bind]. rewrite E. cbn [bind]. exists (g :: x0). split; [reflexivity|]. constructor; [|exact F].
        apply find_some in Fi. destruct Fi as [Hg Eg]. apply Qeq_bool_iff in Eg. split.
        * apply (grid_iff m delta density init fine). exists g. split; [exact Hg|reflexivity].
        * intros h Hh. apply (grid_iff m delta density init fine) in Hh. destruct Hh as (h' & Hh & Eh).
          rewrite Eg, Eh. apply M. apply in_map_iff. now exists h'.
      + exfalso. apply in_map_iff in I. destruct I as (g & Eg & Hg).
        pose proof (find_none_all _ _ Fi g Hg) as C. cbv beta in C.
        assert (Qeq_bool (Qabs (g - v)) mn = true) by (apply Qeq_bool_iff; rewrite Eg; reflexivity). congruence.
  Qed.
End Traj.

(** The settings of the code. *)
Lemma default_ok : exists m, morris_default = Ok m /\ mm_density m = 10%Z /\ mm_delta m = (1 # 2).
Proof. eexists. split; [vm_compute; reflexivity|split; reflexivity]. Qed.

Lemma default_fine : (2 * 10 | 100000)%Z.
Proof. exists 5000%Z. reflexivity. Qed.
