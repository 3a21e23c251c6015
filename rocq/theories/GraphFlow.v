(** Maximum flow: the value returned is that of a feasible flow and of a cut. *)
From Coq Require Import Permutation Lqa QArith.Qminmax.
From Verif Require Import Base BaseLemmas SortLemmas Graph GraphSpec GraphProofs GraphPaths.
Local Open Scope Q_scope.

(** ** Sums *)
Lemma qsum_cons {X} (f : X -> Q) a l : qsum f (a :: l) = f a + qsum f l.
Proof. reflexivity. Qed.
Lemma qsum_nil {X} (f : X -> Q) : qsum f [] = 0.
Proof. reflexivity. Qed.
Local Ltac qs := rewrite ?qsum_cons, ?qsum_nil.
Lemma qsum_ext {X} (f g : X -> Q) l : (forall x, In x l -> f x == g x) -> qsum f l == qsum g l.
Proof.
  induction l as [|a l IH]; intros H; qs; [reflexivity|]. rewrite (H a) by now left.
  rewrite IH; [reflexivity|]. intros x Hx. apply H. now right.
Qed.
Lemma qsum_le {X} (f g : X -> Q) l : (forall x, In x l -> f x <= g x) -> qsum f l <= qsum g l.
Proof.
  induction l as [|a l IH]; intros H; qs; [apply Qle_refl|].
  apply Qplus_le_compat; [apply H; now left|]. apply IH. intros x Hx. apply H. now right.
Qed.
Lemma qsum_add {X} (f g : X -> Q) l : qsum (fun x => f x + g x) l == qsum f l + qsum g l.
Proof. induction l as [|a l IH]; qs; [ring|]. rewrite IH. ring. Qed.
Lemma qsum_sub {X} (f g : X -> Q) l : qsum (fun x => f x - g x) l == qsum f l - qsum g l.
Proof. induction l as [|a l IH]; qs; [ring|]. rewrite IH. ring. Qed.
Lemma qsum_scale {X} k (f : X -> Q) l : qsum (fun x => k * f x) l == k * qsum f l.
Proof. induction l as [|a l IH]; qs; [ring|]. rewrite IH. ring. Qed.
Lemma qsum_0 {X} (f : X -> Q) l : (forall x, In x l -> f x == 0) -> qsum f l == 0.
Proof.
  intros H. rewrite (qsum_ext f (fun _ => 0) l H). clear. induction l as [|a l IH]; qs; [reflexivity|].
  rewrite IH. reflexivity.
Qed.
Lemma qsum_swap {X Y} (f : X -> Y -> Q) l m :
  qsum (fun x => qsum (fun y => f x y) m) l == qsum (fun y => qsum (fun x => f x y) l) m.
Proof.
  induction l as [|a l IH]; qs.
  - symmetry. apply qsum_0. reflexivity.
  - rewrite IH, <- qsum_add. reflexivity.
Qed.
Lemma qsum_if {X} (b : bool) (f : X -> Q) l : qsum (fun x => if b then f x else 0) l == if b then qsum f l else 0.
Proof. destruct b; [reflexivity|]. apply qsum_0. reflexivity. Qed.
Lemma qsum_single x k l : NoDup l -> In x l -> qsum (fun y => if String.eqb y x then k else 0) l == k.
Proof.
  induction l as [|a l IH]; intros Hn Hi; [easy|]. inversion Hn as [|? ? Ha Hl]; subst. qs.
  destruct (String.eqb_spec a x) as [->|Ne].
  - rewrite qsum_0; [ring|]. intros y Hy. destruct (String.eqb_spec y x) as [->|_]; [contradiction|reflexivity].
  - destruct Hi as [->|Hi]; [contradiction|]. rewrite IH by assumption. ring.
Qed.
Lemma qsum_le_pos {X} (f : X -> Q) l x : (forall y, In y l -> 0 <= f y) -> In x l -> f x <= qsum f l.
Proof.
  induction l as [|a l IH]; intros H Hi; [easy|]. qs.
  assert (0 <= qsum f l) as P.
  { rewrite <- (qsum_0 (fun _ : X => 0) l) by reflexivity. apply qsum_le. intros; apply H; now right. }
  destruct Hi as [->|Hi].
  - lra.
  - assert (f x <= qsum f l) by (apply IH; [intros; apply H; now right|exact Hi]).
    assert (0 <= f a) by (apply H; now left). lra.
Qed.

(** ** Weak duality *)
Section Duality.
  Variables (nodes : list string) (cap f : string -> string -> Q) (s t : string) (x : Q) (S : string -> bool).
  Hypothesis Hf : feasible nodes cap s t f x.
  Hypothesis Hn : NoDup nodes.
  Hypothesis Hs : In s nodes.
  Hypothesis Ss : S s = true.
  Hypothesis St : S t = false.

  Lemma cut_flow :
    x == qsum (fun u => qsum (fun v => if S u && negb (S v) then f u v - f v u else 0) nodes) nodes.
  Proof using Hf Hn Hs Ss St.
    destruct Hf as (_ & Hc & Hx).
    assert (qsum (fun u => if S u then qsum (fun v => f u v - f v u) nodes else 0) nodes == x) as E1.
    { rewrite <- Hx. rewrite (qsum_ext _ (fun u => if String.eqb u s then qsum (fun v => f s v - f v s) nodes else 0)).
      - rewrite qsum_single by assumption. apply (qsum_sub (fun v => f s v) (fun v => f v s)).
      - intros u Hu. destruct (String.eqb_spec u s) as [->|Ne]; [rewrite Ss; reflexivity|].
        destruct (S u) eqn:E; [|reflexivity]. 
        transitivity (qsum (fun v => f u v) nodes - qsum (fun v => f v u) nodes); [apply qsum_sub|].
        assert (u <> t) as Nt by congruence. pose proof (Hc u Hu Ne Nt) as H. cbv beta in H. lra. }
    rewrite <- E1. clear E1.
    assert (qsum (fun u => qsum (fun v => if S u && S v then f u v - f v u else 0) nodes) nodes == 0) as E2.
    { set (T := qsum _ nodes). assert (T == - (1) * T) as X; [|lra]. unfold T at 1. rewrite qsum_swap.
      unfold T. rewrite <- qsum_scale. apply qsum_ext. intros u _. rewrite <- qsum_scale. apply qsum_ext. intros v _.
      destruct (S u), (S v); cbn [andb]; ring. }
    match goal with |- ?a == ?b => assert (a == b + qsum (fun u => qsum (fun v => if S u && S v then f u v - f v u else 0) nodes) nodes) as E3 end.
    2: { rewrite E3, E2. ring. }
    rewrite <- qsum_add. apply qsum_ext. intros u _. rewrite <- qsum_add.
    destruct (S u); cbn [andb].
    - apply qsum_ext. intros v _. destruct (S v); cbn [negb]; ring.
    - symmetry. apply qsum_0. intros; ring.
  Qed.

  Lemma weak_duality : x <= cut_capacity nodes cap S.
  Proof using Hf Hn Hs Ss St.
    rewrite cut_flow. unfold cut_capacity. destruct Hf as (Hb & _). apply qsum_le. intros u Hu. apply qsum_le. intros v Hv.
    destruct (S u && negb (S v)); [|apply Qle_refl].
    destruct (Hb u v Hu Hv) as [_ H1]. destruct (Hb v u Hv Hu) as [H2 _]. lra.
  Qed.
End Duality.

(** ** Simple paths *)
Inductive ppath (s : string) : string -> list (string * string) -> Prop :=
| pp_nil : ppath s s []
| pp_cons u n es : ppath s u es -> n <> s -> u <> n ->
    (forall e, In e es -> fst e <> n /\ snd e <> n) -> ppath s n ((u, n) :: es).

Lemma push_spec c f s n es a b :
  ppath s n es ->
  push c f es a b == c a b - (if edge_mem (a, b) es then f else 0) + (if edge_mem (b, a) es then f else 0).
Proof.
  intros H. revert c. induction H as [|u n es Hp IH Hns Hun Hf]; intros c; cbn [push edge_mem existsb].
  - ring.
  - rewrite IH. fold (edge_mem (a, b) es) (edge_mem (b, a) es).
    assert (forall x, edge_mem (x, n) es = false /\ edge_mem (n, x) es = false) as F.
    { intros x. split; apply not_true_iff_false; rewrite edge_mem_In; intros Hi; apply Hf in Hi; cbn in Hi; tauto. }
    assert (edge_eqb (n, u) (u, n) = false) as E0.
    { apply not_true_iff_false. rewrite edge_eqb_spec. congruence. }
    destruct (edge_eqb (a, b) (u, n)) eqn:E1.
    + apply edge_eqb_spec in E1. injection E1 as -> ->. destruct (F u) as [F1 F2].
      assert (edge_eqb (u, n) (u, n) = true) as E2 by now apply edge_eqb_spec.
      assert (edge_eqb (u, n) (n, u) = false) as E3 by (apply not_true_iff_false; rewrite edge_eqb_spec; congruence).
      unfold mset. rewrite E0, E2, E3, F1, F2. cbn [orb]. ring.
    + destruct (edge_eqb (b, a) (u, n)) eqn:E2.
      * apply edge_eqb_spec in E2. injection E2 as -> ->. destruct (F u) as [F1 F2].
        assert (edge_eqb (n, u) (n, u) = true) as E3 by now apply edge_eqb_spec.
        unfold mset. rewrite E0, E3, F1, F2. cbn [orb]. ring.
      * assert (edge_eqb (a, b) (n, u) = false) as E3.
        { apply not_true_iff_false. rewrite edge_eqb_spec. intros H. injection H as -> ->.
          assert (edge_eqb (u, n) (u, n) = true) by now apply edge_eqb_spec. congruence. }
        unfold mset. rewrite E1, E3. cbn [orb]. reflexivity.
Qed.

Lemma b2q_or p q (f : Q) : p && q = false -> (if p || q then f else 0) == (if p then f else 0) + (if q then f else 0).
Proof. destruct p, q; cbn; intros H; try discriminate; ring. Qed.

(** What leaves a node minus what enters it, along a path. *)
Lemma path_balance nodes f s n es a :
  NoDup nodes -> ppath s n es -> In s nodes -> (forall e, In e es -> In (fst e) nodes /\ In (snd e) nodes) -> In a nodes ->
  qsum (fun b => (if edge_mem (a, b) es then f else 0) - (if edge_mem (b, a) es then f else 0)) nodes
  == (if String.eqb a s then f else 0) - (if String.eqb a n then f else 0).
Proof.
  intros Hn Hp. revert a. induction Hp as [|u n es Hp IH Hns Hun Hf]; intros a Hs He Ha.
  - rewrite qsum_0; [ring|]. intros b _. cbn. ring.
  - assert (forall x, edge_mem (x, n) es = false /\ edge_mem (n, x) es = false) as F.
    { intros x. split; apply not_true_iff_false; rewrite edge_mem_In; intros Hi; apply Hf in Hi; cbn in Hi; tauto. }
    destruct (He (u, n)) as [Hu Hnn]; [now left|]. cbn [fst snd] in Hu, Hnn.
    rewrite (qsum_ext _ (fun b => ((if edge_mem (a, b) es then f else 0) - (if edge_mem (b, a) es then f else 0)) +
       ((if String.eqb b n then (if String.eqb a u then f else 0) else 0) - (if String.eqb b u then (if String.eqb a n then f else 0) else 0)))).
    + rewrite qsum_add, IH; [|exact Hs|intros e Hi; apply He; now right|exact Ha].
      rewrite qsum_sub, !qsum_single by assumption. ring.
    + intros b _. cbn [edge_mem existsb]. fold (edge_mem (a, b) es) (edge_mem (b, a) es).
      rewrite !b2q_or.
      * unfold edge_eqb. cbn [fst snd]. destruct (String.eqb a u), (String.eqb b n), (String.eqb a n), (String.eqb b u); cbn [andb]; ring.
      * apply andb_false_iff. destruct (edge_eqb (b, a) (u, n)) eqn:E; [right|now left].
        apply edge_eqb_spec in E. injection E as -> ->. apply F.
      * apply andb_false_iff. destruct (edge_eqb (a, b) (u, n)) eqn:E; [right|now left].
        apply edge_eqb_spec in E. injection E as -> ->. apply F.
Qed.

Lemma path_no_reverse s n es a b : ppath s n es -> In (a, b) es -> ~ In (b, a) es.
Proof.
  induction 1 as [|u n es Hp IH Hns Hun Hf]; [easy|]. intros [H|H] [K|K].
  - congruence.
  - injection H as -> ->. apply Hf in K. cbn in K. tauto.
  - injection K as -> ->. apply Hf in H. cbn in H. tauto.
  - now apply IH.
Qed.

Lemma path_no_loop s n es a : ppath s n es -> ~ In (a, a) es.
Proof. intros H K. exact (path_no_reverse _ _ _ _ _ H K K). Qed.

Lemma bottleneck_spec c es : forall x,
  match bottleneck c es x with
  | None => es = [] /\ x = None
  | Some f => (forall e, In e es -> f <= c (fst e) (snd e)) /\ (forall y, x = Some y -> f <= y) /\
              ((exists e, In e es /\ f = c (fst e) (snd e)) \/ x = Some f)
  end.
Proof.
  induction es as [|[u v] es IH]; intros x; cbn [bottleneck].
  - destruct x as [y|]; [|auto]. split; [easy|]. split; [|now right]. intros z H. injection H as ->. apply Qle_refl.
  - set (y := match x with None => _ | Some _ => _ end).
    assert (y <= c u v /\ (forall z, x = Some z -> y <= z) /\ (y = c u v \/ x = Some y)) as (Y1 & Y2 & Y3).
    { unfold y. destruct x as [z|].
      - destruct (Qltb (c u v) z) eqn:E.
        + apply Qltb_true in E. split; [apply Qle_refl|]. split; [|now left]. intros w H. injection H as <-. lra.
        + apply Qltb_false in E. split; [exact E|]. split; [|now right]. intros w H. injection H as <-. apply Qle_refl.
      - split; [apply Qle_refl|]. split; [easy|now left]. }
    specialize (IH (Some y)). destruct (bottleneck c es (Some y)) as [f|]; [|destruct IH; discriminate].
    destruct IH as (I1 & I2 & I3). specialize (I2 y eq_refl). split; [|split].
    + intros e [<-|He]; [cbn; lra|auto].
    + intros z Hz. specialize (Y2 z Hz). lra.
    + destruct I3 as [(e & He & ->)|E]; [left; exists e; split; [now right|reflexivity]|].
      injection E as <-. destruct Y3 as [Y3|Y3]; [left; exists (u, v); split; [now left|exact Y3]|now right].
Qed.

(** ** Breadth first search *)
Section Bfs.
  Variables (nodes : list string) (c : matrix) (s t : string).
  Hypothesis Hn : NoDup nodes.
  Hypothesis Hs : In s nodes.
  Hypothesis Hst : s <> t.

  (** [u] was visited before [v]. *)
  Definition before_in (l : list string) (u v : string) : Prop := exists l1 l2, l = l1 ++ v :: l2 /\ In u l1.

  Record binv (b : bstate) : Prop := MkBinv {
    bi_nodup : NoDup (b_visited b);
    bi_sub : incl (b_visited b) nodes;
    bi_s : In s (b_visited b);
    bi_queue : incl (b_queue b) (b_visited b);
    bi_qnodup : NoDup (b_queue b);
    bi_pred : forall v, In v (b_visited b) -> v <> s ->
      exists u, sget v (b_pred b) = Some u /\ before_in (b_visited b) u v /\ 0 < c u v;
    bi_found : b_found b = true <-> In t (b_visited b)
  }.

  Lemma before_app l m u v : before_in l u v -> before_in (l ++ m) u v.
  Proof. intros (l1 & l2 & -> & H). exists l1, (l2 ++ m). rewrite <- app_assoc. auto. Qed.

  (** Adding one node. *)
  Lemma visit_inv b u v :
    binv b -> In u (b_visited b) -> In v nodes -> ~ In v (b_visited b) -> 0 < c u v -> b_found b = false ->
    binv (MkB (b_queue b ++ [v]) (b_visited b ++ [v]) (sset v u (b_pred b)) (if String.eqb v t then true else b_found b)).
  Proof.
    intros [B1 B2 B3 B4 B5 B6 B7] Hu Hv Nv Hc Hf. constructor; cbn.
    - apply (Permutation_NoDup (Permutation_cons_append _ _)). now constructor.
    - intros x. rewrite in_app_iff. intros [H|[<-|[]]]; auto.
    - apply in_or_app. now left.
    - intros x. rewrite !in_app_iff. intros [H|[<-|[]]]; [left; auto|right; now left].
    - apply (Permutation_NoDup (Permutation_cons_append _ _)). constructor; [|exact B5]. intros H. apply Nv. auto.
    - intros w Hw Nw. apply in_app_iff in Hw as [Hw|[<-|[]]].
      + destruct (B6 w Hw Nw) as (x & X1 & X2 & X3). exists x. split; [|split; [now apply before_app|exact X3]].
        rewrite sget_other; [exact X1|]. intros ->. contradiction.
      + exists u. rewrite sget_same. split; [reflexivity|]. split; [|exact Hc].
        exists (b_visited b), []. auto.
    - rewrite in_app_iff. cbn. destruct (String.eqb_spec v t) as [->|Ne].
      + split; auto.
      + rewrite B7. split; [auto|]. intros [H|[H|[]]]; [exact H|contradiction].
  Qed.

  Lemma scan_spec u vs : forall b,
    binv b -> In u (b_visited b) -> incl vs nodes -> b_found b = false ->
    let b' := scan c t u vs b in
    binv b' /\ (exists m, b_visited b' = b_visited b ++ m /\ b_queue b' = b_queue b ++ m) /\
    (b_found b' = false -> forall v, In v vs -> In v (b_visited b') \/ c u v <= 0).
  Proof.
    induction vs as [|v vs IH]; intros b B Hu Hi Hf; cbn [scan].
    - split; [exact B|]. split; [exists []; now rewrite !app_nil_r|]. easy.
    - destruct (negb (memS v (b_visited b)) && Qltb 0 (c u v)) eqn:E.
      + apply andb_true_iff in E as [E1 E2]. apply negb_true_iff, memS_false in E1. apply Qltb_true in E2.
        pose proof (visit_inv b u v B Hu (Hi v (or_introl eq_refl)) E1 E2 Hf) as B'.
        destruct (String.eqb v t) eqn:Et.
        * cbn. split; [exact B'|]. split; [exists [v]; auto|]. discriminate.
        * set (b1 := MkB _ _ _ _) in *. destruct (IH b1 B') as (I1 & (m & I2 & I3) & I4).
          { apply in_or_app. now left. } { intros x Hx. apply Hi. now right. } { exact Hf. }
          split; [exact I1|]. split.
          -- exists (v :: m). rewrite I2, I3. cbn. rewrite <- !app_assoc. auto.
          -- intros Hb w [<-|Hw]; [|now apply I4]. left. rewrite I2. apply in_or_app. left. cbn. apply in_or_app. right. now left.
      + destruct (IH b B Hu) as (I1 & (m & I2 & I3) & I4).
        { intros x Hx. apply Hi. now right. } { exact Hf. }
        split; [exact I1|]. split; [eauto|]. intros Hb w [<-|Hw]; [|now apply I4].
        apply andb_false_iff in E as [E|E].
        * apply negb_false_iff, memS_In in E. left. rewrite I2. apply in_or_app. now left.
        * right. now apply Qltb_false in E.
  Qed.

  (** Visited nodes which are not in the queue have been expanded. *)
  Definition expanded (b : bstate) : Prop :=
    forall u v, In u (b_visited b) -> ~ In u (b_queue b) -> In v nodes -> In v (b_visited b) \/ c u v <= 0.

  Lemma bfs_spec k : forall b,
    binv b -> expanded b \/ b_found b = true ->
    (List.length (b_queue b) + (List.length nodes - List.length (b_visited b)) < k)%nat ->
    exists b', bfs k nodes c t b = Ok b' /\ binv b' /\
      (b_found b' = false -> b_queue b' = [] /\ expanded b').
  Proof.
    induction k as [|k IH]; intros b B E Hk; [lia|]. cbn [bfs].
    destruct (b_queue b) as [|u q] eqn:Q.
    - exists b. split; [reflexivity|]. split; [exact B|]. intros Hf. split; [exact Q|].
      destruct E as [E|E]; [exact E|congruence].
    - destruct (b_found b) eqn:Hf.
      + exists b. split; [reflexivity|]. split; [exact B|]. congruence.
      + destruct E as [E|E]; [|discriminate].
        assert (In u (b_visited b)) as Hu by (apply (bi_queue b B); rewrite Q; now left).
        assert (memS u nodes = true) as -> by (apply memS_In, (bi_sub b B), Hu).
        set (b0 := MkB q (b_visited b) (b_pred b) false).
        assert (binv b0) as B0.
        { destruct B as [B1 B2 B3 B4 B5 B6 B7]. constructor; cbn; auto.
          - intros x Hx. apply B4. rewrite Q. now right.
          - rewrite Q in B5. now inversion B5.
          - rewrite <- B7, Hf. split; discriminate. }
        destruct (scan_spec u nodes b0 B0 Hu) as (I1 & (m & I2 & I3) & I4); [intros x Hx; exact Hx|reflexivity|].
        set (b' := scan c t u nodes b0) in *. cbn [b_visited b_queue b0] in I2, I3.
        apply IH; [exact I1| |].
        * destruct (b_found b') eqn:Hf'; [now right|]. left. intros x y Hx Nx Hy.
          rewrite I2 in Hx. rewrite I3 in Nx. apply in_app_iff in Hx as [Hx|Hx].
          -- destruct (string_dec x u) as [->|Ne]; [now apply I4|].
             destruct (E x y Hx) as [H|H]; [|exact Hy|left; rewrite I2; apply in_or_app; now left|now right].
             rewrite Q. intros [H|H]; [congruence|]. apply Nx, in_or_app. now left.
          -- exfalso. apply Nx, in_or_app. now right.
        * assert (List.length (b_visited b') <= List.length nodes)%nat as L.
          { apply NoDup_incl_length; [apply (bi_nodup b' I1)|apply (bi_sub b' I1)]. }
          rewrite I2 in L |- *. rewrite I3. rewrite !app_length in *. cbn in Hk. lia.
  Qed.

  (** The path from the source. *)
  Lemma trace_spec b : binv b -> forall k l1 n l2,
    b_visited b = l1 ++ n :: l2 -> (List.length l1 <= k)%nat ->
    exists es, trace k (b_pred b) s n = Ok es /\ ppath s n es /\
      (forall e, In e es -> 0 < c (fst e) (snd e)) /\
      (forall e, In e es -> In (fst e) (l1 ++ [n]) /\ In (snd e) (l1 ++ [n])) /\ (n <> s -> es <> []).
  Proof.
    intros B. pose proof (bi_nodup b B) as ND.
    assert (forall (l1 l2 m1 m2 : list string) n, NoDup (l1 ++ n :: l2) -> l1 ++ n :: l2 = m1 ++ n :: m2 -> l1 = m1) as Uniq.
    { clear. induction l1 as [|a l1 IH]; intros l2 [|b m1] m2 n ND E; cbn in E.
      - reflexivity.
      - injection E as <- ->. inversion ND as [|? ? H _]; subst. exfalso. apply H, in_or_app. right. now left.
      - injection E as -> <-. inversion ND as [|? ? H _]; subst. exfalso. apply H, in_or_app. right. now left.
      - injection E as <- E. inversion ND as [|? ? _ ND']; subst. f_equal. eapply IH; eassumption. }
    induction k as [|k IH]; intros l1 n l2 EV Hk.
    - destruct l1; [|cbn in Hk; lia]. cbn [trace].
      destruct (String.eqb_spec n s) as [->|Ne].
      + exists []. split; [reflexivity|]. split; [constructor|]. split; [easy|]. split; [easy|]. congruence.
      + destruct (bi_pred b B n) as (u & _ & (m1 & m2 & E & Hu) & _); [rewrite EV; now left|exact Ne|].
        rewrite EV in E, ND. apply (Uniq [] l2 m1 m2 n ND) in E. subst m1. contradiction.
    - cbn [trace]. destruct (String.eqb_spec n s) as [->|Ne].
      + exists []. split; [reflexivity|]. split; [constructor|]. split; [easy|]. split; [easy|]. congruence.
      + destruct (bi_pred b B n) as (u & Eu & (m1 & m2 & E & Hu) & Hc); [rewrite EV; apply in_or_app; right; now left|exact Ne|].
        rewrite Eu. pose proof E as E'. rewrite EV in E', ND. apply (Uniq l1 l2 m1 m2 n ND) in E'. subst m1.
        apply in_split in Hu as (p1 & p2 & Ep).
        destruct (IH p1 u (p2 ++ n :: l2)) as (es & T & P & C & V & _).
        { rewrite EV, Ep, <- app_assoc. reflexivity. }
        { rewrite Ep, app_length in Hk. cbn in Hk. lia. }
        rewrite T. cbn [bind]. exists ((u, n) :: es). split; [reflexivity|].
        assert (forall x, In x (p1 ++ [u]) -> In x l1) as Hl.
        { intros x. rewrite Ep, !in_app_iff. cbn. intuition. }
        assert (~ In n l1) as Nl by (apply NoDup_remove_2 in ND; intros H; apply ND, in_or_app; now left).
        split.
        { constructor; [exact P|exact Ne| |].
          - intros ->. apply Nl, Hl, in_or_app. right. now left.
          - intros e He. destruct (V e He) as [V1 V2]. split; intros <-; apply Nl, Hl; assumption. }
        split; [|split].
        * intros e [<-|He]; [exact Hc|auto].
        * intros e [<-|He]; cbn [fst snd].
          -- split; apply in_or_app; [left; apply Hl, in_or_app; right; now left|right; now left].
          -- destruct (V e He) as [V1 V2]. split; apply in_or_app; left; apply Hl; assumption.
        * discriminate.
  Qed.

  Lemma search_path :
    exists b, bfs (Datatypes.S (List.length nodes)) nodes c t (MkB [s] [s] [] false) = Ok b /\
      (b_found b = true -> exists es, trace (List.length nodes) (b_pred b) s t = Ok es /\ ppath s t es /\ es <> [] /\
         (forall e, In e es -> 0 < c (fst e) (snd e)) /\ (forall e, In e es -> In (fst e) nodes /\ In (snd e) nodes)) /\
      (b_found b = false -> In s (b_visited b) /\ ~ In t (b_visited b) /\
         forall u v, In u (b_visited b) -> In v nodes -> ~ In v (b_visited b) -> c u v <= 0).
  Proof.
    assert (binv (MkB [s] [s] [] false)) as B0.
    { constructor; cbn.
      - constructor; [easy|constructor].
      - intros x [<-|[]]. exact Hs.
      - now left.
      - intros x Hx. exact Hx.
      - constructor; [easy|constructor].
      - intros v [<-|[]] H. contradiction.
      - split; [discriminate|]. intros [H|[]]. contradiction. }
    destruct (bfs_spec (Datatypes.S (List.length nodes)) (MkB [s] [s] [] false) B0) as (b & E & B & Hb).
    { left. intros u v [<-|[]] H. exfalso. apply H. now left. }
    { cbn. destruct nodes as [|x l]; [easy|]. cbn. lia. }
    exists b. split; [exact E|]. split.
    - intros Hf. apply (bi_found b B) in Hf. apply in_split in Hf as (l1 & l2 & EV).
      destruct (trace_spec b B (List.length nodes) l1 t l2 EV) as (es & T & P & C & V & Ne).
      + assert (List.length (b_visited b) <= List.length nodes)%nat as L.
        { apply NoDup_incl_length; [apply (bi_nodup b B)|apply (bi_sub b B)]. }
        rewrite EV, app_length in L. cbn in L. lia.
      + exists es. split; [exact T|]. split; [exact P|]. split; [auto|]. split; [exact C|].
        intros e He. destruct (V e He) as [V1 V2].
        assert (forall x, In x (l1 ++ [t]) -> In x nodes) as Hl.
        { intros x Hx. apply (bi_sub b B). rewrite EV. apply in_app_iff in Hx as [Hx|[<-|[]]]; apply in_or_app; [now left|right; now left]. }
        auto.
    - intros Hf. destruct (Hb Hf) as [Q Ex]. split; [apply (bi_s b B)|]. split.
      + rewrite <- (bi_found b B), Hf. discriminate.
      + intros u v Hu Hv Nv. destruct (Ex u v Hu) as [H|H]; [rewrite Q; easy|exact Hv|contradiction|exact H].
  Qed.
End Bfs.

(** ** The residual capacities *)
Section Augment.
  Variables (nodes : list string) (c0 : matrix) (s t : string).
  Hypothesis Hn : NoDup nodes.
  Hypothesis Hs : In s nodes.
  Hypothesis Hst : s <> t.
  Hypothesis H0 : forall u v, 0 <= c0 u v.

  Record resid (c : matrix) (x : Q) : Prop := MkResid {
    r_pos : forall u v, 0 <= c u v;
    r_sum : forall u v, u <> v -> c u v + c v u == c0 u v + c0 v u;
    r_diag : forall u, c u u == c0 u u;
    r_bal : forall n, In n nodes ->
      qsum (fun v => c0 n v - c n v) nodes == (if String.eqb n s then x else 0) - (if String.eqb n t then x else 0)
  }.

  Lemma resid_init : resid c0 0.
  Proof using H0.
    constructor; [exact H0|reflexivity|reflexivity|]. intros n _. rewrite qsum_0.
    - destruct (String.eqb n s), (String.eqb n t); ring.
    - intros; ring.
  Qed.

  Lemma resid_push c x f es :
    resid c x -> ppath s t es -> 0 < f -> (forall e, In e es -> f <= c (fst e) (snd e)) ->
    (forall e, In e es -> In (fst e) nodes /\ In (snd e) nodes) -> resid (push c f es) (x + f).
  Proof using Hn Hs.
    intros [R1 R2 R3 R4] P Hf Hb He.
    pose proof (fun a b => push_spec c f s t es a b P) as PS. constructor.
    - intros u v. rewrite PS. destruct (edge_mem (u, v) es) eqn:E1.
      + apply edge_mem_In in E1. pose proof (Hb _ E1). cbn in H. destruct (edge_mem (v, u) es); lra.
      + pose proof (R1 u v). destruct (edge_mem (v, u) es); lra.
    - intros u v Ne. rewrite !PS. pose proof (R2 u v Ne). lra.
    - intros u. rewrite PS. pose proof (R3 u). lra.
    - intros n Hi.
      rewrite (qsum_ext _ (fun v => (c0 n v - c n v) + ((if edge_mem (n, v) es then f else 0) - (if edge_mem (v, n) es then f else 0)))).
      + rewrite qsum_add, R4 by exact Hi. rewrite (path_balance nodes f s t es n Hn P Hs He Hi).
        destruct (String.eqb n s), (String.eqb n t); ring.
      + intros v _. rewrite PS. ring.
  Qed.

  (** The flow which belongs to residual capacities. *)
  Definition flow_of (c : matrix) : matrix := fun u v => if Qltb 0 (c0 u v - c u v) then c0 u v - c u v else 0.

  Lemma flow_anti c x u v : resid c x -> flow_of c u v - flow_of c v u == c0 u v - c u v.
  Proof using.
    intros R. unfold flow_of. destruct (string_dec u v) as [->|Ne].
    - pose proof (r_diag c x R v). destruct (Qltb 0 (c0 v v - c v v)); lra.
    - pose proof (r_sum c x R u v Ne).
      destruct (Qltb 0 (c0 u v - c u v)) eqn:E1, (Qltb 0 (c0 v u - c v u)) eqn:E2;
        rewrite ?Qltb_true, ?Qltb_false in *; lra.
  Qed.

  Lemma resid_feasible c x : resid c x -> feasible nodes c0 s t (flow_of c) x.
  Proof using H0 Hst Hs.
    intros R. pose proof (fun u v => flow_anti c x u v R) as FA.
    assert (forall n, In n nodes -> qsum (fun v => flow_of c n v) nodes - qsum (fun u => flow_of c u n) nodes ==
              (if String.eqb n s then x else 0) - (if String.eqb n t then x else 0)) as B.
    { intros n Hi. rewrite <- (r_bal c x R n Hi).
      transitivity (qsum (fun v => flow_of c n v - flow_of c v n) nodes).
      - symmetry. apply (qsum_sub (fun v => flow_of c n v) (fun v => flow_of c v n)).
      - apply qsum_ext. intros v _. apply FA. }
    split; [|split].
    - intros u v _ _. unfold flow_of. pose proof (r_pos c x R u v). pose proof (H0 u v).
      destruct (Qltb 0 (c0 u v - c u v)) eqn:E; rewrite ?Qltb_true, ?Qltb_false in *; lra.
    - intros n Hi N1 N2. pose proof (B n Hi) as H. apply String.eqb_neq in N1, N2. rewrite N1, N2 in H. lra.
    - pose proof (B s Hs) as H. rewrite String.eqb_refl in H. apply String.eqb_neq in Hst. rewrite Hst in H.
      rewrite H. ring.
  Qed.

  Lemma resid_cut c x S :
    resid c x -> S s = true -> S t = false ->
    (forall u v, In u nodes -> In v nodes -> S u = true -> S v = false -> c u v <= 0) ->
    x == cut_capacity nodes c0 S.
  Proof using H0 Hst Hs Hn.
    intros R Ss St Hc. rewrite (cut_flow nodes c0 (flow_of c) s t x S (resid_feasible c x R) Hn Hs Ss St).
    unfold cut_capacity. apply qsum_ext. intros u Hu. apply qsum_ext. intros v Hv.
    destruct (S u) eqn:E1, (S v) eqn:E2; cbn [andb negb]; try reflexivity.
    rewrite (flow_anti c x u v R). pose proof (Hc u v Hu Hv E1 E2). pose proof (r_pos c x R u v). lra.
  Qed.

  (** One result of [augment]. *)
  Definition maximal (x : Q) : Prop :=
    exists f S, feasible nodes c0 s t f x /\ S s = true /\ S t = false /\ x == cut_capacity nodes c0 S.

  Lemma augment_ok k : forall c x, resid c x -> forall y, augment k nodes s t c x = Ok y -> maximal y.
  Proof using H0 Hst Hs Hn.
    induction k as [|k IH]; intros c x R y; cbn [augment];
      destruct (search_path nodes c s t Hn Hs Hst) as (b & E & Ef & En);
      rewrite E; cbn [bind]; destruct (b_found b) eqn:Hb.
    1,3: destruct (Ef eq_refl) as (es & T & P & Ne & C & V); rewrite T; cbn [bind];
         pose proof (bottleneck_spec c es None) as BS; destruct (bottleneck c es None) as [f|]; try discriminate.
    - intros Hy. apply (IH _ _) in Hy; [exact Hy|]. destruct BS as (B1 & _ & [(e & He & ->)|B3]); [|discriminate].
      apply resid_push; auto.
    - intros Hy. injection Hy as <-. destruct (En eq_refl) as (V1 & V2 & V3).
      exists (flow_of c), (fun u => memS u (b_visited b)). split; [now apply resid_feasible|].
      split; [now apply memS_In|]. split; [now apply memS_false|].
      apply (resid_cut c); [exact R|now apply memS_In|now apply memS_false|].
      intros u v Hu Hv S1 S2. apply memS_In in S1. apply memS_false in S2. now apply V3.
    - intros Hy. injection Hy as <-. destruct (En eq_refl) as (V1 & V2 & V3).
      exists (flow_of c), (fun u => memS u (b_visited b)). split; [now apply resid_feasible|].
      split; [now apply memS_In|]. split; [now apply memS_false|].
      apply (resid_cut c); [exact R|now apply memS_In|now apply memS_false|].
      intros u v Hu Hv S1 S2. apply memS_In in S1. apply memS_false in S2. now apply V3.
  Qed.

  Lemma augment_more k : forall c x y, augment k nodes s t c x = Ok y -> augment (S k) nodes s t c x = Ok y.
  Proof using.
    induction k as [|k IH]; intros c x y H.
    - cbn [augment] in *. destruct (bfs _ _ _ _ _) as [b|]; [|discriminate]. cbn [bind] in *.
      destruct (b_found b); [|exact H]. destruct (trace _ _ _ _) as [es|]; [|discriminate]. cbn [bind] in *.
      destruct (bottleneck _ _ _); discriminate.
    - cbn [augment] in H. change (augment (Datatypes.S (Datatypes.S k)) nodes s t c x) with
        (let n := List.length nodes in
         let* b := bfs (Datatypes.S n) nodes c t (MkB [s] [s] [] false) in
         if b_found b
         then let* es := trace n (b_pred b) s t in
              match bottleneck c es None with
              | None => Err EFuel
              | Some f => augment (Datatypes.S k) nodes s t (push c f es) (x + f)
              end
         else Ok x). cbv zeta.
      destruct (bfs _ _ _ _ _) as [b|]; [|discriminate]. cbn [bind] in *.
      destruct (b_found b); [|exact H]. destruct (trace _ _ _ _) as [es|]; [|discriminate]. cbn [bind] in *.
      destruct (bottleneck _ _ _); [|discriminate]. now apply IH.
  Qed.
  Lemma augment_mono k j c x y : (k <= j)%nat -> augment k nodes s t c x = Ok y -> augment j nodes s t c x = Ok y.
  Proof using. induction 1; [auto|]. intros H1. apply augment_more. auto. Qed.

  (** Termination: all capacities are multiples of [1 # D]. *)
  Definition multiple (D : positive) (q : Q) : Prop := exists z : Z, q == z # D.

  Lemma multiple_add D p q : multiple D p -> multiple D q -> multiple D (p + q).
  Proof using. intros [a Ha] [b Hb]. exists (a + b)%Z. rewrite Ha, Hb. unfold Qeq, Qplus; cbn. lia. Qed.
  Lemma multiple_opp D p : multiple D p -> multiple D (- p).
  Proof using. intros [a Ha]. exists (- a)%Z. rewrite Ha. reflexivity. Qed.
  Lemma multiple_0 D : multiple D 0.
  Proof using. exists 0%Z. unfold Qeq; cbn. lia. Qed.
  Lemma multiple_eq D p q : p == q -> multiple D p -> multiple D q.
  Proof using. intros E [a Ha]. exists a. now rewrite <- E. Qed.
  Lemma multiple_if D (b : bool) q : multiple D q -> multiple D (if b then q else 0).
  Proof using. destruct b; [auto|intros _; apply multiple_0]. Qed.

  Lemma multiple_times D k q : multiple D q -> multiple (D * k) q.
  Proof using. intros [z Hz]. exists (z * Zpos k)%Z. rewrite Hz. unfold Qeq; cbn. lia. Qed.

  Lemma common_denominator (l : list Q) : exists D, forall q, In q l -> multiple D q.
  Proof using.
    induction l as [|[a d] l [D IH]]; [exists 1%positive; easy|]. exists (D * d)%positive. intros q [<-|Hq].
    - exists (a * Zpos D)%Z. unfold Qeq; cbn. lia.
    - apply multiple_times. auto.
  Qed.

  Lemma multiple_least D q : multiple D q -> 0 < q -> 1 # D <= q.
  Proof using.
    intros [z Hz] Hq. rewrite Hz in *. unfold Qlt, Qle in *; cbn in *. nia.
  Qed.

  Let M := qsum (fun v => c0 s v) nodes.

  Lemma resid_bound c x : resid c x -> x <= M.
  Proof using H0 Hst Hs.
    intros R. pose proof (r_bal c x R s Hs) as B. rewrite String.eqb_refl in B.
    assert (String.eqb s t = false) as E by now apply String.eqb_neq. rewrite E in B.
    rewrite qsum_sub in B. change (M - qsum (fun v => c s v) nodes == x - 0) in B.
    assert (0 <= qsum (fun v => c s v) nodes) as P.
    { rewrite <- (qsum_0 (fun _ : string => 0) nodes) by (intros; reflexivity). apply qsum_le. intros v _. apply (r_pos c x R). }
    lra.
  Qed.

  Lemma augment_terminates D k : forall c x,
    resid c x -> (forall u v, In u nodes -> In v nodes -> multiple D (c u v)) ->
    M - x < (Z.of_nat (Datatypes.S k) # D) -> exists y, augment k nodes s t c x = Ok y.
  Proof using H0 Hst Hs Hn.
    induction k as [|k IH]; intros c x R HD Hk; cbn [augment];
      destruct (search_path nodes c s t Hn Hs Hst) as (b & E & Ef & En);
      rewrite E; cbn [bind]; destruct (b_found b) eqn:Hb; try (eexists; reflexivity).
    1,2: destruct (Ef eq_refl) as (es & T & P & Ne & C & V); rewrite T; cbn [bind];
         pose proof (bottleneck_spec c es None) as BS; destruct (bottleneck c es None) as [f|]; [|destruct BS; contradiction];
         destruct BS as (B1 & _ & [(e & He & ->)|B3]); [|discriminate];
         set (f := c (fst e) (snd e)) in *;
         assert (multiple D f) as Hm by (apply HD; apply V, He);
         assert (0 < f) as Hf by (apply C, He);
         pose proof (multiple_least D f Hm Hf) as Hl;
         assert (resid (push c f es) (x + f)) as R' by (apply resid_push; auto).
    - exfalso. pose proof (resid_bound _ _ R'). change (Z.of_nat 1 # D) with (1 # D) in Hk. lra.
    - apply IH; [exact R'| |].
      + intros u v Hu Hv. apply (multiple_eq D (c u v - (if edge_mem (u, v) es then f else 0) + (if edge_mem (v, u) es then f else 0))).
        { symmetry. apply (push_spec c f s t es u v P). }
        apply multiple_add; [apply multiple_add; [now apply HD|apply multiple_opp; now apply multiple_if]|now apply multiple_if].
      + assert (Z.of_nat (Datatypes.S (Datatypes.S k)) # D == (Z.of_nat (Datatypes.S k) # D) + (1 # D)) as X.
        { unfold Qeq, Qplus. cbn -[Z.of_nat]. lia. }
        lra.
  Qed.

  Lemma augment_total : exists k y, forall j, (k <= j)%nat -> augment j nodes s t c0 0 = Ok y.
  Proof using H0 Hst Hs Hn.
    destruct (common_denominator (map (fun e => c0 (fst e) (snd e)) (list_prod nodes nodes))) as [D HD].
    assert (exists k, M - 0 < (Z.of_nat (Datatypes.S k) # D)) as [k Hk].
    { exists (Z.to_nat (Z.abs (QArith_base.Qnum M) * Zpos D)). rewrite Nat2Z.inj_succ, Z2Nat.id by lia.
      assert (M - 0 == M) as -> by ring. destruct M as [a d]. unfold Qlt. cbn [QArith_base.Qnum Qden].
      apply (Z.lt_le_trans _ (Z.succ (Z.abs a * Zpos D) * 1)); [|apply Z.mul_le_mono_nonneg_l; nia].
      rewrite Z.mul_1_r. apply Zle_lt_succ. apply Z.mul_le_mono_nonneg_r; lia. }
    destruct (augment_terminates D k c0 0 resid_init) as [y Hy]; [|exact Hk|].
    - intros u v Hu Hv. apply HD. apply (in_map (fun e => c0 (fst e) (snd e)) _ (u, v)). now apply in_prod.
    - exists k, y. intros j Hj. exact (augment_mono k j _ _ _ Hj Hy).
  Qed.
End Augment.

(** ** The matrix of capacities *)
Section Capacity.
  Context {A : Type}.
  Variables (g : graph A) (wf : A -> res Q) (attr : string).
  Hypothesis W : wfg g.

  Lemma has_edge_In u v : has_edge g u v = true <-> In (u, v) (g_edges g).
  Proof using. unfold has_edge. apply edge_mem_In. Qed.

  Lemma capacities_mapM l :
    (forall e, In e l -> In e (g_edges g)) ->
    (forall u v, In (u, v) (g_edges g) -> exists a c, edge_attribute g u v attr = Ok a /\ wf a = Ok c /\ 0 <= c) ->
    exists m, mapM (fun e => let* a := edge_attribute g (fst e) (snd e) attr in
                   let* c := wf a in
                   let* _ := raise_if (Qltb c 0%Q) EAssertion in
                   Ok (e, c)) l = Ok m /\
      forall u v, match eget (u, v) m with
                  | Some c => exists a, In (u, v) l /\ edge_attribute g u v attr = Ok a /\ wf a = Ok c /\ 0 <= c
                  | None => ~ In (u, v) l
                  end.
  Proof using.
    induction l as [|[u v] l IH]; intros Hl Hw.
    - exists []. split; [reflexivity|]. intros u v. cbn. auto.
    - destruct IH as (m & E & H); [intros; apply Hl; now right|exact Hw|].
      destruct (Hw u v) as (a & c & Ea & Ec & Hc); [apply Hl; now left|].
      assert (Qltb c 0 = false) as Hb by now apply Qltb_false.
      cbn [mapM fst snd]. rewrite Ea. cbn [bind]. rewrite Ec. cbn [bind]. rewrite Hb. cbn [raise_if bind]. rewrite E. cbn [bind].
      exists (((u, v), c) :: m). split; [reflexivity|]. intros x y. cbn [eget].
      destruct (edge_eqb (x, y) (u, v)) eqn:E1.
      + apply edge_eqb_spec in E1. injection E1 as -> ->. exists a. split; [now left|auto].
      + specialize (H x y). destruct (eget (x, y) m) as [c'|].
        * destruct H as (a' & H1 & H2). exists a'. split; [now right|exact H2].
        * intros [K|K]; [|contradiction]. symmetry in K. apply edge_eqb_spec in K. congruence.
  Qed.

  Lemma capacities_ok :
    (forall u v, In (u, v) (g_edges g) -> exists a c, edge_attribute g u v attr = Ok a /\ wf a = Ok c /\ 0 <= c) ->
    exists l, capacities wf g attr = Ok l /\ capacity_of g wf attr (matrix_of l) /\ forall u v, 0 <= matrix_of l u v.
  Proof using W.
    intros Hw. unfold capacities.
    destruct (capacities_mapM (filter (fun e => has_edge g (fst e) (snd e)) (list_prod (g_nodes g) (g_nodes g)))) as (m & E & H).
    - intros [u v] Hi. apply filter_In in Hi as [_ Hi]. now apply has_edge_In.
    - exact Hw.
    - exists m. split; [exact E|].
      assert (forall u v, In (u, v) (filter (fun e => has_edge g (fst e) (snd e)) (list_prod (g_nodes g) (g_nodes g))) <-> In (u, v) (g_edges g)) as Hin.
      { intros u v. rewrite filter_In, in_prod_iff. cbn [fst snd]. rewrite has_edge_In. split; [tauto|].
        intros Hi. split; [exact (wf_edges g W u v Hi)|exact Hi]. }
      split.
      + intros u v. specialize (H u v). unfold matrix_of. split; intros Hi.
        * destruct (eget (u, v) m) as [c|]; [|exfalso; apply H, Hin, Hi]. destruct H as (a & _ & H2 & H3 & _).
          exists a, c. split; [exact H2|]. split; [exact H3|reflexivity].
        * destruct (eget (u, v) m) as [c|]; [|reflexivity]. destruct H as (a & H1 & _). exfalso. apply Hi, Hin, H1.
      + intros u v. specialize (H u v). unfold matrix_of. destruct (eget (u, v) m) as [c|]; [|apply Qle_refl].
        destruct H as (a & _ & _ & _ & H). exact H.
  Qed.
End Capacity.

Lemma qsum_perm {X} (f : X -> Q) l m : Permutation l m -> qsum f l == qsum f m.
Proof.
  induction 1; [reflexivity| | |].
  - rewrite !qsum_cons, IHPermutation. reflexivity.
  - rewrite !qsum_cons. ring.
  - now rewrite IHPermutation1.
Qed.

Lemma feasible_perm l m cap s t f x : Permutation l m -> feasible l cap s t f x -> feasible m cap s t f x.
Proof.
  intros P (H1 & H2 & H3).
  assert (forall y, In y m -> In y l) as I by (intros y; apply Permutation_in; now symmetry).
  split; [|split].
  - intros u v Hu Hv. apply H1; auto.
  - intros n Hn N1 N2. rewrite <- !(qsum_perm _ l m P). auto.
  - rewrite <- !(qsum_perm _ l m P). exact H3.
Qed.

Lemma cut_perm l m cap S : Permutation l m -> cut_capacity l cap S == cut_capacity m cap S.
Proof.
  intros P. unfold cut_capacity. rewrite (qsum_perm _ l m P). apply qsum_ext. intros u _. apply qsum_perm, P.
Qed.

(** ** The maximal flow *)
Lemma max_flow {A B} it (g : graph A) wf (inverse : Q -> B) s t attr :
  wfg g -> permuting it -> g_dist g = true -> In s (g_nodes g) -> s <> t ->
  (forall u v, In (u, v) (g_edges g) -> exists a c, edge_attribute g u v attr = Ok a /\ wf a = Ok c /\ 0 <= c) ->
  exists k x cap f S,
    (forall j, (k <= j)%nat -> get_max_flow j it wf inverse g s t attr = Ok (inverse x)) /\
    capacity_of g wf attr cap /\
    feasible (g_nodes g) cap s t f x /\
    S s = true /\ S t = false /\ x == cut_capacity (g_nodes g) cap S.
Proof.
  intros W Hit Hd Hs Hst Hw.
  destruct (capacities_ok g wf attr W Hw) as (l & El & Hcap & Hpos).
  set (nodes := it 0%nat (g_nodes g)). assert (Permutation (g_nodes g) nodes) as P by (symmetry; apply Hit).
  assert (NoDup nodes) as Hn by exact (Permutation_NoDup P (wf_nodup g W)).
  assert (In s nodes) as Hs' by exact (Permutation_in _ P Hs).
  destruct (augment_total nodes (matrix_of l) s t Hn Hs' Hst Hpos) as (k & x & Hk).
  destruct (augment_ok nodes (matrix_of l) s t Hn Hs' Hst Hpos k _ _ (resid_init nodes (matrix_of l) s t Hpos) x (Hk k (le_n k)))
    as (f & S & F & S1 & S2 & C).
  exists k, x, (matrix_of l), f, S. split.
  - intros j Hj. unfold get_max_flow. rewrite Hd. cbn [negb raise_if bind]. rewrite El. cbn [bind]. fold nodes.
    rewrite (Hk j Hj). reflexivity.
  - split; [exact Hcap|]. split; [apply (feasible_perm nodes); [now symmetry|exact F]|]. split; [exact S1|]. split; [exact S2|].
    rewrite C. apply cut_perm. now symmetry.
Qed.

(** No flow exceeds the capacity of a cut: the flow above is the largest. *)
Lemma max_flow_largest nodes cap s t f x f' x' S :
  NoDup nodes -> In s nodes -> feasible nodes cap s t f x -> S s = true -> S t = false -> x == cut_capacity nodes cap S ->
  feasible nodes cap s t f' x' -> x' <= x.
Proof.
  intros Hn Hs F S1 S2 E F'. rewrite E. exact (weak_duality nodes cap f' s t x' S F' Hn Hs S1 S2).
Qed.
