(** Bookkeeping of graphs, and the search loop shared by widest and shortest
    paths. *)
From Coq Require Import Permutation Sorted.
From Verif Require Import Base BaseLemmas SortLemmas Graph GraphSpec.

Lemma edge_eqb_spec x y : edge_eqb x y = true <-> x = y.
Proof.
  unfold edge_eqb. destruct x as [a b], y as [c d]; cbn [fst snd].
  rewrite andb_true_iff, !String.eqb_eq. split; [intros [-> ->]; reflexivity|intros H; injection H as -> ->; auto].
Qed.
Lemma edge_mem_In x l : edge_mem x l = true <-> In x l.
Proof.
  unfold edge_mem. rewrite existsb_exists. split.
  - intros (y & Hy & E). apply edge_eqb_spec in E. now subst.
  - intros H. exists x. split; [exact H|]. now apply edge_eqb_spec.
Qed.

Lemma sget_same {V} k (v : V) d : sget k (sset k v d) = Some v.
Proof. exact (aget_aset_same String.eqb Seqb_spec k v d). Qed.
Lemma sget_other {V} k k' (v : V) d : k' <> k -> sget k' (sset k v d) = sget k' d.
Proof. intros H. apply (aget_aset_other String.eqb Seqb_spec). congruence. Qed.

Lemma sget_map {B} (f : string -> B) n l : In n l -> sget n (map (fun n => (n, f n)) l) = Some (f n).
Proof.
  induction l as [|m l IH]; [easy|]. cbn. destruct (String.eqb_spec n m) as [->|Ne]; [auto|].
  intros [H|H]; [congruence|auto].
Qed.

(** ** Well-formed graphs *)
Section Wf.
  Context {A : Type}.
  Implicit Types g : graph A.

  Record wfg (g : graph A) : Prop := MkWf {
    wf_nodup : NoDup (g_nodes g);
    wf_edges : forall u v, In (u, v) (g_edges g) -> In u (g_nodes g) /\ In v (g_nodes g);
    wf_enodup : NoDup (g_edges g);
    wf_pred : forall v, In v (g_nodes g) -> exists ps, sget v (g_pred g) = Some ps /\ NoDup ps /\
                        forall u, In u ps <-> In (u, v) (g_edges g);
    wf_succ : forall u, In u (g_nodes g) -> exists ss, sget u (g_succ g) = Some ss /\ NoDup ss /\
                        forall v, In v ss <-> In (u, v) (g_edges g);
    wf_eattr : forall u v, In (u, v) (g_edges g) <-> exists d, eget (u, v) (g_eattr g) = Some d;
    wf_nattr : forall n, In n (g_nodes g) <-> exists d, sget n (g_nattr g) = Some d
  }.

  Lemma new_wf : wfg (@graph_new A).
  Proof.
    constructor; cbn; try constructor; try easy; intros; try (split; [easy|intros [d H]; discriminate]).
    all: try (destruct H as [d H]; discriminate).
  Qed.

  Lemma add_node_spec g n :
    wfg g -> wfg (add_node g n) /\ g_edges (add_node g n) = g_edges g /\
    (forall m, In m (g_nodes (add_node g n)) <-> In m (g_nodes g) \/ m = n) /\
    g_eattr (add_node g n) = g_eattr g /\ g_dist (add_node g n) = g_dist g.
  Proof.
    intros W. unfold add_node. destruct (memS n (g_nodes g)) eqn:M.
    - apply memS_In in M. split; [exact W|]. split; [reflexivity|]. split; [|auto].
      intros m. split; [auto|]. intros [H| ->]; assumption.
    - apply memS_false in M. cbn. split; [|split; [reflexivity|split; [|auto]]].
      2: { intros m. rewrite in_app_iff. cbn. intuition congruence. }
      destruct W as [W1 W2 W3 W4 W5 W6 W7].
      constructor; cbn.
      + apply (Permutation_NoDup (Permutation_cons_append _ _)). now constructor.
      + intros u v H. destruct (W2 u v H). rewrite !in_app_iff. auto.
      + exact W3.
      + intros v Hv. apply in_app_iff in Hv as [Hv|[<-|[]]].
        * rewrite sget_other by congruence. auto.
        * rewrite sget_same. exists []. split; [reflexivity|]. split; [constructor|].
          intros u. split; [easy|]. intros H. exfalso. apply M. now destruct (W2 u n H).
      + intros v Hv. apply in_app_iff in Hv as [Hv|[<-|[]]].
        * rewrite sget_other by congruence. auto.
        * rewrite sget_same. exists []. split; [reflexivity|]. split; [constructor|].
          intros u. split; [easy|]. intros H. exfalso. apply M. now destruct (W2 n u H).
      + exact W6.
      + intros m. rewrite in_app_iff. cbn. destruct (String.eqb_spec m n) as [->|Ne].
        * rewrite sget_same. split; eauto.
        * rewrite sget_other by exact Ne. rewrite <- W7. intuition congruence.
  Qed.

  Lemma add_edge_spec g u v :
    wfg g -> exists g', add_edge g u v = (g', Ok tt) /\ wfg g' /\
      (forall x y, In (x, y) (g_edges g') <-> In (x, y) (g_edges g) \/ (x, y) = (u, v)) /\
      (forall m, In m (g_nodes g') <-> In m (g_nodes g) \/ m = u \/ m = v) /\
      (forall x y, eget (x, y) (g_eattr g') =
         if edge_eqb (x, y) (u, v) then match eget (u, v) (g_eattr g) with Some d => Some d | None => Some [] end
         else eget (x, y) (g_eattr g)) /\
      g_dist g' = g_dist g.
  Proof.
    intros W. unfold add_edge.
    destruct (add_node_spec g u W) as (W1 & E1 & N1 & A1 & D1).
    destruct (add_node_spec (add_node g u) v W1) as (W2 & E2 & N2 & A2 & D2).
    set (h := add_node (add_node g u) v) in *.
    assert (forall m, In m (g_nodes h) <-> In m (g_nodes g) \/ m = u \/ m = v) as HN.
    { intros m. rewrite N2, N1. tauto. }
    assert (g_edges h = g_edges g) as HE by congruence.
    assert (g_eattr h = g_eattr g) as HA by congruence.
    assert (g_dist h = g_dist g) as HD by congruence.
    clearbody h. clear N1 N2 E1 E2 A1 A2 D1 D2 W1.
    destruct (edge_mem (u, v) (g_edges h)) eqn:M.
    - apply edge_mem_In in M. exists h. split; [reflexivity|]. split; [exact W2|].
      split; [|split; [exact HN|split; [|exact HD]]].
      + intros x y. rewrite <- HE. split; [auto|]. intros [H|H]; [exact H|congruence].
      + intros x y. rewrite <- HA. destruct (edge_eqb (x, y) (u, v)) eqn:E; [|reflexivity].
        apply edge_eqb_spec in E. rewrite E.
        apply (wf_eattr h W2) in M as [d ->]. reflexivity.
    - assert (~ In (u, v) (g_edges h)) as M' by (rewrite <- edge_mem_In, M; discriminate). clear M.
      destruct W2 as [V1 V2 V3 V4 V5 V6 V7].
      destruct (V5 u) as (ss & Ss & Sn & Si); [apply HN; auto|].
      destruct (V4 v) as (ps & Ps & Pn & Pi); [apply HN; auto|].
      unfold set_add. rewrite Ss, Ps.
      assert (memS v ss = false) as -> by (apply memS_false; now rewrite Si).
      assert (memS u ps = false) as -> by (apply memS_false; now rewrite Pi).
      eexists. split; [reflexivity|]. split; [|cbn; split; [|split; [exact HN|split; [|exact HD]]]].
      + constructor; cbn.
        * exact V1.
        * intros x y. rewrite in_app_iff. intros [H|[H|[]]]; [exact (V2 _ _ H)|].
          injection H as <- <-. split; apply HN; auto.
        * apply (Permutation_NoDup (Permutation_cons_append _ _)). now constructor.
        * intros y Hy. destruct (String.eqb_spec y v) as [->|Ne].
          -- rewrite sget_same. eexists. split; [reflexivity|]. split.
             ++ apply (Permutation_NoDup (Permutation_cons_append _ _)). constructor; [now rewrite Pi|exact Pn].
             ++ intros x. rewrite !in_app_iff, Pi. cbn. intuition congruence.
          -- rewrite sget_other by exact Ne. destruct (V4 y Hy) as (q & Q1 & Q2 & Q3).
             exists q. split; [exact Q1|]. split; [exact Q2|]. intros x. rewrite Q3, in_app_iff. cbn. intuition congruence.
        * intros y Hy. destruct (String.eqb_spec y u) as [->|Ne].
          -- rewrite sget_same. eexists. split; [reflexivity|]. split.
             ++ apply (Permutation_NoDup (Permutation_cons_append _ _)). constructor; [now rewrite Si|exact Sn].
             ++ intros x. rewrite !in_app_iff, Si. cbn. intuition congruence.
          -- rewrite sget_other by exact Ne. destruct (V5 y Hy) as (q & Q1 & Q2 & Q3).
             exists q. split; [exact Q1|]. split; [exact Q2|]. intros x. rewrite Q3, in_app_iff. cbn. intuition congruence.
        * intros x y. rewrite in_app_iff. cbn. destruct (edge_eqb (x, y) (u, v)) eqn:E.
          -- apply edge_eqb_spec in E. rewrite E, (aget_aset_same edge_eqb edge_eqb_spec). split; eauto.
          -- assert ((x, y) <> (u, v)) as Ne by (intros H; apply edge_eqb_spec in H; congruence).
             rewrite (aget_aset_other edge_eqb edge_eqb_spec) by congruence. rewrite <- V6. intuition congruence.
        * exact V7.
      + intros x y. rewrite in_app_iff, HE. cbn. intuition congruence.
      + intros x y. destruct (edge_eqb (x, y) (u, v)) eqn:E.
        * apply edge_eqb_spec in E. rewrite E, (aget_aset_same edge_eqb edge_eqb_spec).
          destruct (eget (u, v) (g_eattr g)) as [d|] eqn:G; [|reflexivity].
          exfalso. apply M', V6. rewrite HA. eauto.
        * assert ((x, y) <> (u, v)) as Ne by (intros H; apply edge_eqb_spec in H; congruence).
          rewrite (aget_aset_other edge_eqb edge_eqb_spec) by congruence. now rewrite HA.
  Qed.

  Lemma update_edge_wf pos g u v at_ :
    wfg g -> wfg (fst (update_edge_attributes pos g u v at_)).
  Proof.
    intros W. unfold update_edge_attributes. destruct (match sget _ _ with Some _ => _ | None => _ end); [exact W|].
    destruct (eget (u, v) (g_eattr g)) as [d|] eqn:G; [|exact W]. cbn.
    destruct W as [V1 V2 V3 V4 V5 V6 V7]. constructor; cbn; try assumption.
    intros x y. destruct (edge_eqb (x, y) (u, v)) eqn:E.
    - apply edge_eqb_spec in E. rewrite E, (aget_aset_same edge_eqb edge_eqb_spec), V6, G. split; eauto.
    - assert ((x, y) <> (u, v)) as Ne by (intros H; apply edge_eqb_spec in H; congruence).
      rewrite (aget_aset_other edge_eqb edge_eqb_spec) by congruence. apply V6.
  Qed.

  Lemma update_node_wf g n at_ : wfg g -> wfg (fst (update_node_attributes g n at_)).
  Proof.
    intros W. unfold update_node_attributes. destruct (sget n (g_nattr g)) as [d|] eqn:G; [|exact W]. cbn.
    destruct W as [V1 V2 V3 V4 V5 V6 V7]. constructor; cbn; try assumption.
    intros m. destruct (String.eqb_spec m n) as [->|Ne].
    - rewrite sget_same, V7, G. split; eauto.
    - rewrite sget_other by exact Ne. apply V7.
  Qed.

  Lemma step_wf pos g o : wfg g -> wfg (gstep pos g o).
  Proof.
    intros W. destruct o; cbn [gstep].
    - destruct (add_edge_spec g u v W) as (g' & E & W' & _). rewrite E. exact W'.
    - now apply update_node_wf.
    - now apply update_edge_wf.
    - destruct W as [V1 V2 V3 V4 V5 V6 V7]. constructor; cbn; assumption.
  Qed.

  Lemma run_wf pos h : wfg (grun pos h).
  Proof.
    unfold grun. generalize (@graph_new A) new_wf. induction h as [|o h IH]; intros g W; cbn; [exact W|].
    apply IH, step_wf, W.
  Qed.
End Wf.

(** ** The search loop *)
Section Search.
  Context {A : Type} {N : num}.
  Variable it : nat -> list string -> list string.
  Variable wf : A -> res N.
  Variable better : ext N -> ext N -> bool.
  Variable extend : ext N -> N -> ext N.
  Variable top bot : ext N.
  Variable g : graph A.
  Variable attr target : string.
  Notation valid w := (nltb N w (nzero N) = false).
  (** [a] is at least as good as [b] *)
  Notation leq a b := (better b a = false).

  Hypothesis Hit : permuting it.
  Hypothesis Hrefl : forall a, leq a a.
  Hypothesis Hasym : forall a b, better a b = true -> leq a b.
  Hypothesis Htrans : forall a b c, leq a b -> leq b c -> leq a c.
  Hypothesis Hmono : forall a b w, valid w -> leq a b -> leq (extend a w) (extend b w).
  Hypothesis Hworse : forall a w, valid w -> leq a (extend a w).
  Hypothesis Htop : leq top bot.
  Hypothesis W : wfg g.
  Hypothesis Hw : weighted g wf attr.

  Notation arc := (arc g wf attr).
  Notation v := (val_of bot).
  Notation st := (@dstate N).

  Definition succ_of (s : st) (n : string) : option (option string) := sget n (d_succ s).

  Definition keyed (s : st) : Prop :=
    forall n, In n (g_nodes g) -> (exists x, sget n (d_val s) = Some x) /\ (exists o, succ_of s n = Some o).

  Lemma arc_fun x y w w' : arc x y w -> arc x y w' -> w = w'.
  Proof. intros (_ & a & H1 & H2) (_ & b & H3 & H4). congruence. Qed.

  Lemma arc_valid x y w : arc x y w -> valid w.
  Proof using Hw. intros Ha. destruct (Hw x y) as (w' & H & V); [apply Ha|]. now rewrite (arc_fun _ _ _ _ Ha H). Qed.

  Lemma relax_spec n ps : forall (s : st),
    In n (g_nodes g) -> ~ In n (d_unrelaxed s) -> incl (d_unrelaxed s) (g_nodes g) -> keyed s ->
    (forall p, In p ps -> In (p, n) (g_edges g)) ->
    exists s', relax wf better extend g attr n ps s = Ok s' /\
      d_unrelaxed s' = d_unrelaxed s /\ keyed s' /\
      akeys (d_val s') = akeys (d_val s) /\
      (forall q, leq (v s' q) (v s q)) /\
      (forall q w, In q ps -> In q (d_unrelaxed s) -> arc q n w -> leq (v s' q) (extend (v s n) w)) /\
      (forall q, (v s' q = v s q /\ succ_of s' q = succ_of s q) \/
                 (exists w, arc q n w /\ v s' q = extend (v s n) w /\ succ_of s' q = Some (Some n) /\
                            In q (d_unrelaxed s) /\ better (v s' q) (v s q) = true)).
  Proof using Hasym Hrefl Htrans Hw.
    induction ps as [|p ps IH]; intros s Hn Hnu Hu Hk Hps; cbn [relax].
    - exists s. split; [reflexivity|]. split; [reflexivity|]. split; [exact Hk|]. split; [reflexivity|].
      split; [auto|]. split; [easy|]. auto.
    - destruct (memS p (d_unrelaxed s)) eqn:M.
      + apply memS_In in M.
        destruct (Hw p n) as (w & Ha & Vw); [apply Hps; now left|].
        pose proof Ha as (_ & a & -> & Ew). cbn [bind]. rewrite Ew. cbn [bind]. rewrite Vw. cbn [bind raise_if].
        destruct (Hk n Hn) as [[x Ex] _]. destruct (Hk p (Hu p M)) as [[y Ey] _].
        rewrite Ex, Ey.
        assert (v s n = x) as Vn by (unfold val_of; now rewrite Ex).
        assert (v s p = y) as Vp by (unfold val_of; now rewrite Ey).
        assert (n <> p) as Np by congruence.
        destruct (better (extend x w) y) eqn:B.
        * set (s1 := MkD _ _ _).
          assert (forall q, v s1 q = if String.eqb q p then extend x w else v s q) as V1.
          { intros q. unfold val_of. cbn. destruct (String.eqb_spec q p) as [->|Ne].
            - now rewrite sget_same.
            - now rewrite sget_other by exact Ne. }
          assert (forall q, succ_of s1 q = if String.eqb q p then Some (Some n) else succ_of s q) as S1.
          { intros q. unfold succ_of. cbn. destruct (String.eqb_spec q p) as [->|Ne].
            - now rewrite sget_same.
            - now rewrite sget_other by exact Ne. }
          destruct (IH s1 Hn Hnu Hu) as (s' & E & U' & K' & A' & L' & P' & D').
          { intros q Hq. destruct (Hk q Hq) as [[z Ez] [o Eo]]. split.
            - cbn. destruct (String.eqb_spec q p) as [->|Ne]; [rewrite sget_same|rewrite sget_other by exact Ne]; eauto.
            - rewrite S1. destruct (String.eqb q p); eauto. }
          { intros q Hq. apply Hps. now right. }
          assert (v s1 n = x) as V1n.
          { rewrite V1. apply String.eqb_neq in Np. now rewrite Np. }
          exists s'. split; [exact E|]. split; [exact U'|]. split; [exact K'|]. split.
          { rewrite A'. cbn. apply (akeys_aset_in String.eqb Seqb_spec). apply (aget_In _ Seqb_spec) in Ey.
            now apply (in_map fst) in Ey. }
          split; [|split].
          -- intros q. apply (Htrans _ (v s1 q)); [apply L'|]. rewrite V1.
             destruct (String.eqb_spec q p) as [->|_]; [|apply Hrefl]. rewrite Vp. apply Hasym, B.
          -- intros q w' [<-|Hq] Hqu Haq.
             ++ rewrite (arc_fun _ _ _ _ Haq Ha). apply (Htrans _ (v s1 p)); [apply L'|].
                rewrite V1, String.eqb_refl, Vn. apply Hrefl.
             ++ rewrite Vn, <- V1n. now apply P'.
          -- intros q. destruct (D' q) as [[D1 D2]|(w' & F1 & F2 & F3 & F4 & F5)].
             ++ rewrite D1, D2, V1, S1. destruct (String.eqb_spec q p) as [->|Ne]; [|auto].
                right. exists w. rewrite Vn, Vp. auto.
             ++ right. exists w'. rewrite Vn, <- V1n.
                split; [exact F1|]. split; [exact F2|]. split; [exact F3|]. split; [exact F4|].
                rewrite V1 in F5. destruct (String.eqb_spec q p) as [->|Ne]; [|exact F5].
                destruct (better (v s' p) (v s p)) eqn:G; [reflexivity|].
                (* v s' p is strictly better than extend x w, which is better than y *)
                exfalso. assert (better (v s' p) (extend x w) = false) as C; [|congruence].
                apply (Htrans _ (v s p)); [rewrite Vp; apply Hasym, B|exact G].
        * destruct (IH s Hn Hnu Hu Hk) as (s' & E & U' & K' & A' & L' & P' & D').
          { intros q Hq. apply Hps. now right. }
          exists s'. split; [exact E|]. split; [exact U'|]. split; [exact K'|]. split; [exact A'|]. split; [exact L'|]. split; [|exact D'].
          intros q w' [<-|Hq] Hqu Haq; [|now apply P'].
          rewrite (arc_fun _ _ _ _ Haq Ha). apply (Htrans _ (v s p)); [apply L'|]. rewrite Vn, Vp. exact B.
      + apply memS_false in M. destruct (IH s Hn Hnu Hu Hk) as (s' & E & U' & K' & A' & L' & P' & D').
        { intros q Hq. apply Hps. now right. }
        exists s'. split; [exact E|]. split; [exact U'|]. split; [exact K'|]. split; [exact A'|]. split; [exact L'|]. split; [|exact D'].
        intros q w' [<-|Hq] Hqu Haq; [contradiction|now apply P'].
  Qed.

  (** [m] was relaxed before [n] (the most recent node comes first). *)
  Definition earlier (D : list string) (m n : string) : Prop :=
    exists D1 D2, D = D1 ++ n :: D2 /\ In m D2.

  Record inv (s : st) (D : list string) : Prop := MkInv {
    i_perm : Permutation (D ++ d_unrelaxed s) (g_nodes g);
    i_keyed : keyed s;
    i_keys : akeys (d_val s) = g_nodes g;
    i_ord : forall m u, In m D -> In u (d_unrelaxed s) -> leq (v s m) (v s u);
    i_arcs : forall m u w, In m D -> arc u m w -> leq (v s u) (extend (v s m) w);
    i_target : In target (g_nodes g) -> v s target = top;
    i_top : forall n, leq top (v s n);
    i_bot : forall n, leq (v s n) bot;
    i_succ : forall n, In n (g_nodes g) -> n <> target ->
      (v s n = bot /\ succ_of s n = Some None) \/
      (exists m w, succ_of s n = Some (Some m) /\ In m D /\ arc n m w /\ v s n = extend (v s m) w /\
        (m = target \/ exists m', succ_of s m = Some (Some m')) /\ (In n D -> earlier D m n))
  }.

  Lemma pick_spec k s n :
    pick it better bot k s = Some n ->
    In n (d_unrelaxed s) /\ forall u, In u (d_unrelaxed s) -> leq (v s n) (v s u).
  Proof using Hasym Hit Htrans.
    unfold pick. set (leb := fun x y => _). intros H.
    assert (sorted leb (isort leb (it k (d_unrelaxed s)))) as S.
    { apply isort_sorted.
      - intros a b. unfold leb. destruct (better (v s b) (v s a)) eqn:E; [|now left]. right.
        now rewrite (Hasym _ _ E).
      - intros a b c. unfold leb. rewrite !negb_true_iff. intros H1 H2. exact (Htrans _ _ _ H1 H2). }
    assert (forall x, In x (isort leb (it k (d_unrelaxed s))) <-> In x (d_unrelaxed s)) as I.
    { intros x. rewrite isort_In. split; apply Permutation_in; [|symmetry]; apply Hit. }
    destruct (isort leb _) as [|y l]; [discriminate|]. injection H as ->.
    split; [apply I; now left|]. intros u Hu. apply I in Hu.
    unfold sorted in S. inversion S as [|? ? _ F]; subst. destruct Hu as [->|Hu].
    - destruct (better (v s u) (v s u)) eqn:E; [|reflexivity]. pose proof (Hasym _ _ E). congruence.
    - rewrite Forall_forall in F. specialize (F u Hu). unfold leb in F. now apply negb_true_iff in F.
  Qed.

  Lemma pick_none k s : pick it better bot k s = None -> d_unrelaxed s = [].
  Proof using Hit.
    unfold pick. set (leb := fun x y => _). intros H. apply Permutation_nil. symmetry.
    transitivity (it k (d_unrelaxed s)); [symmetry; apply Hit|].
    transitivity (isort leb (it k (d_unrelaxed s))); [apply isort_perm|].
    destruct (isort _ _); [constructor|discriminate].
  Qed.

  Lemma earlier_cons D m n x : earlier D m n -> earlier (x :: D) m n.
  Proof. intros (D1 & D2 & -> & H). exists (x :: D1), D2. auto. Qed.

  Lemma filter_perm n U : NoDup U -> In n U ->
    Permutation (n :: filter (fun m => negb (String.eqb m n)) U) U.
  Proof.
    intros Hn Hi. induction U as [|x U IH]; [easy|]. cbn [filter]. inversion Hn as [|? ? Hx HU]; subst.
    destruct Hi as [->|Hi].
    - rewrite String.eqb_refl. cbn. constructor.
      assert (filter (fun m => negb (String.eqb m n)) U = U) as ->; [|reflexivity].
      clear - Hx. induction U as [|y U IH]; [reflexivity|]. cbn. destruct (String.eqb_spec y n) as [->|Ne].
      + exfalso. apply Hx. now left.
      + cbn. rewrite IH; [reflexivity|]. intros H. apply Hx. now right.
    - destruct (String.eqb_spec x n) as [->|Ne]; [contradiction|]. cbn.
      rewrite perm_swap. constructor. now apply IH.
  Qed.

  Lemma dijkstra_spec k : forall s D,
    inv s D -> List.length (d_unrelaxed s) = k ->
    exists s' D', dijkstra it wf better extend bot k g attr s = Ok s' /\ inv s' D' /\ d_unrelaxed s' = [].
  Proof using Hasym Hit Hrefl Htop Htrans Hw W Hworse.
    induction k as [|k IH]; intros s D I Hl.
    - exists s, D. split; [reflexivity|]. split; [exact I|]. now destruct (d_unrelaxed s).
    - cbn [dijkstra]. destruct (pick _ _ _ _ s) as [n|] eqn:P.
      2: { apply pick_none in P. rewrite P in Hl. discriminate. }
      apply pick_spec in P as [Pn Pb]. destruct I as [I1 I2 I2' I3 I4 I5 IT I6 I7].
      assert (NoDup (D ++ d_unrelaxed s)) as ND.
      { apply (Permutation_NoDup (Permutation_sym I1)), (wf_nodup g W). }
      assert (NoDup (d_unrelaxed s)) as NU by (clear - ND; induction D; [exact ND|inversion ND; auto]).
      pose proof (filter_perm n _ NU Pn) as FP.
      set (U := filter _ _) in *.
      assert (In n (g_nodes g)) as Hn.
      { apply (Permutation_in n I1), in_or_app. now right. }
      destruct (wf_pred g W n Hn) as (ps & Ep & _ & Hps). rewrite Ep.
      set (s0 := MkD (d_val s) (d_succ s) U).
      assert (~ In n U) as HnU.
      { intros H. apply (Permutation_NoDup (Permutation_sym FP)) in NU. now inversion NU. }
      assert (~ In n D) as HnD.
      { intros H. apply in_split in Pn as (l1 & l2 & E). rewrite E in ND.
        rewrite app_assoc in ND. apply NoDup_remove_2 in ND. apply ND. apply in_or_app. left. apply in_or_app. auto. }
      assert (forall u, In u U -> In u (d_unrelaxed s) /\ u <> n) as HU.
      { intros u H. split; [apply (Permutation_in u FP); now right|]. intros ->. contradiction. }
      destruct (relax_spec n (it (2 * S k + 1)%nat ps) s0 Hn HnU) as (s' & E & U' & K' & A' & L' & P' & D').
      { intros u H. apply HU in H as [H _]. apply (Permutation_in u I1), in_or_app. now right. }
      { exact I2. }
      { intros p Hp. apply Hps. revert Hp. apply Permutation_in, Hit. }
      rewrite E. cbn [bind].
      assert (forall q, v s0 q = v s q) as V0 by reflexivity.
      assert (forall q, ~ In q U -> v s' q = v s q /\ succ_of s' q = succ_of s q) as Frozen.
      { intros q Hq. destruct (D' q) as [H|(w & _ & _ & _ & H & _)]; [exact H|contradiction]. }
      assert (forall m, In m D -> ~ In m U) as HDU.
      { intros m Hm Hu. apply HU in Hu as [Hu _]. apply in_split in Hu as (l1 & l2 & E').
        rewrite E' in ND. rewrite app_assoc in ND. apply NoDup_remove_2 in ND. apply ND. apply in_or_app. left. apply in_or_app. auto. }
      apply (IH s' (n :: D)).
      2: { rewrite U'. cbn. apply Permutation_length in FP. cbn in FP. lia. }
      constructor.
      + rewrite U'. cbn [d_unrelaxed s0]. rewrite <- I1, <- FP. cbn. apply Permutation_middle.
      + exact K'.
      + rewrite A'. exact I2'.
      + (* order *)
        rewrite U'. cbn [d_unrelaxed s0]. intros m u Hm Hu.
        assert (leq (v s m) (v s n)) as Hmn.
        { destruct Hm as [->|Hm]; [apply Hrefl|apply I3; assumption]. }
        assert (v s' m = v s m) as ->.
        { apply Frozen. destruct Hm as [<-|Hm]; auto. }
        destruct (D' u) as [[-> _]|(w & Ha & -> & _)].
        * rewrite V0. destruct Hm as [<-|Hm]; [apply Pb|apply I3; auto]; now apply HU.
        * rewrite V0. apply (Htrans _ (v s n)); [exact Hmn|]. apply Hworse. exact (arc_valid _ _ _ Ha).
      + (* arcs *)
        intros m u w [<-|Hm] Ha.
        * destruct (Frozen n HnU) as [Vn _]. rewrite Vn.
          destruct (in_dec string_dec u U) as [Hu|Hu].
          -- rewrite <- (V0 n). apply P'; [|exact Hu|exact Ha].
             apply (Permutation_in u (Permutation_sym (Hit _ _))), Hps, Ha.
          -- destruct (Frozen u Hu) as [-> _].
             assert (leq (v s u) (v s n)) as Hun.
             { assert (In u (D ++ d_unrelaxed s)) as H.
               { apply (Permutation_in u (Permutation_sym I1)), (wf_edges g W u n), Ha. }
               apply in_app_or in H as [H|H]; [now apply I3|].
               apply (Permutation_in u (Permutation_sym FP)) in H as [->|H]; [apply Hrefl|contradiction]. }
             apply (Htrans _ (v s n)); [exact Hun|]. apply Hworse. exact (arc_valid _ _ _ Ha).
        * destruct (Frozen m (HDU m Hm)) as [-> _].
          apply (Htrans _ (v s u)); [rewrite <- V0; apply L'|]. now apply I4.
      + intros Ht. destruct (D' target) as [[-> _]|(w & Ha & E' & _ & _ & B)]; [now apply I5|].
        exfalso. rewrite V0, (I5 Ht), E', V0 in B.
        assert (better (extend (v s n) w) top = false) as C; [|congruence].
        apply (Htrans _ (v s n)); [apply IT|]. apply Hworse. exact (arc_valid _ _ _ Ha).
      + intros q. destruct (D' q) as [[-> _]|(w & Ha & -> & _)]; rewrite V0; [apply IT|].
        apply (Htrans _ (v s n)); [apply IT|]. apply Hworse. exact (arc_valid _ _ _ Ha).
      + intros q. apply (Htrans _ (v s q)); [rewrite <- V0; apply L'|apply I6].
      + (* successors *)
        intros q Hq Hqt.
        destruct (D' q) as [[E1 E2]|(w & Ha & E1 & E2 & Hu & B)].
        * change (succ_of s0 q) with (succ_of s q) in E2. rewrite E1, E2, V0.
          destruct (I7 q Hq Hqt) as [H|(m & w & S1 & S2 & S3 & S4 & S5 & S6)]; [auto|]. right.
          exists m, w. destruct (Frozen m (HDU m S2)) as [F1 F2].
          split; [exact S1|]. split; [now right|]. split; [exact S3|]. split; [now rewrite F1|].
          split; [now rewrite F2|]. intros [<-|H].
          -- exists [], D. auto.
          -- apply earlier_cons. auto.
        * right. exists n, w. destruct (Frozen n HnU) as [F1 F2]. split; [exact E2|]. split; [now left|].
          split; [exact Ha|]. split; [now rewrite F1, <- V0|]. split.
          -- destruct (string_dec n target) as [->|Nt]; [now left|]. right. rewrite F2.
             destruct (I7 n Hn Nt) as [[Hb _]|(m & w' & S1 & _)]; [|eauto].
             exfalso. rewrite E1, V0, Hb, V0 in B.
             assert (better (extend bot w) (v s q) = false) as C; [|congruence].
             apply (Htrans _ bot); [apply I6|]. apply Hworse. exact (arc_valid _ _ _ Ha).
          -- intros [<-|H]; [contradiction|]. exfalso. exact (HDU q H Hu).
  Qed.

  Definition value (ws : list N) : ext N := fold_right (fun w x => extend x w) top ws.
  Notation walk := (walk g wf attr target).

  Lemma init_inv :
    inv (MkD (map (fun n => (n, if String.eqb n target then top else bot)) (g_nodes g))
             (map (fun n => (n, None)) (g_nodes g)) (g_nodes g)) [].
  Proof using Hrefl Htop.
    set (s0 := MkD _ _ _).
    assert (forall n, v s0 n = top \/ v s0 n = bot) as V.
    { intros n. unfold val_of, s0. cbn. destruct (sget n _) eqn:E; [|auto]. apply (aget_In _ Seqb_spec) in E.
      apply in_map_iff in E as (m & E & _). injection E as _ <-. destruct (String.eqb m target); auto. }
    constructor; try (intros; contradiction).
    - reflexivity.
    - intros n Hn. unfold succ_of, s0. cbn. rewrite !sget_map by exact Hn. eauto.
    - unfold akeys, s0. cbn. rewrite map_map. cbn. apply map_id.
    - intros Ht. unfold val_of, s0. cbn. rewrite sget_map by exact Ht. now rewrite String.eqb_refl.
    - intros n. destruct (V n) as [->| ->]; auto.
    - intros n. destruct (V n) as [->| ->]; auto.
    - intros n Hn Nt. left. unfold val_of, succ_of, s0. cbn. rewrite !sget_map by exact Hn.
      apply String.eqb_neq in Nt. now rewrite Nt.
  Qed.

  Lemma walk_node n p ws : In target (g_nodes g) -> walk n p ws -> In n (g_nodes g).
  Proof using W. intros Ht H. destruct H as [|u x w p ws Ha _]; [exact Ht|]. apply (wf_edges g W u x), Ha. Qed.

  Lemma walk_target n p ws : walk n p ws -> In n (g_nodes g) -> In target (g_nodes g).
  Proof using W.
    intros H. induction H as [|u x w p ws Ha _ IH]; [auto|]. intros _. apply IH. apply (wf_edges g W u x), Ha.
  Qed.

  Lemma optimal s D : inv s D -> d_unrelaxed s = [] ->
    forall n p ws, In n (g_nodes g) -> walk n p ws -> leq (v s n) (value ws).
  Proof using Hmono Hrefl Htrans Hw W.
    intros I HU n p ws Hn Hwk. pose proof (walk_target _ _ _ Hwk Hn) as Ht. revert Hn.
    induction Hwk as [|u x w p ws Ha Hwk IH]; intros Hn.
    - cbn. rewrite (i_target s D I Ht). apply Hrefl.
    - cbn. assert (In x (g_nodes g)) as Hx by (apply (wf_edges g W u x), Ha).
      apply (Htrans _ (extend (v s x) w)).
      + apply (i_arcs s D I); [|exact Ha].
        pose proof (i_perm s D I) as P. rewrite HU, app_nil_r in P. apply (Permutation_in x (Permutation_sym P)), Hx.
      + apply Hmono; [exact (arc_valid _ _ _ Ha)|]. now apply IH.
  Qed.

  (** The path reported for a node. *)
  Lemma follow_spec s D : inv s D -> d_unrelaxed s = [] ->
    forall k D1 n D2, D = D1 ++ n :: D2 -> (List.length D2 <= k)%nat ->
    (n = target \/ exists m, succ_of s n = Some (Some m)) ->
    exists p ws, follow k target (d_succ s) n = Ok (map Some p) /\ walk n p ws /\ value ws = v s n /\
      NoDup p /\ forall x, In x p -> x = n \/ In x D2.
  Proof using W Htop.
    intros I HU. pose proof (i_perm s D I) as P. rewrite HU, app_nil_r in P.
    assert (NoDup D) as ND by (apply (Permutation_NoDup (Permutation_sym P)), (wf_nodup g W)).
    induction k as [|k IH]; intros D1 n D2 ED Hk Hn;
      assert (In n (g_nodes g)) as Hng by (apply (Permutation_in n P); rewrite ED; apply in_or_app; right; now left);
      (destruct (String.eqb n target) eqn:Et;
       [apply String.eqb_eq in Et; subst n; exists [target], []; cbn [follow]; rewrite String.eqb_refl;
        split; [reflexivity|]; split; [constructor|]; split; [cbn; symmetry; exact (i_target s D I Hng)|];
        split; [constructor; [easy|constructor]|intros x [<-|[]]; auto]|];
       pose proof Et as Et'; apply String.eqb_neq in Et';
       destruct Hn as [->|[m Hm]]; [contradiction|];
       destruct (i_succ s D I n Hng Et') as [[_ H]|(m' & w & S1 & S2 & S3 & S4 & S5 & S6)]; [congruence|];
       rewrite Hm in S1; injection S1 as <-;
       destruct S6 as (D1' & D2' & E' & Hm2); [rewrite ED; apply in_or_app; right; now left|];
       assert (D2' = D2) as -> by
         (rewrite ED in E', ND; clear - E' ND; revert D1' E';
          induction D1 as [|a D1 IH']; intros [|b D1'] E; cbn in E;
          [injection E as <-; reflexivity
          |injection E as <- ->; inversion ND; subst; exfalso; match goal with H : ~ In n _ |- _ => apply H end; apply in_or_app; right; now left
          |injection E as -> <-; inversion ND; subst; exfalso; match goal with H : ~ In n _ |- _ => apply H end; apply in_or_app; right; now left
          |injection E as <- E; inversion ND; subst; eapply IH'; eassumption])).
    - destruct D2; [easy|cbn in Hk; lia].
    - apply in_split in Hm2 as (l1 & l2 & E2).
      destruct (IH (D1 ++ n :: l1) m l2) as (p & ws & F & Hwk & Hv & Np & Hin).
      + rewrite ED, E2, <- app_assoc. reflexivity.
      + rewrite E2, app_length in Hk. cbn in Hk. lia.
      + destruct S5 as [->|[m' Hm']]; eauto.
      + exists (n :: p), (w :: ws). cbn [follow]. rewrite Et. unfold succ_of in Hm. rewrite Hm, F. cbn [bind].
        split; [reflexivity|]. split; [econstructor; eassumption|]. split; [change (value (w :: ws)) with (extend (value ws) w); now rewrite Hv|].
        assert (forall x, In x p -> In x D2) as Hp.
        { intros x Hx. rewrite E2. apply in_or_app. right. destruct (Hin x Hx) as [->|H]; [now left|now right]. }
        split.
        * constructor; [|exact Np]. intros H. apply Hp in H. rewrite ED in ND. apply NoDup_remove_2 in ND.
          apply ND. apply in_or_app. now right.
        * intros x [<-|Hx]; auto.
  Qed.

  Lemma search_spec :
    g_dist g = true ->
    exists ps vs, search it wf better extend top bot g attr target = Ok (ps, vs) /\
      akeys ps = g_nodes g /\ akeys vs = g_nodes g /\
      forall n, In n (g_nodes g) ->
        exists p x, sget n ps = Some p /\ sget n vs = Some x /\
          (forall q ws, walk n q ws -> leq x (value ws)) /\
          ((n <> target /\ x = bot /\ p = [Some n; None]) \/
           (exists q ws, p = map Some q /\ walk n q ws /\ x = value ws /\ NoDup q)).
  Proof using Hasym Hit Hmono Hrefl Htop Htrans Hw Hworse W.
    intros Hd. unfold search. rewrite Hd. cbn [negb raise_if bind].
    destruct (dijkstra_spec _ _ [] init_inv eq_refl) as (s & D & E & I & HU). cbn [d_unrelaxed] in E. rewrite E. cbn [bind].
    pose proof (i_perm s D I) as P. rewrite HU, app_nil_r in P.
    assert (forall n, In n (g_nodes g) -> exists p, follow (List.length (g_nodes g)) target (d_succ s) n = Ok p /\
      ((n <> target /\ v s n = bot /\ p = [Some n; None]) \/
       (exists q ws, p = map Some q /\ walk n q ws /\ v s n = value ws /\ NoDup q))) as F.
    { intros n Hn. destruct (string_dec n target) as [->|Nt].
      - assert (In target D) as HD by (apply (Permutation_in target (Permutation_sym P)), Hn).
        apply in_split in HD as (D1 & D2 & ED).
        destruct (follow_spec s D I HU (List.length (g_nodes g)) D1 target D2 ED) as (p & ws & F1 & F2 & F3 & F4 & _).
        + apply Permutation_length in P. rewrite ED, app_length in P. cbn in P. lia.
        + now left.
        + exists (map Some p). split; [exact F1|]. right. exists p, ws. auto.
      - destruct (i_succ s D I n Hn Nt) as [[Hb Hs]|(m & w & Hs & _)].
        + exists [Some n; None]. split; [|auto].
          destruct (List.length (g_nodes g)); cbn [follow]; apply String.eqb_neq in Nt; rewrite Nt;
            unfold succ_of in Hs; now rewrite Hs.
        + assert (In n D) as HD by (apply (Permutation_in n (Permutation_sym P)), Hn).
          apply in_split in HD as (D1 & D2 & ED).
          destruct (follow_spec s D I HU (List.length (g_nodes g)) D1 n D2 ED) as (p & ws & F1 & F2 & F3 & F4 & _).
          * apply Permutation_length in P. rewrite ED, app_length in P. cbn in P. lia.
          * eauto.
          * exists (map Some p). split; [exact F1|]. right. exists p, ws. auto. }
    set (f := fun n => let* p := follow _ _ _ n in Ok (n, p)).
    pose (pth := fun n => match follow (List.length (g_nodes g)) target (d_succ s) n with Ok p => p | Err _ => [] end).
    assert (mapM f (g_nodes g) = Ok (map (fun n => (n, pth n)) (g_nodes g))) as ->.
    { apply mapM_total. intros n Hn. unfold f, pth. destruct (F n Hn) as (p & -> & _). reflexivity. }
    cbn [bind]. do 2 eexists. split; [reflexivity|]. split.
    { unfold akeys. rewrite map_map. cbn. apply map_id. }
    split; [exact (i_keys s D I)|].
    intros n Hn. destruct (F n Hn) as (p & Ep & Hp). destruct (i_keyed s D I n Hn) as [[x Ex] _].
    assert (v s n = x) as Vx by (unfold val_of; now rewrite Ex).
    exists p, x. split; [|split; [exact Ex|split]].
    - assert (pth n = p) as <- by (unfold pth; now rewrite Ep).
      now apply sget_map.
    - intros q ws Hq. rewrite <- Vx. exact (optimal s D I HU n q ws Hn Hq).
    - rewrite <- Vx. exact Hp.
  Qed.
End Search.
