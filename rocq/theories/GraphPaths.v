(** Widest and shortest paths; rational and real numbers. *)
From Coq Require Import Permutation Reals Lra Qreals.
From Coq Require RMicromega.
From Verif Require Import Base BaseLemmas SortLemmas Graph GraphSpec GraphProofs.

Section Paths.
  Context {A : Type} {N : num}.
  Variable OK : num_ok N.

  Lemma xlt_asym (a b : ext N) : xltb a b = true -> xltb b a = false.
  Proof using OK. destruct a, b; cbn; try easy. apply (lt_asym N OK). Qed.
  Lemma xlt_irrefl (a : ext N) : xltb a a = false.
  Proof using OK. destruct (xltb a a) eqn:E; [|reflexivity]. pose proof (xlt_asym _ _ E). congruence. Qed.
  Lemma xlt_negtrans (a b c : ext N) : xltb a b = false -> xltb b c = false -> xltb a c = false.
  Proof using OK. destruct a, b, c; cbn; try easy. apply (lt_negtrans N OK). Qed.

  Lemma xadd_mono (a b : ext N) w : xltb b a = false -> xltb (xadd b (Num w)) (xadd a (Num w)) = false.
  Proof using OK. destruct a, b; cbn; try easy. apply (add_mono N OK). Qed.
  Lemma xadd_worse (a : ext N) w : nltb N w (nzero N) = false -> xltb (xadd a (Num w)) a = false.
  Proof using OK. destruct a; cbn; try easy. apply (add_nonneg N OK). Qed.

  Lemma xmin_mono (a b : ext N) (w : N) : xltb a b = false -> xltb (xmin a (Num w)) (xmin b (Num w)) = false.
  Proof using OK.
    unfold xmin. intros H. destruct (xltb (Num w) a) eqn:E1, (xltb (Num w) b) eqn:E2; auto.
    - apply xlt_irrefl.
    - apply (xlt_negtrans _ b); [exact H|now apply xlt_asym].
  Qed.
  Lemma xmin_worse (a : ext N) w : xltb a (xmin a (Num w)) = false.
  Proof using OK. unfold xmin. destruct (xltb (Num w) a) eqn:E; [now apply xlt_asym|apply xlt_irrefl]. Qed.

  Lemma xmin_le_l (a b : ext N) : xle (xmin a b) a.
  Proof using OK. unfold xle, xmin. destruct (xltb b a) eqn:E; [now apply xlt_asym|apply xlt_irrefl]. Qed.

  Variable it : nat -> list string -> list string.
  Variable wf : A -> res N.
  Variable g : graph A.
  Variable attr target : string.
  Hypothesis Hit : permuting it.
  Hypothesis W : wfg g.
  Hypothesis Hw : weighted g wf attr.
  Hypothesis Hd : g_dist g = true.
  Notation walk := (walk g wf attr target).

  Lemma width_pos ws : (forall w, In w ws -> nltb N (nzero N) w = true) -> xltb (Num (nzero N)) (width ws) = true.
  Proof.
    induction ws as [|w ws IH]; intros H; [reflexivity|].
    change (width (w :: ws)) with (xmin (width ws) (Num w)). unfold xmin.
    destruct (xltb (Num w) (width ws)); [|apply IH; intros; apply H; now right]. cbn. apply H. now left.
  Qed.

  Lemma walk_weights n p ws : walk n p ws -> forall w, In w ws -> exists u v, arc g wf attr u v w.
  Proof. induction 1 as [|u v w p ws Ha Hwk IH]; [easy|]. intros x [<-|Hx]; eauto. Qed.

  Lemma widest {B} (inverse : ext N -> B) :
    exists paths widths, find_max_bottleneck_paths it wf inverse g attr target = Ok (paths, widths) /\
      akeys paths = g_nodes g /\ akeys widths = g_nodes g /\
      forall n, In n (g_nodes g) ->
        exists p x, sget n paths = Some p /\ sget n widths = Some (inverse x) /\
          (forall q ws, walk n q ws -> xle (width ws) x) /\
          ((n <> target /\ x = Num (nzero N) /\ p = [Some n; None]) \/
           (exists q ws, p = map Some q /\ walk n q ws /\ x = width ws /\ NoDup q)).
  Proof using Hd Hit Hw OK W.
    destruct (search_spec it wf (fun alt old => xltb old alt) (fun x w => xmin x (Num w)) Inf (Num (nzero N)) g attr target Hit)
      as (ps & vs & E & K1 & K2 & H); auto.
    - intros a. apply xlt_irrefl.
    - intros a b. apply xlt_asym.
    - intros a b c H1 H2. exact (xlt_negtrans _ _ _ H1 H2).
    - intros a b w _. apply xmin_mono.
    - intros a w _. apply xmin_worse.
    - unfold find_max_bottleneck_paths. rewrite E. cbn [bind fst snd]. do 2 eexists. split; [reflexivity|].
      split; [exact K1|]. split; [unfold akeys in *; rewrite map_map; exact K2|].
      intros n Hn. destruct (H n Hn) as (p & x & Hp & Hx & H1 & H2). exists p, x. split; [exact Hp|]. split; [|auto].
      clear - Hx. induction vs as [|[k y] vs IH]; cbn in *; [discriminate|].
      destruct (String.eqb n k); [now injection Hx as ->|auto].
  Qed.

  Lemma total_finite (ws : list N) : exists x : N, total ws = Num x.
  Proof. induction ws as [|w ws [x IH]]; [eexists; reflexivity|]. cbn. unfold total in IH. rewrite IH. eexists. reflexivity. Qed.

  Lemma shortest {B} (inverse : ext N -> B) :
    exists paths lengths, find_shortest_paths it wf inverse g attr target = Ok (paths, lengths) /\
      akeys paths = g_nodes g /\ akeys lengths = g_nodes g /\
      forall n, In n (g_nodes g) ->
        exists p x, sget n paths = Some p /\
          sget n lengths = Some (if xltb (Num (nzero N)) x then Some (inverse x) else None) /\
          (forall q ws, walk n q ws -> xle x (total ws)) /\
          ((n <> target /\ x = Inf /\ p = [Some n; None] /\ forall q ws, ~ walk n q ws) \/
           (exists q ws, p = map Some q /\ walk n q ws /\ x = total ws /\ NoDup q)).
  Proof using Hd Hit Hw OK W.
    destruct (search_spec it wf (fun alt old => xltb alt old) (fun x w => xadd x (Num w)) (Num (nzero N)) Inf g attr target Hit)
      as (ps & vs & E & K1 & K2 & H); auto.
    - intros a. apply xlt_irrefl.
    - intros a b. apply xlt_asym.
    - intros a b c H1 H2. exact (xlt_negtrans _ _ _ H2 H1).
    - intros a b w _. apply xadd_mono.
    - intros a w. apply xadd_worse.
    - unfold find_shortest_paths. rewrite E. cbn [bind fst snd]. do 2 eexists. split; [reflexivity|].
      split; [exact K1|]. split; [unfold akeys in *; rewrite map_map; exact K2|].
      intros n Hn. destruct (H n Hn) as (p & x & Hp & Hx & H1 & H2). exists p, x. split; [exact Hp|]. split; [|split; [exact H1|]].
      + clear - Hx. induction vs as [|[k y] vs IH]; cbn in *; [discriminate|].
        destruct (String.eqb n k); [now injection Hx as ->|auto].
      + destruct H2 as [(Nt & -> & ->)|H2]; [left|now right].
        split; [exact Nt|]. split; [reflexivity|]. split; [reflexivity|]. intros q ws Hq. specialize (H1 q ws Hq).
        unfold value in H1. destruct (total_finite ws) as [y Hy]. unfold total in Hy. rewrite Hy in H1. discriminate.
  Qed.
End Paths.

Lemma widest_history {A} {N : num} {B} (OK : num_ok N) it pos (h : list (gop A)) wf attr target (inverse : ext N -> B) :
  let g := grun pos h in
  permuting it -> g_dist g = true -> weighted g wf attr ->
  exists paths widths, find_max_bottleneck_paths it wf inverse g attr target = Ok (paths, widths) /\
    akeys paths = g_nodes g /\ akeys widths = g_nodes g /\
    forall n, In n (g_nodes g) ->
      exists p x, sget n paths = Some p /\ sget n widths = Some (inverse x) /\
        (forall q ws, walk g wf attr target n q ws -> xle (width ws) x) /\
        ((n <> target /\ x = Num (nzero N) /\ p = [Some n; None]) \/
         (exists q ws, p = map Some q /\ walk g wf attr target n q ws /\ x = width ws /\ NoDup q)).
Proof. intros g Hit Hd Hw. exact (widest OK it wf g attr target Hit (run_wf pos h) Hw Hd inverse). Qed.

Lemma widest_unreachable {A} {N : num} {B} (OK : num_ok N) it pos (h : list (gop A)) wf attr target (inverse : ext N -> B) :
  let g := grun pos h in
  permuting it -> g_dist g = true -> weighted g wf attr ->
  (forall u v w, arc g wf attr u v w -> nltb N (nzero N) w = true) ->
  exists paths widths, find_max_bottleneck_paths it wf inverse g attr target = Ok (paths, widths) /\
    forall n, In n (g_nodes g) ->
      (sget n paths = Some [Some n; None] <-> forall q ws, ~ walk g wf attr target n q ws) /\
      ((forall q ws, ~ walk g wf attr target n q ws) -> sget n widths = Some (inverse (Num (nzero N)))).
Proof.
  intros g Hit Hd Hw Hp. destruct (widest OK it wf g attr target Hit (run_wf pos h) Hw Hd inverse) as (ps & vs & E & _ & _ & H).
  exists ps, vs. split; [exact E|]. intros n Hn. destruct (H n Hn) as (p & x & E1 & E2 & H1 & H2).
  rewrite E1, E2. destruct H2 as [(Nt & -> & ->)|(q & ws & -> & Hq & -> & _)].
  - split; [|reflexivity]. split; [|reflexivity]. intros _ q ws Hq. specialize (H1 q ws Hq). unfold xle in H1.
    rewrite width_pos in H1; [discriminate|]. intros w Hi. destruct (walk_weights _ _ _ _ _ _ _ Hq w Hi) as (u & v & Ha). eauto.
  - split; [|intros C; exfalso; exact (C _ _ Hq)]. split; [|intros C; exfalso; exact (C _ _ Hq)].
    intros C. exfalso. destruct q as [|a [|b q]]; discriminate.
Qed.

Lemma shortest_history {A} {N : num} {B} (OK : num_ok N) it pos (h : list (gop A)) wf attr target (inverse : ext N -> B) :
  let g := grun pos h in
  permuting it -> g_dist g = true -> weighted g wf attr ->
  exists paths lengths, find_shortest_paths it wf inverse g attr target = Ok (paths, lengths) /\
    akeys paths = g_nodes g /\ akeys lengths = g_nodes g /\
    forall n, In n (g_nodes g) ->
      exists p x, sget n paths = Some p /\
        sget n lengths = Some (if xltb (Num (nzero N)) x then Some (inverse x) else None) /\
        (forall q ws, walk g wf attr target n q ws -> xle x (total ws)) /\
        ((n <> target /\ x = Inf /\ p = [Some n; None] /\ forall q ws, ~ walk g wf attr target n q ws) \/
         (exists q ws, p = map Some q /\ walk g wf attr target n q ws /\ x = total ws /\ NoDup q)).
Proof. intros g Hit Hd Hw. exact (shortest OK it wf g attr target Hit (run_wf pos h) Hw Hd inverse). Qed.

(** ** Rational and real numbers *)
Definition Qnum : num := MkNum Q Qltb Qplus 0%Q.

Lemma Qltb_true x y : Qltb x y = true <-> (x < y)%Q.
Proof. unfold Qltb. rewrite negb_true_iff, <- not_true_iff_false, Qle_bool_iff. split; [apply Qnot_le_lt|apply Qlt_not_le]. Qed.
Lemma Qltb_false x y : Qltb x y = false <-> (y <= x)%Q.
Proof. unfold Qltb. rewrite negb_false_iff. apply Qle_bool_iff. Qed.

Lemma Qnum_ok : num_ok Qnum.
Proof.
  constructor; cbn; intros.
  - apply Qltb_false. apply Qltb_true in H. now apply Qlt_le_weak.
  - rewrite Qltb_false in *. now apply (Qle_trans _ b).
  - rewrite Qltb_false in *. now apply Qplus_le_compat; [|apply Qle_refl].
  - rewrite Qltb_false in *. rewrite <- (Qplus_0_r a) at 1. apply Qplus_le_compat; [apply Qle_refl|assumption].
Qed.

Definition Rltb (x y : R) : bool := if Rlt_dec x y then true else false.
Definition Rnum : num := MkNum R Rltb Rplus 0%R.
Lemma Rltb_true x y : Rltb x y = true <-> (x < y)%R.
Proof. unfold Rltb. destruct (Rlt_dec x y); split; auto; discriminate. Qed.
Lemma Rltb_false x y : Rltb x y = false <-> (y <= x)%R.
Proof. unfold Rltb. destruct (Rlt_dec x y); split; intros; auto; try discriminate; lra. Qed.
Lemma Rnum_ok : num_ok Rnum.
Proof.
  constructor; cbn; intros.
  - apply Rltb_false. apply Rltb_true in H. lra.
  - rewrite Rltb_false in *. lra.
  - rewrite Rltb_false in *. lra.
  - rewrite Rltb_false in *. lra.
Qed.

(** Walks under a transformed weight. *)
Lemma map_walk {A} {N M : num} (g : graph A) (wf : A -> res N) (wf' : A -> res M) (f : N -> M) attr target n p ls :
  (forall a, wf' a = let* w := wf a in Ok (f w)) ->
  walk g wf' attr target n p ls <-> exists ws, walk g wf attr target n p ws /\ ls = map f ws.
Proof.
  intros Hf. split.
  - induction 1 as [|u v w p ls [Hi (a & Ha & E)] _ (ws & H & ->)].
    + exists []. split; [constructor|reflexivity].
    + rewrite Hf in E. destruct (wf a) as [x|] eqn:Ex; [|discriminate]. injection E as <-.
      exists (x :: ws). split; [|reflexivity]. econstructor; [|exact H]. split; [exact Hi|]. exists a. auto.
  - intros (ws & H & ->). induction H as [|u v w p ws [Hi (a & Ha & E)] _ IH]; [constructor|].
    cbn [map]. econstructor; [|exact IH]. split; [exact Hi|]. exists a. split; [exact Ha|]. rewrite Hf, E. reflexivity.
Qed.

(** ** The products of weights (search method 'max_product' of
    graph.py L539-542): lengths are logarithms of inverse weights. *)
Definition log_weight (x : Q) : res R := Ok (ln (1 / Q2R x)).
Definition unlog (x : ext Rnum) : R := match x with Num y => (1 / exp y)%R | Inf => 0%R end.
Definition qproduct (ws : list Q) : Q := fold_right Qmult 1%Q ws.

Lemma Q2R_pos q : (0 < q)%Q -> (0 < Q2R q)%R.
Proof. intros H. apply Qlt_Rlt in H. rewrite RMicromega.Q2R_0 in H. exact H. Qed.

Lemma log_total ws : (forall w, In w ws -> (0 < w)%Q) ->
  @total Rnum (map (fun x => ln (1 / Q2R x)) ws) = Num (- ln (Q2R (qproduct ws)))%R /\ (0 < qproduct ws)%Q.
Proof.
  induction ws as [|w ws IH]; intros H.
  - cbn. rewrite RMicromega.Q2R_1, ln_1. split; [f_equal; lra|reflexivity].
  - destruct IH as [E P]; [intros; apply H; now right|]. assert (0 < w)%Q as Hw by (apply H; now left).
    change (qproduct (w :: ws)) with (w * qproduct ws)%Q. cbn [map]. split; [|now apply Qmult_lt_0_compat].
    change (@total Rnum (ln (1 / Q2R w) :: map (fun x => ln (1 / Q2R x)) ws))%R
      with (@xadd Rnum (@total Rnum (map (fun x => ln (1 / Q2R x)) ws)) (Num (ln (1 / Q2R w))))%R.
    rewrite E. cbn. f_equal. rewrite Q2R_mult. pose proof (Q2R_pos _ P). pose proof (Q2R_pos _ Hw).
    rewrite ln_mult by assumption. unfold Rdiv. rewrite Rmult_1_l, ln_Rinv by assumption. lra.
Qed.

Lemma unlog_total ws : (forall w, In w ws -> (0 < w)%Q) ->
  unlog (@total Rnum (map (fun x => ln (1 / Q2R x)) ws)) = Q2R (qproduct ws).
Proof.
  intros H. destruct (log_total ws H) as [-> P]. apply Q2R_pos in P. cbn. rewrite exp_Ropp, exp_ln by exact P. field. lra.
Qed.

Lemma product_le_1 ws : (forall w, In w ws -> (0 < w /\ w <= 1)%Q) -> (0 < qproduct ws /\ qproduct ws <= 1)%Q.
Proof.
  induction ws as [|w ws IH]; intros H; [split; [reflexivity|apply Qle_refl]|].
  destruct IH as [P L]; [intros; apply H; now right|]. destruct (H w (or_introl eq_refl)) as [Hw Lw].
  change (qproduct (w :: ws)) with (w * qproduct ws)%Q. split; [now apply Qmult_lt_0_compat|].
  apply (Qle_trans _ (1 * qproduct ws)); [|rewrite Qmult_1_l; exact L].
  apply Qmult_le_compat_r; [exact Lw|now apply Qlt_le_weak].
Qed.

Definition weights_in01 (g : graph Q) : Prop :=
  forall u v, In (u, v) (g_edges g) -> exists w, edge_attribute g u v "weight" = Ok w /\ (0 < w)%Q /\ (w <= 1)%Q.

(** Scores of the method 'max_product': None is NaN. *)
Lemma max_product it (g : graph Q) target :
  wfg g -> permuting it -> g_dist g = true -> weights_in01 g ->
  exists paths scores, find_shortest_paths (N := Rnum) it log_weight unlog g "weight" target = Ok (paths, scores) /\
    akeys scores = g_nodes g /\
    forall n, In n (g_nodes g) ->
      exists o, sget n scores = Some o /\
        (o = None <-> exists q ws, walk (N := Qnum) g Ok "weight" target n q ws /\ (qproduct ws == 1)%Q) /\
        (forall x, o = Some x ->
           (forall q ws, walk (N := Qnum) g Ok "weight" target n q ws -> (Q2R (qproduct ws) <= x)%R) /\
           ((exists q ws, walk (N := Qnum) g Ok "weight" target n q ws /\ x = Q2R (qproduct ws)) \/
            (x = 0%R /\ forall q ws, ~ walk (N := Qnum) g Ok "weight" target n q ws))).
Proof.
  intros Wf Hit Hd H01.
  assert (forall n p ls, walk (N := Rnum) g log_weight "weight" target n p ls <->
            exists ws, walk (N := Qnum) g Ok "weight" target n p ws /\ ls = map (fun x => ln (1 / Q2R x)) ws) as MW.
  { intros n p ls. exact (@map_walk Q Qnum Rnum g Ok log_weight (fun x => ln (1 / Q2R x)) "weight" target n p ls (fun a => eq_refl)). }
  assert (forall n p ws, walk (N := Qnum) g Ok "weight" target n p ws -> forall w, In w ws -> (0 < w)%Q /\ (w <= 1)%Q) as W01.
  { intros n p ws Hw w Hi. destruct (@walk_weights Q Qnum Ok g "weight" target n p ws Hw w Hi) as (u & v & He & a & Ea & Ew).
    destruct (H01 u v He) as (w' & E' & P). injection Ew as ->. rewrite E' in Ea. injection Ea as ->. exact P. }
  assert (weighted (N := Rnum) g log_weight "weight") as Wtd.
  { intros u v He. destruct (H01 u v He) as (w & Ew & P & L). exists (ln (1 / Q2R w)). split.
    - split; [exact He|]. exists w. auto.
    - cbn. apply Rltb_false. apply Q2R_pos in P. apply Qle_Rle in L. rewrite RMicromega.Q2R_1 in L.
      unfold Rdiv. rewrite Rmult_1_l, ln_Rinv by exact P. assert (ln (Q2R w) <= 0)%R; [|lra].
      rewrite <- ln_1. destruct L as [L| ->]; [left; now apply ln_increasing|right; reflexivity]. }
  destruct (shortest Rnum_ok it log_weight g "weight" target Hit Wf Wtd Hd unlog) as (ps & ls & E & _ & K & H).
  exists ps, ls. split; [exact E|]. split; [exact K|]. intros n Hn.
  destruct (H n Hn) as (p & x & _ & El & H1 & H2). eexists. split; [exact El|]. clear El E K H ps ls.
  destruct H2 as [(Nt & -> & _ & Nw)|(q & ls & _ & Wq & -> & _)].
  - cbn. split.
    + split; [discriminate|]. intros (q & ws & Hw & _). exfalso. apply (Nw q (map (fun x => ln (1 / Q2R x)) ws)). apply MW. eauto.
    + intros x Hx. injection Hx as <-. split.
      * intros q ws Hw. exfalso. apply (Nw q (map (fun x => ln (1 / Q2R x)) ws)). apply MW. eauto.
      * right. split; [reflexivity|]. intros q ws Hw. apply (Nw q (map (fun x => ln (1 / Q2R x)) ws)). apply MW. eauto.
  - apply MW in Wq as (ws & Wq & ->). pose proof (W01 _ _ _ Wq) as Hws.
    assert (forall w, In w ws -> (0 < w)%Q) as Hpos by (intros; now apply Hws).
    destruct (log_total ws Hpos) as [Et P].
    assert (forall q' ws', walk (N := Qnum) g Ok "weight" target n q' ws' -> (qproduct ws' <= qproduct ws)%Q) as Best.
    { intros q' ws' Hw'. pose proof (W01 _ _ _ Hw') as Hws'. destruct (log_total ws') as [Et' P']; [intros; now apply Hws'|].
      assert (xle (@total Rnum (map (fun x => ln (1 / Q2R x)) ws)) (@total Rnum (map (fun x => ln (1 / Q2R x)) ws'))) as L.
      { apply (H1 q'). apply MW. eauto. }
      rewrite Et, Et' in L. unfold xle in L. cbn in L. apply Rltb_false in L.
      apply Qnot_lt_le. intros C. apply Qlt_Rlt in C. apply ln_increasing in C; [lra|now apply Q2R_pos]. }
    destruct (product_le_1 ws Hws) as [_ L1].
    rewrite unlog_total by exact Hpos. rewrite Et.
    destruct (xltb _ _) eqn:X; cbn in X.
    + apply Rltb_true in X. split.
      * split; [discriminate|]. intros (q' & ws' & Hw' & E1). exfalso. specialize (Best q' ws' Hw').
        assert (qproduct ws == 1)%Q as E2 by (apply Qle_antisym; [exact L1|rewrite <- E1; exact Best]).
        apply Qeq_eqR in E2. rewrite E2, RMicromega.Q2R_1, ln_1 in X. lra.
      * intros x Hx. injection Hx as <-. split; [intros q' ws' Hw'; apply Qle_Rle, (Best q' ws' Hw')|]. left. eauto.
    + apply Rltb_false in X. split; [|discriminate]. split; [|reflexivity]. intros _. exists q, ws. split; [exact Wq|].
      apply Qle_antisym; [exact L1|]. apply Qnot_lt_le. intros C. apply Qlt_Rlt in C. rewrite RMicromega.Q2R_1 in C.
      apply ln_increasing in C; [rewrite ln_1 in C; lra|now apply Q2R_pos].
Qed.
