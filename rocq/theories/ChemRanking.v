(** Proofs about the ranking of species. *)
From Coq Require Import Permutation Qabs Lqa.
From Verif Require Import Base BaseLemmas SortLemmas Graph GraphSpec GraphProofs GraphPaths GraphFlow ChemGraph ChemGraphSpec
  ChemGraphProofs.
Local Open Scope Q_scope.

Lemma sset_notin {V} k (v : V) d : ~ In k (map fst d) -> sset k v d = d ++ [(k, v)].
Proof.
  induction d as [|[k' v'] d IH]; cbn; [reflexivity|]. intros H. destruct (String.eqb_spec k k') as [->|_]; [exfalso; auto|].
  f_equal. apply IH. auto.
Qed.

Section Generic.
  Context {V : Type}.
  Variable vltb : V -> V -> bool.
  Hypothesis v_asym : forall a b, vltb a b = true -> vltb b a = false.
  Hypothesis v_neg : forall a b c, vltb a b = false -> vltb b c = false -> vltb a c = false.

  Lemma fold_vmax {X} (f : X -> option V) l : forall x,
    let o := fold_left (fun x r => vmax vltb x (f r)) l x in
    (o = None <-> x = None /\ forall r, In r l -> f r = None) /\
    (forall v, o = Some v ->
       (x = Some v \/ exists r, In r l /\ f r = Some v) /\
       (forall u, x = Some u -> vltb v u = false) /\ forall r u, In r l -> f r = Some u -> vltb v u = false).
  Proof using v_asym v_neg.
    assert (forall a, vltb a a = false) as Irr.
    { intros a. destruct (vltb a a) eqn:E; [|reflexivity]. pose proof (v_asym _ _ E). congruence. }
    induction l as [|r l IH]; intros x; cbn [fold_left]; cbv zeta.
    - split; [split; [intros H; split; [exact H|easy]|tauto]|]. intros v ->. split; [now left|]. split; [|easy]. intros u H. injection H as ->. apply Irr.
    - destruct (IH (vmax vltb x (f r))) as [H1 H2]. cbv zeta in *. split.
      + rewrite H1. split.
        * intros [E H]. destruct x as [a|], (f r) as [b|] eqn:F; cbn in E; try discriminate.
          { destruct (vltb a b); discriminate. }
          split; [reflexivity|]. intros r' [<-|Hr]; auto.
        * intros [-> H]. split; [cbn; apply H; now left|]. intros r' Hr. apply H. now right.
      + intros v Hv. destruct (H2 v Hv) as (A & B & C). split; [|split].
        * destruct A as [A|(r' & Hr & E)]; [|right; exists r'; split; [now right|exact E]].
          destruct x as [a|], (f r) as [b|] eqn:F; cbn in A; try discriminate.
          -- destruct (vltb a b); [right; exists r; split; [now left|congruence]|left; exact A].
          -- now left.
          -- right. exists r. split; [now left|congruence].
        * intros u ->. destruct (f r) as [b|] eqn:F; cbn in B; [|apply (B u eq_refl)].
          destruct (vltb u b) eqn:L; [|apply (B u eq_refl)].
          apply (v_neg v b u); [exact (B b eq_refl)|exact (v_asym _ _ L)].
        * intros r' u [<-|Hr] Fu; [|exact (C r' u Hr Fu)].
          rewrite Fu in B. destruct x as [a|]; cbn in B; [|exact (B u eq_refl)].
          destruct (vltb a u) eqn:L; [exact (B u eq_refl)|].
          apply (v_neg v a u); [exact (B a eq_refl)|exact L].
  Qed.

  Variable k : cgraph.
  Variable label : string -> Q -> string.
  Variable scores : graph Q -> string -> res (list (string * option V)).

  Definition cell_label (x : string * Q * graph Q) : string := label (fst (fst x)) (snd (fst x)).
  Definition cell_scores (x : string * Q * graph Q) : res (list (string * option V)) := scores (snd x) (fst (fst x)).

  Lemma rows_spec cols l : forall acc,
    (forall x, In x l -> exists sc, cell_scores x = Ok sc) ->
    NoDup (map cell_label l) -> (forall x, In x l -> ~ In (cell_label x) (map fst acc)) ->
    exists rs, rows label scores cols l acc = Ok rs /\
      Forall2 (fun x r => exists sc, cell_scores x = Ok sc /\ snd r = row_of cols sc) l (skipn (List.length acc) rs) /\
      firstn (List.length acc) rs = acc.
  Proof using.
    induction l as [|[[imp t] g] l IH]; intros acc Hs Hn Ha; cbn [rows].
    - exists acc. split; [reflexivity|]. rewrite skipn_all, firstn_all. split; [constructor|reflexivity].
    - destruct (Hs (imp, t, g)) as [sc Esc]; [now left|]. unfold cell_scores in Esc. cbn in Esc. rewrite Esc. cbn [bind].
      assert (~ In (label imp t) (map fst acc)) as Na by (apply (Ha (imp, t, g)); now left).
      rewrite sset_notin by exact Na. inversion Hn as [|? ? Hn1 Hn2]; subst.
      destruct (IH (acc ++ [(label imp t, row_of cols sc)])) as (rs & E & F & G).
      + intros x Hx. apply Hs. now right.
      + exact Hn2.
      + intros x Hx. rewrite map_app, in_app_iff. cbn. intros [C|[C|[]]].
        * apply (Ha x); [now right|exact C].
        * apply Hn1. change (cell_label (imp, t, g)) with (label imp t). rewrite C. now apply in_map.
      + exists rs. split; [exact E|]. rewrite app_length in *. cbn [List.length] in *.
        assert (rs = (acc ++ [(label imp t, row_of cols sc)]) ++ skipn (List.length acc + 1) rs) as R.
        { rewrite <- G at 1. symmetry. apply firstn_skipn. }
        assert (firstn (List.length acc) rs = acc) as G'.
        { rewrite R, <- app_assoc, firstn_app, firstn_all, Nat.sub_diag. cbn. apply app_nil_r. }
        split; [|exact G']. 
        rewrite R, <- app_assoc, skipn_app, skipn_all, Nat.sub_diag. cbn [app skipn].
        constructor; [|exact F]. exists sc. split; [exact Esc|reflexivity].
  Qed.

  Definition cell_value (s : string) (x : string * Q * graph Q) : option V :=
    match cell_scores x with Ok sc => match sget s sc with Some o => o | None => None end | Err _ => None end.

  Lemma ranking_generic graphs important :
    let cells := map (fun x => (fst x, fst (snd x), snd (snd x))) (list_prod important (combine (cg_times k) graphs)) in
    graphs <> [] -> NoDup (cg_species k) ->
    (forall x, In x cells -> exists sc, cell_scores x = Ok sc) -> NoDup (map cell_label cells) ->
    exists r, ranking_values k vltb label scores graphs important = Ok r /\
      map fst r = assessed k important /\
      forall s, In s (assessed k important) -> exists o, sget s r = Some o /\
        (o = None <-> forall x, In x cells -> cell_value s x = None) /\
        (forall v, o = Some v -> (exists x, In x cells /\ cell_value s x = Some v) /\
                   forall x u, In x cells -> cell_value s x = Some u -> vltb v u = false).
  Proof using v_asym v_neg.
    intros cells Hg Hn Hs Hl. unfold ranking_values. destruct graphs as [|g0 gs]; [contradiction|]. cbn [raise_if bind].
    set (cols := assessed k important) in *.
    destruct (rows_spec cols cells [] Hs Hl) as (rs & E & F & _); [easy|]. cbn [List.length skipn] in F.
    unfold cells in E. rewrite E. cbn [bind]. eexists. split; [reflexivity|]. split.
    { rewrite map_map. cbn. apply map_id. }
    intros s Hi. exists (col_max vltb s rs). split; [now rewrite sget_map|].
    set (f := fun r : string * list (string * option V) => match sget s (snd r) with Some y => y | None => None end).
    destruct (fold_vmax f rs None) as [H1 H2]. cbv zeta in *. change (fold_left _ rs None) with (col_max vltb s rs) in *.
    assert (Forall2 (fun x r => f r = cell_value s x) cells rs) as FF.
    { clear - F Hi. fold cells in F. induction F as [|x r l rs (sc & E & R) F IH]; constructor; [|exact IH].
      unfold f, cell_value. rewrite E, R. unfold row_of. now rewrite sget_map. }
    assert (forall x, In x cells -> exists r, In r rs /\ f r = cell_value s x) as X1.
    { clear - FF. induction FF as [|x r l rs H FF IH]; [easy|]. intros y [<-|Hy]; [exists r; split; [now left|exact H]|].
      destruct (IH y Hy) as (r' & I & E). exists r'. split; [now right|exact E]. }
    assert (forall r, In r rs -> exists x, In x cells /\ f r = cell_value s x) as X2.
    { clear - FF. induction FF as [|x r l rs H FF IH]; [easy|]. intros y [<-|Hy]; [exists x; split; [now left|exact H]|].
      destruct (IH y Hy) as (r' & I & E). exists r'. split; [now right|exact E]. }
    split.
    - rewrite H1. split.
      + intros [_ H] x Hx. destruct (X1 x Hx) as (r & Hr & <-). auto.
      + intros H. split; [reflexivity|]. intros r Hr. destruct (X2 r Hr) as (x & Hx & ->). auto.
    - intros v Hv. destruct (H2 v Hv) as (A & _ & B). split.
      + destruct A as [A|(r & Hr & Er)]; [discriminate|]. destruct (X2 r Hr) as (x & Hx & Ex). exists x. split; [exact Hx|congruence].
      + intros x u Hx Hu. destruct (X1 x Hx) as (r & Hr & Er). apply (B r u Hr). congruence.
  Qed.
End Generic.

Lemma cells_In (important : list string) (times : list Q) (graphs : list (graph Q)) x :
  In x (map (fun x => (fst x, fst (snd x), snd (snd x))) (list_prod important (combine times graphs))) ->
  exists i, In (fst (fst x)) important /\ nth_error times i = Some (snd (fst x)) /\ nth_error graphs i = Some (snd x).
Proof.
  intros H. apply in_map_iff in H as ([imp [t g]] & <- & H). apply in_prod_iff in H as [H1 H2]. cbn.
  apply In_nth_error in H2 as [i H2]. exists i. split; [exact H1|].
  revert graphs i H2. induction times as [|a times IH]; intros [|b graphs] [|i] E; cbn in *; try discriminate.
  - injection E as -> ->. auto.
  - now apply IH.
Qed.

Lemma In_cells (important : list string) (times : list Q) (graphs : list (graph Q)) imp i t g :
  In imp important -> nth_error times i = Some t -> nth_error graphs i = Some g ->
  In (imp, t, g) (map (fun x => (fst x, fst (snd x), snd (snd x))) (list_prod important (combine times graphs))).
Proof.
  intros H Ht Hg. apply in_map_iff. exists (imp, (t, g)). split; [reflexivity|]. apply in_prod; [exact H|].
  revert graphs i Ht Hg. induction times as [|a times IH]; intros [|b graphs] [|i] Ht Hg; cbn in *; try discriminate.
  - left. congruence.
  - right. eapply IH; eassumption.
Qed.

(** ** The method 'shortest_path' *)
Lemma total_qsum (ls : list Q) : exists L, @total GraphPaths.Qnum ls = Num L /\ L == qsum (fun x => x) ls.
Proof.
  induction ls as [|l ls (L & E & H)]; [exists 0; split; reflexivity|].
  change (@total GraphPaths.Qnum (l :: ls)) with (@xadd GraphPaths.Qnum (@total GraphPaths.Qnum ls) (Num l)). rewrite E.
  exists (L + l). split; [reflexivity|]. rewrite qsum_cons, H. ring.
Qed.

Lemma qsum_map {X Y} (f : Y -> Q) (g : X -> Y) l : qsum f (map g l) = qsum (fun x => f (g x)) l.
Proof. induction l as [|x l IH]; [reflexivity|]. cbn [map]. rewrite !qsum_cons, IH. reflexivity. Qed.

Definition weights_pos (g : graph Q) : Prop :=
  forall u v, In (u, v) (g_edges g) -> exists w, edge_attribute g u v "weight" = Ok w /\ 0 < w.

Lemma inv_pos w : 0 < w -> 0 < 1 / w.
Proof. intros H. apply Qlt_shift_div_l; lra. Qed.

Lemma inv_sum_pos (ws : list Q) : (forall w, In w ws -> 0 < w) -> ws <> [] -> 0 < qsum (fun w => 1 / w) ws.
Proof.
  intros H Ne. destruct ws as [|w ws]; [contradiction|]. rewrite qsum_cons.
  pose proof (inv_pos w (H w (or_introl eq_refl))).
  assert (0 <= qsum (fun w => 1 / w) ws); [|lra].
  rewrite <- (qsum_0 (fun _ : Q => 0) ws) by reflexivity. apply qsum_le. intros x Hx. apply Qlt_le_weak, inv_pos, H. now right.
Qed.

Lemma inv_le a b : 0 < a -> a <= b -> 1 / b <= 1 / a.
Proof.
  intros Ha Hab. apply Qle_shift_div_l; [exact Ha|]. unfold Qdiv. rewrite Qmult_1_l.
  assert (0 < b) as Hb by lra. rewrite Qmult_comm. fold (a / b). apply Qle_shift_div_r; lra.
Qed.

Section Walk.
  Variables (g : graph Q) (target : string).
  Hypothesis Wp : weights_pos g.

  Lemma pos_weights n p ws : walk (N := GraphPaths.Qnum) g Ok "weight" target n p ws -> forall w, In w ws -> 0 < w.
  Proof using Wp.
    intros Hw w Hi. destruct (@walk_weights Q GraphPaths.Qnum Ok g "weight" target n p ws Hw w Hi) as (u & v & He & a & Ea & Ew).
    destruct (Wp u v He) as (w' & E' & P). injection Ew as ->. rewrite E' in Ea. injection Ea as ->. exact P.
  Qed.
  Lemma walk_nonempty n p ws : walk (N := GraphPaths.Qnum) g Ok "weight" target n p ws -> n <> target -> ws <> [].
  Proof using. intros H Ne. destruct H; [contradiction|discriminate]. Qed.
End Walk.

Lemma shortest_scores it g target :
  permuting it -> wfg g -> g_dist g = true -> weights_pos g ->
  exists sc, scores_shortest it g target = Ok sc /\ akeys sc = g_nodes g /\
    forall n, In n (g_nodes g) -> n <> target ->
      exists x, sget n sc = Some (Some x) /\
        (forall q ws, walk (N := GraphPaths.Qnum) g Ok "weight" target n q ws -> conductance ws <= x) /\
        ((exists q ws, walk (N := GraphPaths.Qnum) g Ok "weight" target n q ws /\ x == conductance ws) \/
         (x == 0 /\ forall q ws, ~ walk (N := GraphPaths.Qnum) g Ok "weight" target n q ws)).
Proof.
  intros Hit W Hd Wp.
  assert (weighted (N := GraphPaths.Qnum) g (fun w => Ok (1 / w)) "weight") as Hw.
  { intros u v He. destruct (Wp u v He) as (w & Ew & P). exists (1 / w). split.
    - split; [exact He|]. exists w. auto.
    - cbn. apply Qltb_false. apply Qlt_le_weak, inv_pos, P. }
  assert (forall n p ls, walk (N := GraphPaths.Qnum) g (fun w => Ok (1 / w)) "weight" target n p ls <->
            exists ws, walk (N := GraphPaths.Qnum) g Ok "weight" target n p ws /\ ls = map (fun x => 1 / x) ws) as MW.
  { intros n p ls. exact (@map_walk Q GraphPaths.Qnum GraphPaths.Qnum g Ok (fun w => Ok (1 / w)) (fun x => 1 / x) "weight" target n p ls (fun a => eq_refl)). }
  unfold scores_shortest.
  destruct (shortest Qnum_ok it (fun w => Ok (1 / w)) g "weight" target Hit W Hw Hd inv_length) as (ps & ls & E & _ & K & H).
  rewrite E. cbn [bind snd]. exists ls. split; [reflexivity|]. split; [exact K|]. intros n Hn Nt.
  destruct (H n Hn) as (p & x & _ & El & H1 & H2).
  destruct H2 as [(_ & -> & _ & Nw)|(q & l & _ & Wq & -> & _)].
  - cbn in El. exists 0. split; [exact El|].
    assert (forall q ws, ~ walk (N := GraphPaths.Qnum) g Ok "weight" target n q ws) as No.
    { intros q ws C. apply (Nw q (map (fun x => 1 / x) ws)). apply MW. eauto. }
    split; [intros q ws C; exfalso; exact (No _ _ C)|]. right. split; [reflexivity|exact No].
  - apply MW in Wq as (ws & Wq & ->).
    destruct (total_qsum (map (fun x => 1 / x) ws)) as (L & EL & HL). rewrite qsum_map in HL.
    pose proof (inv_sum_pos ws (pos_weights g target Wp n q ws Wq) (walk_nonempty g target n q ws Wq Nt)) as P.
    assert (0 < L) as PL by (rewrite HL; exact P).
    rewrite EL in El. cbn in El. apply Qltb_true in PL as PL'. rewrite PL' in El.
    exists (1 / L). split; [exact El|].
    assert (1 / L == conductance ws) as EC by (unfold conductance; rewrite HL; reflexivity).
    split; [|left; exists q, ws; auto].
    intros q' ws' Hw'. rewrite EC. unfold conductance. apply inv_le; [exact P|].
    destruct (total_qsum (map (fun x => 1 / x) ws')) as (L' & EL' & HL'). rewrite qsum_map in HL'.
    assert (xle (@total GraphPaths.Qnum (map (fun x => 1 / x) ws)) (@total GraphPaths.Qnum (map (fun x => 1 / x) ws'))) as X.
    { apply (H1 q'). apply MW. eauto. }
    rewrite EL, EL' in X. unfold xle in X. cbn in X. apply Qltb_false in X.
    rewrite <- HL, <- HL'. exact X.
Qed.

Lemma cell_labels label (important : list string) (times : list Q) (graphs : list (graph Q)) :
  List.length graphs = List.length times ->
  map (cell_label label) (map (fun x => (fst x, fst (snd x), snd (snd x))) (list_prod important (combine times graphs))) =
  map (fun x => label (fst x) (snd x)) (list_prod important times).
Proof.
  intros L. induction important as [|imp l IH]; [reflexivity|]. cbn [list_prod]. rewrite !map_app, IH. f_equal.
  clear IH. revert graphs L. induction times as [|t times IH]; intros [|g graphs] L; cbn in *; try discriminate; [reflexivity|].
  f_equal. apply IH. congruence.
Qed.

Lemma assessed_In k important s :
  In s (assessed k important) <-> In s (cg_species k) /\ ~ In s important /\ ~ In s (cg_special k).
Proof.
  unfold assessed. rewrite filter_In, negb_true_iff, orb_false_iff, !memS_false. tauto.
Qed.

Section Ranking.
  Variable k : cgraph.
  Hypothesis AD : admissible k.
  Variable label : string -> Q -> string.
  Variable it : nat -> list string -> list string.
  Hypothesis Hit : permuting it.
  Variables (m : weighting) (surface : bool) (gs : list (graph Q)) (important : list string).
  Hypothesis Hgs : distribute_weights k m surface = Ok gs.
  Hypothesis Hne : cg_times k <> [].
  Hypothesis Hl : NoDup (map (fun x => label (fst x) (snd x)) (list_prod important (cg_times k))).

  Lemma graph_facts : List.length gs = List.length (cg_times k) /\
    forall t g, nth_error gs t = Some g -> time_graph k m surface t g /\ weights_pos g.
  Proof using AD Hgs.
    destruct (distribute_ok k AD m surface) as (gs' & E & L & H). rewrite Hgs in E. injection E as <-. split; [exact L|].
    intros t g Hg. pose proof (H t g Hg) as T. split; [exact T|]. destruct T as (_ & _ & _ & HE & HA).
    intros u v Hi. apply HE in Hi as (a & b & Sa & Sb & Ne & w & Hw). exists w. split; [eapply HA; eassumption|].
    exact (weight_pos k AD m surface t b a w Hw).
  Qed.

  Lemma rank_shortest :
    exists r, ranking_values k Qltb label (scores_shortest it) gs important = Ok r /\
      map fst r = assessed k important /\
      forall s, In s (cg_species k) -> ~ In s important -> ~ In s (cg_special k) -> exists o, sget s r = Some o /\
        (o = None <-> important = [] \/ forall t g, nth_error gs t = Some g -> ~ connected g s) /\
        (forall v, o = Some v ->
           (forall imp t g q ws, In imp important -> nth_error gs t = Some g ->
              walk (N := GraphPaths.Qnum) g Ok "weight" imp s q ws -> conductance ws <= v) /\
           ((exists imp t g q ws, In imp important /\ nth_error gs t = Some g /\
               walk (N := GraphPaths.Qnum) g Ok "weight" imp s q ws /\ v == conductance ws) \/
            (v == 0 /\ forall imp t g q ws, In imp important -> nth_error gs t = Some g ->
               ~ walk (N := GraphPaths.Qnum) g Ok "weight" imp s q ws))).
  Proof using AD Hgs Hne Hl Hit.
    destruct graph_facts as [L GF].
    set (cells := map (fun x => (fst x, fst (snd x), snd (snd x))) (list_prod important (combine (cg_times k) gs))).
    assert (forall imp g t, nth_error gs t = Some g -> exists sc, scores_shortest it g imp = Ok sc /\ akeys sc = g_nodes g /\
      forall n, In n (g_nodes g) -> n <> imp ->
      exists x, sget n sc = Some (Some x) /\
        (forall q ws, walk (N := GraphPaths.Qnum) g Ok "weight" imp n q ws -> conductance ws <= x) /\
        ((exists q ws, walk (N := GraphPaths.Qnum) g Ok "weight" imp n q ws /\ x == conductance ws) \/
         (x == 0 /\ forall q ws, ~ walk (N := GraphPaths.Qnum) g Ok "weight" imp n q ws))) as SC.
    { intros imp g t Hg. destruct (GF t g Hg) as [(W & D & _) P]. exact (shortest_scores it g imp Hit W D P). }
    assert (gs <> []) as Ng.
    { intros ->. destruct (cg_times k); [contradiction|discriminate]. }
    assert (forall x, In x cells -> exists sc, cell_scores (scores_shortest it) x = Ok sc) as Hs.
    { intros [[imp t] g] Hx. apply cells_In in Hx as (i & _ & _ & Hg). cbn in Hg.
      destruct (SC imp g i Hg) as (sc & E & _). exists sc. exact E. }
    assert (NoDup (map (cell_label label) cells)) as Hl' by (unfold cells; rewrite cell_labels by exact L; exact Hl).
    destruct (ranking_generic Qltb) with (k := k) (label := label) (scores := scores_shortest it) (graphs := gs) (important := important)
      as (r & E & K & H); auto.
    { intros a b. rewrite Qltb_true, Qltb_false. apply Qlt_le_weak. }
    { intros a b c. rewrite !Qltb_false. intros H1 H2. exact (Qle_trans _ _ _ H2 H1). }
    { apply (ad_names k AD). }
    exists r. split; [exact E|]. split; [exact K|]. intros s Hs1 Hs2 Hs3.
    assert (In s (assessed k important)) as Ha by now apply assessed_In.
    destruct (H s Ha) as (o & Eo & Hnone & Hsome). exists o. split; [exact Eo|]. clear H E K Eo.
    assert (forall imp, In imp important -> s <> imp) as Nimp by (intros imp Hi ->; contradiction).
    assert (forall imp t g, In imp important -> In (imp, t, g) cells ->
      (cell_value (scores_shortest it) s (imp, t, g) = None /\ ~ connected g s) \/
      exists x, cell_value (scores_shortest it) s (imp, t, g) = Some x /\ connected g s /\
        (forall q ws, walk (N := GraphPaths.Qnum) g Ok "weight" imp s q ws -> conductance ws <= x) /\
        ((exists q ws, walk (N := GraphPaths.Qnum) g Ok "weight" imp s q ws /\ x == conductance ws) \/
         (x == 0 /\ forall q ws, ~ walk (N := GraphPaths.Qnum) g Ok "weight" imp s q ws))) as CV.
    { intros imp t g Hi Hx. apply cells_In in Hx as (i & _ & _ & Hg). cbn in Hg.
      destruct (SC imp g i Hg) as (sc & Esc & Ksc & Hsc). destruct (GF i g Hg) as [(_ & _ & HN & _) _].
      unfold cell_value, cell_scores. cbn [fst snd]. rewrite Esc.
      destruct (in_dec string_dec s (g_nodes g)) as [Hin|Hout].
      - right. destruct (Hsc s Hin (Nimp imp Hi)) as (x & Ex & X). rewrite Ex. exists x. split; [reflexivity|].
        split; [now apply HN|exact X].
      - left. split; [|now rewrite <- HN]. rewrite <- Ksc in Hout.
        assert (sget s sc = None) as ->; [|reflexivity].
        apply (proj2 (aget_None String.eqb String.eqb_eq s sc)). exact Hout. }
    assert (forall imp t g, In (imp, t, g) cells -> In imp important) as CI.
    { intros imp t g Hx. apply cells_In in Hx as (i & Hi & _). exact Hi. }
    assert (forall imp t g, In imp important -> nth_error gs t = Some g -> exists q, In (imp, q, g) cells) as IC.
    { intros imp t g Hi Hg. assert (t < List.length (cg_times k))%nat as Ht.
      { rewrite <- L. apply nth_error_Some. congruence. }
      destruct (nth_error (cg_times k) t) as [q|] eqn:Eq; [|apply nth_error_None in Eq; lia].
      exists q. unfold cells. eapply In_cells; eassumption. }
    assert (forall imp t g q ws, In imp important -> nth_error gs t = Some g ->
              walk (N := GraphPaths.Qnum) g Ok "weight" imp s q ws -> connected g s) as WC.
    { intros imp t g q ws Hi _ Hw. destruct Hw as [|u v w p ws [Hu _] _]; [exfalso; now apply (Nimp imp Hi)|]. exists v. now left. }
    split.
    - rewrite Hnone. split.
      + intros H. destruct important as [|imp0 rest] eqn:Eimp; [now left|right].
        intros t g Hg. destruct (IC imp0 t g) as (q & Hq); [now left|exact Hg|].
        destruct (CV imp0 q g) as [[_ C]|(x & Ex & _)]; [now left|exact Hq|exact C|].
        rewrite H in Ex by exact Hq. discriminate.
      + intros [Z|Hc] [[imp t] g] Hx.
        * exfalso. pose proof (CI _ _ _ Hx) as Hi. rewrite Z in Hi. contradiction.
        * destruct (CV imp t g (CI _ _ _ Hx) Hx) as [[-> _]|(x & _ & C & _)]; [reflexivity|].
          exfalso. destruct (cells_In _ _ _ _ Hx) as (i & _ & _ & Hg). exact (Hc i g Hg C).
    - intros v Hv. destruct (Hsome v Hv) as [([[imp t] g] & Hx & Ex) Max]. split.
      + intros imp' t' g' q ws Hi' Hg' Hw'. destruct (IC imp' t' g' Hi' Hg') as (q0 & Hq0).
        destruct (CV imp' q0 g' Hi' Hq0) as [[_ C]|(x & Ex' & _ & B & _)].
        * exfalso. exact (C (WC imp' t' g' q ws Hi' Hg' Hw')).
        * pose proof (Max _ _ Hq0 Ex') as M. apply Qltb_false in M. specialize (B q ws Hw'). lra.
      + destruct (CV imp t g (CI _ _ _ Hx) Hx) as [[C _]|(x & Ex' & _ & _ & [(q & ws & Hw & Exw)|[Z _]])]; [congruence| |].
        * left. destruct (cells_In _ _ _ _ Hx) as (i & Hi & _ & Hg). cbn in Hi, Hg. exists imp, i, g, q, ws.
          rewrite Ex in Ex'. injection Ex' as ->. auto.
        * right. rewrite Ex in Ex'. injection Ex' as ->. split; [exact Z|]. intros imp' t' g' q ws Hi' Hg' Hw'.
          destruct (IC imp' t' g' Hi' Hg') as (q0 & Hq0).
          destruct (CV imp' q0 g' Hi' Hq0) as [[_ C]|(y & Ey & _ & B & _)].
          -- exact (C (WC imp' t' g' q ws Hi' Hg' Hw')).
          -- pose proof (Max _ _ Hq0 Ey) as M. apply Qltb_false in M. specialize (B q ws Hw').
             destruct (GF t' g' Hg') as [_ P].
             pose proof (inv_sum_pos ws (pos_weights g' imp' P s q ws Hw') (walk_nonempty g' imp' s q ws Hw' (Nimp imp' Hi'))) as P1.
             apply inv_pos in P1. unfold conductance in B. lra.
  Qed.
End Ranking.

(** ** Values of the weights *)
Lemma Qabs_inject z : Qabs (inject_Z z) == inject_Z (Z.abs z).
Proof. reflexivity. Qed.

Section Values.
  Variable k : cgraph.
  Hypothesis AD : admissible k.

  Lemma surf_wall surface t b a : surf_rate k surface t b a == if surface then wall_rate k t b a else 0.
  Proof using.
    unfold surf_rate, wall_rate, stick_rate, area_vol. destruct surface; [|reflexivity].
    rewrite (Nat.eqb_sym a b). destruct (Nat.eqb b a); ring.
  Qed.

  Lemma turnover_all t a : turnover k t a (seq 0 (cg_reactions k)) ==
    sumto (cg_reactions k) (fun j => Qabs (inject_Z (net k j a)) * cg_rate k t j).
  Proof using. apply qsum_ext. intros j _. unfold net. rewrite Qabs_inject. ring. Qed.

  Lemma turnover_some t a b : turnover k t a (filter (fun j => involvesb k j b) (seq 0 (cg_reactions k))) ==
    sumto (cg_reactions k) (fun j => Qabs (inject_Z (net k j a)) * cg_rate k t j * delta k j b).
  Proof using AD.
    unfold sumto, turnover. induction (seq 0 (cg_reactions k)) as [|j l IH]; [reflexivity|].
    change (Qsum ?f (j :: l)) with (f j + Qsum f l). cbn [filter]. rewrite <- IH. clear IH.
    assert (delta k j b == if involvesb k j b then 1 else 0) as ->.
    { unfold delta, involvesb. pose proof (ad_lhs k AD j b). pose proof (ad_rhs k AD j b).
      destruct (0 <? cg_lhs k j b + cg_rhs k j b)%Z eqn:E.
      - apply Z.ltb_lt in E. destruct (0 <? cg_lhs k j b)%Z eqn:E1, (0 <? cg_rhs k j b)%Z eqn:E2; cbn [orb]; try reflexivity.
        apply Z.ltb_ge in E1, E2. lia.
      - apply Z.ltb_ge in E. destruct (0 <? cg_lhs k j b)%Z eqn:E1; [apply Z.ltb_lt in E1; lia|].
        destruct (0 <? cg_rhs k j b)%Z eqn:E2; [apply Z.ltb_lt in E2; lia|]. reflexivity. }
    destruct (involvesb k j b).
    - rewrite qsum_cons. unfold net. rewrite Qabs_inject. ring.
    - ring.
  Qed.

  Lemma drg_value surface t b a w :
    weight k DRG surface t b a = Some w ->
    w * (turnover k t a (seq 0 (cg_reactions k)) +
         qsum (fun c => if surface then Qabs (wall_rate k t c a) else 0) (seq 0 (List.length (cg_species k)))) ==
    turnover k t a (filter (fun j => involvesb k j b) (seq 0 (cg_reactions k))) +
    (if surface then Qabs (wall_rate k t b a) else 0).
  Proof using AD.
    unfold weight. destruct (Qeq_bool (coupling k DRG surface t b a) 0 || Qeq_bool (normalisation k DRG surface t a) 0) eqn:Z; [discriminate|].
    intros H. injection H as <-. apply orb_false_iff in Z as [_ Z2]. apply Qeq_bool_neq in Z2.
    rewrite turnover_all, turnover_some.
    assert (forall c, Qabs (surf_rate k surface t c a) == if surface then Qabs (wall_rate k t c a) else 0) as S.
    { intros c. rewrite surf_wall. destruct surface; reflexivity. }
    rewrite <- (S b). rewrite (qsum_ext (fun c => if surface then Qabs (wall_rate k t c a) else 0) (fun c => Qabs (surf_rate k surface t c a))) by (intros; now rewrite S).
    change (coupling k DRG surface t b a / normalisation k DRG surface t a * normalisation k DRG surface t a == coupling k DRG surface t b a).
    field. exact Z2.
  Qed.
End Values.

(** ** The graphs of the weighting schemes *)
Section Schemes.
  Variable k : cgraph.
  Hypothesis AD : admissible k.

  Lemma at_neq a b x y : species_at k a y -> species_at k b x -> x <> y -> a <> b.
  Proof using. unfold species_at. congruence. Qed.

  Lemma normalised_graphs m surface :
    m = DRG \/ m = DRGEP ->
    exists gs, distribute_weights k m surface = Ok gs /\ List.length gs = List.length (cg_times k) /\
      forall t g, nth_error gs t = Some g ->
        g_dist g = true /\
        forall x y, In (x, y) (g_edges g) ->
          In x (cg_species k) /\ In y (cg_species k) /\ x <> y /\
          exists w, edge_attribute g x y "weight" = Ok w /\ 0 < w /\ w <= 1.
  Proof using AD.
    intros Hm. destruct (distribute_ok k AD m surface) as (gs & E & L & H). exists gs. split; [exact E|]. split; [exact L|].
    intros t g Hg. destruct (H t g Hg) as (_ & D & _ & HE & HA). split; [exact D|].
    intros x y Hi. apply HE in Hi as (a & b & Sa & Sb & Ne & w & Hw).
    split; [exact (nth_error_In _ _ Sb)|]. split; [exact (nth_error_In _ _ Sa)|]. split; [exact Ne|].
    exists w. split; [eapply HA; eassumption|]. split; [exact (weight_pos k AD m surface t b a w Hw)|].
    exact (weight_le_1 k AD m surface t b a w Hm (at_lt k b x Sb) Hw).
  Qed.

  Lemma drg_graphs surface :
    exists gs, distribute_weights k DRG surface = Ok gs /\ List.length gs = List.length (cg_times k) /\
      forall t g, nth_error gs t = Some g ->
        (forall x y, In (x, y) (g_edges g) <-> x <> y /\ exists a b, species_at k a y /\ species_at k b x /\ linked k surface t b a) /\
        (forall x y a b w, species_at k a y -> species_at k b x -> edge_attribute g x y "weight" = Ok w ->
           In (x, y) (g_edges g) ->
           w * (turnover k t a (seq 0 (cg_reactions k)) +
                qsum (fun c => if surface then Qabs (wall_rate k t c a) else 0) (seq 0 (List.length (cg_species k)))) ==
           turnover k t a (filter (fun j => involvesb k j b) (seq 0 (cg_reactions k))) +
           (if surface then Qabs (wall_rate k t b a) else 0)).
  Proof using AD.
    destruct (distribute_ok k AD DRG surface) as (gs & E & L & H). exists gs. split; [exact E|]. split; [exact L|].
    intros t g Hg. destruct (H t g Hg) as (_ & _ & _ & HE & HA). split.
    - intros x y. rewrite HE. split.
      + intros (a & b & Sa & Sb & Ne & Hw). split; [exact Ne|]. exists a, b. split; [exact Sa|]. split; [exact Sb|].
        apply (drg_weight_some k AD) in Hw; [exact Hw|eapply at_neq; eassumption|exact (at_lt k b x Sb)].
      + intros (Ne & a & b & Sa & Sb & Hk). exists a, b. split; [exact Sa|]. split; [exact Sb|]. split; [exact Ne|].
        apply (drg_weight_some k AD); [eapply at_neq; eassumption|exact (at_lt k b x Sb)|exact Hk].
    - intros x y a b w Sa Sb Hw Hi. apply HE in Hi as (a' & b' & Sa' & Sb' & Ne & w' & Hw').
      rewrite (at_inj k AD _ _ _ Sa' Sa), (at_inj k AD _ _ _ Sb' Sb) in Hw'.
      rewrite (HA x y a b w' Sa Sb Ne Hw') in Hw. injection Hw as <-. exact (drg_value k AD surface t b a w' Hw').
  Qed.
End Schemes.
