(** Proofs about the rankings by the other search methods (graph.py L525-538:
    'max_bottleneck', 'max_product', 'max_flow'). *)
From Coq Require Import Reals Qreals Permutation Qabs Lqa Lra.
From Verif Require Import Base BaseLemmas Graph GraphSpec GraphProofs GraphPaths GraphFlow ChemGraph ChemGraphSpec
  ChemGraphProofs ChemRanking RankSpec.
Local Open Scope Q_scope.

Section Cells.
  Context {V : Type}.
  Variable vltb : V -> V -> bool.
  Hypothesis v_asym : forall a b, vltb a b = true -> vltb b a = false.
  Hypothesis v_neg : forall a b c, vltb a b = false -> vltb b c = false -> vltb a c = false.
  Variable k : cgraph.
  Variable label : string -> Q -> string.
  Variable scores : graph Q -> string -> res (list (string * option V)).
  Variables (gs : list (graph Q)) (important : list string).

  Definition value (s imp : string) (g : graph Q) : option V := cell_value scores s (imp, 0, g).

  Lemma rank_cells :
    gs <> [] -> NoDup (cg_species k) -> List.length gs = List.length (cg_times k) ->
    NoDup (map (fun x => label (fst x) (snd x)) (list_prod important (cg_times k))) ->
    (forall imp t g, In imp important -> nth_error gs t = Some g -> exists sc, scores g imp = Ok sc) ->
    exists r, ranking_values k vltb label scores gs important = Ok r /\
      map fst r = assessed k important /\
      forall s, In s (assessed k important) -> exists o, sget s r = Some o /\
        (o = None <-> forall imp t g, In imp important -> nth_error gs t = Some g -> value s imp g = None) /\
        (forall v, o = Some v ->
           (exists imp t g, In imp important /\ nth_error gs t = Some g /\ value s imp g = Some v) /\
           forall imp t g u, In imp important -> nth_error gs t = Some g -> value s imp g = Some u -> vltb v u = false).
  Proof using v_asym v_neg.
    intros Hg Hn L Hl Hs.
    set (cells := map (fun x => (fst x, fst (snd x), snd (snd x))) (list_prod important (combine (cg_times k) gs))).
    destruct (ranking_generic vltb v_asym v_neg k label scores gs important Hg Hn) as (r & E & K & H).
    { intros [[imp t] g] Hx. apply cells_In in Hx as (i & Hi & _ & Hgi). exact (Hs _ _ _ Hi Hgi). }
    { rewrite cell_labels by exact L. exact Hl. }
    fold cells in H.
    assert (forall imp t g, In imp important -> nth_error gs t = Some g -> exists q, In (imp, q, g) cells) as IC.
    { intros imp t g Hi Hgi. assert (t < List.length (cg_times k))%nat as Ht.
      { rewrite <- L. apply nth_error_Some. congruence. }
      destruct (nth_error (cg_times k) t) as [q|] eqn:Eq; [|apply nth_error_None in Eq; lia].
      exists q. unfold cells. eapply In_cells; eassumption. }
    exists r. split; [exact E|]. split; [exact K|]. intros s Ha.
    destruct (H s Ha) as (o & Eo & H1 & H2). exists o. split; [exact Eo|]. split.
    - rewrite H1. split.
      + intros Hc imp t g Hi Hgi. destruct (IC imp t g Hi Hgi) as (q & Hq). exact (Hc _ Hq).
      + intros Hc [[imp t] g] Hx. apply cells_In in Hx as (i & Hi & _ & Hgi). exact (Hc imp i g Hi Hgi).
    - intros v Hv. destruct (H2 v Hv) as [([[imp t] g] & Hx & Ex) Max]. split.
      + apply cells_In in Hx as (i & Hi & _ & Hgi). exists imp, i, g. auto.
      + intros imp' t' g' u Hi Hgi Eu. destruct (IC imp' t' g' Hi Hgi) as (q & Hq). exact (Max _ _ Hq Eu).
  Qed.
End Cells.

Section Methods.
  Variable k : cgraph.
  Hypothesis AD : admissible k.
  Variable label : string -> Q -> string.
  Variable it : nat -> list string -> list string.
  Hypothesis Hit : permuting it.
  Variables (m : weighting) (surface : bool) (gs : list (graph Q)) (important : list string).
  Hypothesis Hgs : distribute_weights k m surface = Ok gs.
  Hypothesis Hne : cg_times k <> [].
  Hypothesis Hl : NoDup (map (fun x => label (fst x) (snd x)) (list_prod important (cg_times k))).

  Notation path := (walk (N := GraphPaths.Qnum)).

  Lemma some_graphs : gs <> [].
  Proof using AD Hgs Hne.
    destruct (graph_facts k AD m surface gs Hgs) as [L _]. intros ->. apply Hne.
    now apply length_zero_iff_nil.
  Qed.

  Lemma path_connected g imp s q ws : s <> imp -> path g Ok "weight" imp s q ws -> connected g s.
  Proof using. intros N W. destruct W as [|u v w p ws [Hu _] _]; [contradiction|]. exists v. now left. Qed.

  (** A score of a species that is not a node is missing. *)
  Lemma missing {V} (sc : list (string * option V)) s : ~ In s (akeys sc) -> sget s sc = None.
  Proof using. intros H. apply (proj2 (aget_None String.eqb String.eqb_eq s sc)). exact H. Qed.

  Lemma xneg (x y z : ext GraphPaths.Qnum) : xltb x y = false -> xltb y z = false -> xltb x z = false.
  Proof using.
    destruct x, y, z; cbn; try congruence; try discriminate; try reflexivity.
    intros H1 H2. apply Qltb_false in H1, H2. apply Qltb_false. exact (Qle_trans _ _ _ H2 H1).
  Qed.
  Lemma xasym (x y : ext GraphPaths.Qnum) : xltb x y = true -> xltb y x = false.
  Proof using.
    destruct x, y; cbn; try congruence; try discriminate; try reflexivity.
    intros H1. apply Qltb_true in H1. apply Qltb_false. apply Qlt_le_weak, H1.
  Qed.

  Lemma rank_widest :
    exists r, ranking_values k (@xltb GraphPaths.Qnum) label (scores_bottleneck it) gs important = Ok r /\
      map fst r = assessed k important /\
      forall s, In s (cg_species k) -> ~ In s important -> ~ In s (cg_special k) -> exists o, sget s r = Some o /\
        (o = None <-> important = [] \/ forall t g, nth_error gs t = Some g -> ~ connected g s) /\
        (forall v, o = Some v ->
           (forall imp t g q ws, In imp important -> nth_error gs t = Some g ->
              path g Ok "weight" imp s q ws -> xle (width ws) v) /\
           ((exists imp t g q ws, In imp important /\ nth_error gs t = Some g /\
               path g Ok "weight" imp s q ws /\ v = width ws) \/
            (v = Num 0 /\ forall imp t g q ws, In imp important -> nth_error gs t = Some g ->
               ~ path g Ok "weight" imp s q ws))).
  Proof using AD Hgs Hne Hl Hit.
    destruct (graph_facts k AD m surface gs Hgs) as [L GF].
    assert (forall imp t g, nth_error gs t = Some g -> exists sc, scores_bottleneck it g imp = Ok sc /\ akeys sc = g_nodes g /\
      forall n, In n (g_nodes g) -> exists x, sget n sc = Some (Some x) /\
        (forall q ws, path g Ok "weight" imp n q ws -> xle (width ws) x) /\
        ((exists q ws, path g Ok "weight" imp n q ws /\ x = width ws) \/ x = Num 0)) as SC.
    { intros imp t g Hg. destruct (GF t g Hg) as [(W & D & _) P].
      assert (weighted (N := GraphPaths.Qnum) g Ok "weight") as Hw.
      { intros u v He. destruct (P u v He) as (w & Ew & Pw). exists w. split.
        - split; [exact He|]. exists w. auto.
        - cbn. apply Qltb_false. apply Qlt_le_weak, Pw. }
      destruct (widest Qnum_ok it Ok g "weight" imp Hit W Hw D (fun x => x)) as (ps & ws & E & _ & K & H).
      unfold scores_bottleneck. rewrite E. cbn [bind snd]. eexists. split; [reflexivity|]. split.
      { unfold akeys in *. rewrite map_map. exact K. }
      intros n Hn. destruct (H n Hn) as (p & x & _ & Ex & H1 & H2). exists x. split.
      { clear - Ex. induction ws as [|[a b] l IH]; cbn in *; [discriminate|].
        destruct (String.eqb n a); [congruence|auto]. }
      split; [exact H1|]. destruct H2 as [(_ & -> & _)|(q & l & _ & Wq & -> & _)]; [now right|left; eauto]. }
    destruct (rank_cells (@xltb GraphPaths.Qnum) xasym xneg k label (scores_bottleneck it) gs important) as (r & E & K & H);
      [exact some_graphs|apply (ad_names k AD)|exact L|exact Hl| |].
    { intros imp t g _ Hg. destruct (SC imp t g Hg) as (sc & Esc & _). eauto. }
    exists r. split; [exact E|]. split; [exact K|]. intros s Hs1 Hs2 Hs3.
    destruct (H s) as (o & Eo & Hnone & Hsome); [now apply assessed_In|]. exists o. split; [exact Eo|].
    assert (forall imp, In imp important -> s <> imp) as Nimp by (intros imp Hi ->; contradiction).
    assert (forall imp t g, nth_error gs t = Some g ->
      (value (scores_bottleneck it) s imp g = None /\ ~ connected g s) \/
      exists x, value (scores_bottleneck it) s imp g = Some x /\ connected g s /\
        (forall q ws, path g Ok "weight" imp s q ws -> xle (width ws) x) /\
        ((exists q ws, path g Ok "weight" imp s q ws /\ x = width ws) \/ x = Num 0)) as CV.
    { intros imp t g Hg. destruct (SC imp t g Hg) as (sc & Esc & Ksc & Hsc). destruct (GF t g Hg) as [(_ & _ & HN & _) _].
      unfold value, cell_value, cell_scores. cbn [fst snd]. rewrite Esc.
      destruct (in_dec string_dec s (g_nodes g)) as [Hin|Hout].
      - right. destruct (Hsc s Hin) as (x & Ex & X). rewrite Ex. exists x. split; [reflexivity|]. split; [now apply HN|exact X].
      - left. split; [|now rewrite <- HN]. rewrite missing; [reflexivity|]. now rewrite Ksc. }
    split.
    - rewrite Hnone. split.
      + intros Hc. destruct important as [|imp0 rest] eqn:Eimp; [now left|right]. intros t g Hg.
        destruct (CV imp0 t g Hg) as [[_ C]|(x & Ex & _)]; [exact C|].
        pose proof (eq_trans (eq_sym (Hc imp0 t g (or_introl eq_refl) Hg)) Ex). discriminate.
      + intros [Z|Hc] imp t g Hi Hg; [rewrite Z in Hi; contradiction|].
        destruct (CV imp t g Hg) as [[C _]|(x & _ & C & _)]; [exact C|]. exfalso. exact (Hc t g Hg C).
    - intros v Hv. destruct (Hsome v Hv) as [(imp & t & g & Hi & Hg & Ex) Max].
      assert (forall imp t g q ws, In imp important -> nth_error gs t = Some g -> path g Ok "weight" imp s q ws -> xle (width ws) v) as Up.
      { intros imp' t' g' q ws Hi' Hg' Hw'. destruct (CV imp' t' g' Hg') as [[_ C]|(x & Ex' & _ & B & _)].
        - exfalso. exact (C (path_connected g' imp' s q ws (Nimp imp' Hi') Hw')).
        - pose proof (Max imp' t' g' x Hi' Hg' Ex') as M. specialize (B q ws Hw'). unfold xle in *. exact (xneg _ _ _ M B). }
      split; [exact Up|].
      destruct (CV imp t g Hg) as [[C _]|(x & Ex' & _ & _ & [(q & ws & Hw & Exw)|Z])]; [pose proof (eq_trans (eq_sym C) Ex); discriminate| |].
      + left. exists imp, t, g, q, ws. pose proof (eq_trans (eq_sym Ex) Ex') as EE. injection EE as ->. auto.
      + right. pose proof (eq_trans (eq_sym Ex) Ex') as EE. injection EE as ->. split; [exact Z|]. intros imp' t' g' q ws Hi' Hg' Hw'.
        pose proof (Up imp' t' g' q ws Hi' Hg' Hw') as M. rewrite Z in M. destruct (GF t' g' Hg') as [_ P].
        pose proof (pos_weights g' imp' P s q ws Hw') as PW.
        pose proof (walk_nonempty g' imp' s q ws Hw' (Nimp imp' Hi')) as NE.
        assert (forall l, (forall w, In w l -> 0 < w) -> l <> [] -> exists w, @width GraphPaths.Qnum l = Num w /\ 0 < w) as WP.
        { clear. induction l as [|w l IH]; intros Hp Hn; [contradiction|]. unfold width. cbn [fold_right]. fold (@width GraphPaths.Qnum l).
          pose proof (Hp w (or_introl eq_refl)) as Pw. destruct l as [|w' l'].
          - exists w. split; [reflexivity|exact Pw].
          - destruct IH as (w0 & E0 & P0); [intros; apply Hp; now right|discriminate|]. rewrite E0. unfold xmin.
            destruct (xltb _ _); eauto. }
        destruct (WP ws PW NE) as (w & Ew & Pw). rewrite Ew in M. unfold xle in M. cbn in M. apply Qltb_false in M. exact (Qlt_not_le _ _ Pw M).
  Qed.

  (** [Rltb] orders like a number. *)
  Lemma rasym (x y : R) : nltb Rnum x y = true -> nltb Rnum y x = false.
  Proof using. cbn. intros H. apply Rltb_false. apply Rltb_true in H. Lra.lra. Qed.
  Lemma rneg (x y z : R) : nltb Rnum x y = false -> nltb Rnum y z = false -> nltb Rnum x z = false.
  Proof using. cbn. rewrite !Rltb_false. Lra.lra. Qed.

  (** 'max_product', where all weights are at most one. *)
  Lemma rank_product :
    m = DRG \/ m = DRGEP ->
    exists r, ranking_values k (nltb Rnum) label (scores_product it) gs important = Ok r /\
      map fst r = assessed k important /\
      forall s, In s (cg_species k) -> ~ In s important -> ~ In s (cg_special k) ->
        (forall imp t g q ws, In imp important -> nth_error gs t = Some g -> path g Ok "weight" imp s q ws -> ~ qproduct ws == 1) ->
        exists o, sget s r = Some o /\
        (o = None <-> important = [] \/ forall t g, nth_error gs t = Some g -> ~ connected g s) /\
        (forall v, o = Some v ->
           (forall imp t g q ws, In imp important -> nth_error gs t = Some g ->
              path g Ok "weight" imp s q ws -> (Q2R (qproduct ws) <= v)%R) /\
           ((exists imp t g q ws, In imp important /\ nth_error gs t = Some g /\
               path g Ok "weight" imp s q ws /\ v = Q2R (qproduct ws)) \/
            (v = 0%R /\ forall imp t g q ws, In imp important -> nth_error gs t = Some g ->
               ~ path g Ok "weight" imp s q ws))).
  Proof using AD Hgs Hne Hl Hit.
    intros Hm. assert (forall t g, nth_error gs t = Some g -> weights_in01 g) as W01.
    { destruct (normalised_graphs k AD m surface Hm) as (gs' & E & _ & H). rewrite Hgs in E. injection E as <-.
      intros t g Hg u v He. destruct (H t g Hg) as [_ Hw]. destruct (Hw u v He) as (_ & _ & _ & X). exact X. }
    destruct (graph_facts k AD m surface gs Hgs) as [L GF].
    assert (forall imp t g, nth_error gs t = Some g -> exists sc, scores_product it g imp = Ok sc /\ akeys sc = g_nodes g /\
      forall n, In n (g_nodes g) -> exists o, sget n sc = Some o /\
        (o = None <-> exists q ws, path g Ok "weight" imp n q ws /\ (qproduct ws == 1)%Q) /\
        (forall x, o = Some x ->
           (forall q ws, path g Ok "weight" imp n q ws -> (Q2R (qproduct ws) <= x)%R) /\
           ((exists q ws, path g Ok "weight" imp n q ws /\ x = Q2R (qproduct ws)) \/
            (x = 0%R /\ forall q ws, ~ path g Ok "weight" imp n q ws)))) as SC.
    { intros imp t g Hg. destruct (GF t g Hg) as [(W & D & _) P].
      destruct (max_product it g imp W Hit D (W01 t g Hg)) as (ps & sc & E & K & H).
      unfold scores_product. rewrite E. cbn [bind snd]. exists sc. auto. }
    destruct (rank_cells (nltb Rnum) rasym rneg k label (scores_product it) gs important) as (r & E & K & H);
      [exact some_graphs|apply (ad_names k AD)|exact L|exact Hl| |].
    { intros imp t g _ Hg. destruct (SC imp t g Hg) as (sc & Esc & _). eauto. }
    exists r. split; [exact E|]. split; [exact K|]. intros s Hs1 Hs2 Hs3 No1.
    destruct (H s) as (o & Eo & Hnone & Hsome); [now apply assessed_In|]. exists o. split; [exact Eo|].
    assert (forall imp, In imp important -> s <> imp) as Nimp by (intros imp Hi ->; contradiction).
    assert (forall imp t g, In imp important -> nth_error gs t = Some g ->
      (value (scores_product it) s imp g = None /\ ~ connected g s) \/
      exists x, value (scores_product it) s imp g = Some x /\ connected g s /\
        (forall q ws, path g Ok "weight" imp s q ws -> (Q2R (qproduct ws) <= x)%R) /\
           ((exists q ws, path g Ok "weight" imp s q ws /\ x = Q2R (qproduct ws)) \/
            (x = 0%R /\ forall q ws, ~ path g Ok "weight" imp s q ws))) as CV.
    { intros imp t g Hi Hg. destruct (SC imp t g Hg) as (sc & Esc & Ksc & Hsc). destruct (GF t g Hg) as [(_ & _ & HN & _) _].
      unfold value, cell_value, cell_scores. cbn [fst snd]. rewrite Esc.
      destruct (in_dec string_dec s (g_nodes g)) as [Hin|Hout].
      - right. destruct (Hsc s Hin) as ([x|] & Ex & X1 & X2).
        + rewrite Ex. exists x. split; [reflexivity|]. split; [now apply HN|exact (X2 x eq_refl)].
        + exfalso. destruct (proj1 X1 eq_refl) as (q & ws & Hw & H1). exact (No1 imp t g q ws Hi Hg Hw H1).
      - left. split; [|now rewrite <- HN]. rewrite missing; [reflexivity|]. now rewrite Ksc. }
    split.
    - rewrite Hnone. split.
      + intros Hc. destruct important as [|imp0 rest] eqn:Eimp; [now left|right]. intros t g Hg.
        destruct (CV imp0 t g (or_introl eq_refl) Hg) as [[_ C]|(x & Ex & _)]; [exact C|].
        pose proof (eq_trans (eq_sym (Hc imp0 t g (or_introl eq_refl) Hg)) Ex). discriminate.
      + intros [Z|Hc] imp t g Hi Hg; [rewrite Z in Hi; contradiction|].
        destruct (CV imp t g Hi Hg) as [[C _]|(x & _ & C & _)]; [exact C|]. exfalso. exact (Hc t g Hg C).
    - intros v Hv. destruct (Hsome v Hv) as [(imp & t & g & Hi & Hg & Ex) Max].
      assert (forall imp t g q ws, In imp important -> nth_error gs t = Some g -> path g Ok "weight" imp s q ws ->
                (Q2R (qproduct ws) <= v)%R) as Up.
      { intros imp' t' g' q ws Hi' Hg' Hw'. destruct (CV imp' t' g' Hi' Hg') as [[_ C]|(x & Ex' & _ & B & _)].
        - exfalso. exact (C (path_connected g' imp' s q ws (Nimp imp' Hi') Hw')).
        - pose proof (Max imp' t' g' x Hi' Hg' Ex') as M. cbn in M. apply Rltb_false in M. specialize (B q ws Hw'). Lra.lra. }
      split; [exact Up|].
      destruct (CV imp t g Hi Hg) as [[C _]|(x & Ex' & _ & _ & [(q & ws & Hw & Exw)|[Z _]])]; [pose proof (eq_trans (eq_sym C) Ex); discriminate| |].
      + left. exists imp, t, g, q, ws. pose proof (eq_trans (eq_sym Ex) Ex') as EE. injection EE as ->. auto.
      + right. pose proof (eq_trans (eq_sym Ex) Ex') as EE. injection EE as ->. split; [exact Z|]. intros imp' t' g' q ws Hi' Hg' Hw'.
        pose proof (Up imp' t' g' q ws Hi' Hg' Hw') as M. rewrite Z in M. destruct (GF t' g' Hg') as [_ P].
        pose proof (pos_weights g' imp' P s q ws Hw') as PW.
        assert (0 < qproduct ws) as PP.
        { clear - PW. induction ws as [|w ws IH]; [reflexivity|]. change (0 < w * qproduct ws).
          apply Qmult_lt_0_compat; [apply PW; now left|apply IH; intros; apply PW; now right]. }
        apply Q2R_pos in PP. Lra.lra.
  Qed.

  (** *** 'max_flow' *)
  Lemma uniform {A} (l : list A) (P : A -> nat -> Prop) :
    (forall a, In a l -> exists n, forall j, (n <= j)%nat -> P a j) -> exists n, forall j a, (n <= j)%nat -> In a l -> P a j.
  Proof using.
    induction l as [|a l IH]; intros H; [exists O; easy|].
    destruct IH as [n Hn]; [intros b Hb; apply H; now right|]. destruct (H a (or_introl eq_refl)) as [n' Hn'].
    exists (Nat.max n n'). intros j b Hj [<-|Hb]; [apply Hn'; lia|apply Hn; [lia|exact Hb]].
  Qed.

  Lemma all_scores (F : string -> res Q) (P : string -> Q -> Prop) l : (forall s, In s l -> exists x, F s = Ok x /\ P s x) ->
    exists sc, mapM (fun s => let* f := F s in Ok (s, Some f)) l = Ok sc /\
      forall s, In s l -> exists x, sget s sc = Some (Some x) /\ P s x.
  Proof using.
    induction l as [|a l IH]; intros H; [exists []; split; [reflexivity|easy]|].
    destruct IH as (sc & E & Hsc); [intros b Hb; apply H; now right|]. destruct (H a (or_introl eq_refl)) as (x & Ex & Px).
    cbn [mapM]. rewrite Ex. cbn [bind]. rewrite E. cbn [bind]. eexists. split; [reflexivity|].
    intros s Hs. cbn. destruct (String.eqb_spec s a) as [->|Ne]; [eauto|]. destruct Hs as [->|Hs]; [contradiction|auto].
  Qed.

  Lemma capacity_same (g : graph Q) cap cap' f x s t : capacity_of g Ok "weight" cap -> capacity_of g Ok "weight" cap' ->
    feasible (g_nodes g) cap' s t f x -> feasible (g_nodes g) cap s t f x.
  Proof using.
    intros C C' (F1 & F2 & F3). split; [|split; assumption]. intros u v Hu Hv. destruct (F1 u v Hu Hv) as [A B]. split; [exact A|].
    destruct (C u v) as [C1 C2], (C' u v) as [C1' C2'].
    assert ({In (u, v) (g_edges g)} + {~ In (u, v) (g_edges g)}) as [I|N].
    { apply in_dec. decide equality; apply string_dec. }
    - destruct (C1 I) as (a & c & Ea & Ec & Q1), (C1' I) as (a' & c' & Ea' & Ec' & Q1').
      rewrite Ea in Ea'. injection Ea' as <-. rewrite Ec in Ec'. injection Ec' as <-. rewrite Q1. now rewrite <- Q1'.
    - rewrite (C2 N). now rewrite <- (C2' N).
  Qed.

  Lemma flow_value g t s imp : nth_error gs t = Some g -> connected g s -> s <> imp ->
    exists n, forall j, (n <= j)%nat -> exists x, get_max_flow j it Ok (fun x => x) g s imp "weight" = Ok x /\ largest_flow g s imp x.
  Proof using AD Hgs Hit.
    intros Hg Hc Ne. destruct (graph_facts k AD m surface gs Hgs) as [_ GF]. destruct (GF t g Hg) as [(W & D & HN & _) P].
    destruct (max_flow it g Ok (fun x => x) s imp "weight" W Hit D (proj2 (HN s) Hc) Ne) as (n & x & cap & f & S & E & C & F & S1 & S2 & Cut).
    { intros u v He. destruct (P u v He) as (w & Ew & Pw). exists w, w. split; [exact Ew|]. split; [reflexivity|]. apply Qlt_le_weak, Pw. }
    exists n. intros j Hj. exists x. split; [exact (E j Hj)|]. split; [exists cap, f; auto|].
    intros cap' f' y C' F'. apply (max_flow_largest (g_nodes g) cap s imp f x f' y S); auto.
    - apply (wf_nodup g W).
    - now apply HN.
    - exact (capacity_same g cap cap' f' y s imp C C' F').
  Qed.

  Lemma rank_flow :
    important <> [] ->
    (forall s t g, In s (cg_species k) -> ~ In s important -> ~ In s (cg_special k) -> nth_error gs t = Some g -> connected g s) ->
    exists n, forall fuel, (n <= fuel)%nat ->
    exists r, ranking_values k Qltb label (scores_flow it fuel (assessed k important)) gs important = Ok r /\
      map fst r = assessed k important /\
      forall s, In s (cg_species k) -> ~ In s important -> ~ In s (cg_special k) -> exists v, sget s r = Some (Some v) /\
        (exists imp t g, In imp important /\ nth_error gs t = Some g /\ largest_flow g s imp v) /\
        (forall imp t g x, In imp important -> nth_error gs t = Some g -> largest_flow g s imp x -> x <= v).
  Proof using AD Hgs Hne Hl Hit.
    intros Hi0 Hcon. destruct (graph_facts k AD m surface gs Hgs) as [L GF].
    destruct (uniform (list_prod (assessed k important) (list_prod important gs))
      (fun a j => exists x, get_max_flow j it Ok (fun x => x) (snd (snd a)) (fst a) (fst (snd a)) "weight" = Ok x /\
                            largest_flow (snd (snd a)) (fst a) (fst (snd a)) x)) as [n Hn].
    { intros [s [imp g]] Ha. apply in_prod_iff in Ha as [Hs Ha]. apply in_prod_iff in Ha as [Hi Hg]. cbn [fst snd].
      apply assessed_In in Hs as (S1 & S2 & S3). apply In_nth_error in Hg as [t Hg].
      apply (flow_value g t s imp Hg); [eauto|]. intros ->. contradiction. }
    exists n. intros fuel Hf.
    assert (forall imp t g, In imp important -> nth_error gs t = Some g ->
      exists sc, scores_flow it fuel (assessed k important) g imp = Ok sc /\
        forall s, In s (assessed k important) -> exists x, sget s sc = Some (Some x) /\ largest_flow g s imp x) as SC.
    { intros imp t g Hi Hg. unfold scores_flow.
      apply (all_scores (fun s => get_max_flow fuel it Ok (fun x => x) g s imp "weight") (fun s x => largest_flow g s imp x)).
      intros s Hs. apply (Hn fuel (s, (imp, g)) Hf). apply in_prod; [exact Hs|]. apply in_prod; [exact Hi|]. eapply nth_error_In, Hg. }
    destruct (rank_cells Qltb) with (k := k) (label := label) (scores := scores_flow it fuel (assessed k important)) (gs := gs)
      (important := important) as (r & E & K & H);
      [| |exact some_graphs|apply (ad_names k AD)|exact L|exact Hl| |].
    { intros a b. rewrite Qltb_true, Qltb_false. apply Qlt_le_weak. }
    { intros a b c. rewrite !Qltb_false. intros H1 H2. exact (Qle_trans _ _ _ H2 H1). }
    { intros imp t g Hi Hg. destruct (SC imp t g Hi Hg) as (sc & Esc & _). eauto. }
    exists r. split; [exact E|]. split; [exact K|]. intros s S1 S2 S3.
    assert (In s (assessed k important)) as Ha by now apply assessed_In.
    destruct (H s Ha) as (o & Eo & Hnone & Hsome).
    assert (forall imp t g, In imp important -> nth_error gs t = Some g ->
      exists x, value (scores_flow it fuel (assessed k important)) s imp g = Some x /\ largest_flow g s imp x) as CV.
    { intros imp t g Hi Hg. destruct (SC imp t g Hi Hg) as (sc & Esc & Hsc). destruct (Hsc s Ha) as (x & Ex & Lx).
      exists x. split; [|exact Lx]. unfold value, cell_value, cell_scores. cbn [fst snd]. now rewrite Esc, Ex. }
    destruct o as [v|].
    - exists v. split; [exact Eo|]. destruct (Hsome v eq_refl) as [(imp & t & g & Hi & Hg & Ex) Max]. split.
      + exists imp, t, g. split; [exact Hi|]. split; [exact Hg|]. destruct (CV imp t g Hi Hg) as (x & Ex' & Lx).
        rewrite Ex in Ex'. injection Ex' as ->. exact Lx.
      + intros imp' t' g' x Hi' Hg' (( cap & f & C & F) & _). destruct (CV imp' t' g' Hi' Hg') as (y & Ey & _ & Ly).
        pose proof (Max imp' t' g' y Hi' Hg' Ey) as M. apply Qltb_false in M. specialize (Ly cap f x C F). exact (Qle_trans _ _ _ Ly M).
    - exfalso. pose proof (proj1 Hnone eq_refl) as No. destruct important as [|imp rest] eqn:Ei; [contradiction|].
      assert (exists g, nth_error gs O = Some g) as [g Hg].
      { pose proof some_graphs as SG. destruct (nth_error gs 0) as [g|] eqn:Eg; [eauto|]. apply nth_error_None in Eg.
        exfalso. apply SG, length_zero_iff_nil. lia. }
      destruct (CV imp O g (or_introl eq_refl) Hg) as (x & Ex & _). pose proof (eq_trans (eq_sym (No imp O g (or_introl eq_refl) Hg)) Ex).
      discriminate.
  Qed.
End Methods.

(** ** A concrete case *)
From Verif Require Import GraphExamples.
Definition over_g : graph Q := match distribute_weights over_k DRG true with Ok [g] => g | _ => graph_new end.
Example over_ok : admissible over_k /\ distribute_weights over_k DRG true = Ok [over_g] /\ cg_times over_k <> [] /\
  NoDup (map (fun x => ex_label (fst x) (snd x)) (list_prod ["A"] (cg_times over_k))).
Proof.
  split; [admissible_tac|]. split; [vm_compute; reflexivity|]. split; [discriminate|]. repeat constructor. cbn. tauto.
Qed.
Example over_widest : ranking_values over_k (@xltb GraphPaths.Qnum) ex_label (scores_bottleneck keep) [over_g] ["A"] =
  Ok [("B", Some (Num (2#3))); ("C", Some (Num (1#3)))].
Proof. vm_compute. reflexivity. Qed.
Lemma nth_single {A} (x y : A) t : nth_error [x] t = Some y -> y = x.
Proof. destruct t as [|[|t]]; cbn [nth_error]; intros H; [now injection H as <-|discriminate H|discriminate H]. Qed.
Lemma over_edges : g_edges over_g = [("B", "A"); ("C", "A"); ("A", "B"); ("A", "C")].
Proof. vm_compute. reflexivity. Qed.
Example over_flow : (forall s t g, In s (cg_species over_k) -> ~ In s ["A"] -> ~ In s (cg_special over_k) ->
    nth_error [over_g] t = Some g -> connected g s) /\
  ranking_values over_k Qltb ex_label (scores_flow keep 5 (assessed over_k ["A"])) [over_g] ["A"] =
  Ok [("B", Some (2#3)); ("C", Some (1#3))].
Proof.
  split; [|vm_compute; reflexivity]. intros s t g Hs N _ Hg. apply nth_single in Hg as ->.
  unfold connected. rewrite over_edges.
  destruct Hs as [<-|[<-|[<-|[]]]]; [exfalso; apply N; now left| |]; exists "A"; left; cbn; tauto.
Qed.
Definition small_arc (e : string * string) : bool :=
  match edge_attribute over_g (fst e) (snd e) "weight" with
  | Ok w => Qltb 0 w && (if String.eqb (snd e) "A" then Qltb w 1 else Qle_bool w 1)
  | Err _ => false
  end.
Lemma small_arcs : forallb small_arc (g_edges over_g) = true.
Proof. vm_compute. reflexivity. Qed.
(** Every path to A has a product below one. *)
Example over_products t g q ws s : nth_error [over_g] t = Some g ->
  walk (N := GraphPaths.Qnum) g Ok "weight" "A" s q ws -> s <> "A" -> ~ qproduct ws == 1.
Proof.
  intros Hg W. apply nth_single in Hg as ->.
  assert ((s = "A" /\ ws = []) \/ qproduct ws < 1) as [[-> _]|H]; [|contradiction|intros _ E; rewrite E in H; discriminate H].
  induction W as [|u v w p ws [He (a & Ea & Ew)] W IH]; [now left|right].
  injection Ew as ->. pose proof (proj1 (forallb_forall _ _) small_arcs _ He) as B. unfold small_arc in B. cbn [fst snd] in B.
  rewrite Ea in B. apply andb_true_iff in B as [B1 B2]. apply Qltb_true in B1.
  change (w * qproduct ws < 1). destruct IH as [[-> ->]|IH].
  - rewrite String.eqb_refl in B2. apply Qltb_true in B2. change (w * 1 < 1). rewrite Qmult_1_r. exact B2.
  - assert (w <= 1) as B3.
    { destruct (String.eqb v "A"); [apply Qlt_le_weak, Qltb_true, B2|apply Qle_bool_iff, B2]. }
    apply (Qlt_le_trans _ (w * 1)); [|rewrite Qmult_1_r; exact B3]. apply Qmult_lt_l; assumption.
Qed.
