(** The scores in the histories of reductions. *)
From Coq Require Import Permutation Sorted Lqa Lia.
From Verif Require Import Base BaseLemmas Species Reactions Chemistry ChemSpec ChemDisable ChemInv ChemHist ChemLoad ChemMain ChemGetters ChemMore
  Graph GraphSpec GraphProofs GraphPaths ChemGraph ChemGraphSpec ChemGraphProofs ChemRanking Morris MorrisStats Tables InitialGuess Workspace
  GraphInit GraphInitSpec GraphInitProofs GraphInitRank
  GlobalModel GlobalSpec GlobalFiles GlobalLog GlobalProofs GlobalMore Reduction ReductionSpec ReductionChem ReductionRun ReductionProofs ReductionMain ScoresSpec.
Open Scope list_scope.

Section R.
  Variables (E : env) (fhash : string -> option string) (default_dir : string -> res path) (scan : list path -> list path).
  Variable backend : nat -> solving.
  Variable k : rconf.
  Hypothesis scan_perm : forall l, Permutation (scan l) l.
  Variable c0 : chem.
  Hypothesis c0_reachable : reachable E c0.
  Hypothesis c0_declared : declared_exist c0.
  Hypothesis max_nonneg : (0 <= rc_max k)%Q.

  Lemma step_score st sp score st' row : inv E fhash k c0 true st -> remove_one E fhash default_dir scan backend k st sp score true = (st', Ok row) ->
    h_species row = Some sp /\ h_score row = Some score.
  Proof using scan_perm c0_declared.
    intros I R. destruct (remove_one_step E fhash default_dir scan backend k scan_perm c0 c0_declared true st sp score st' row I R)
      as (H1 & H2 & H3 & H4 & H5 & H6 & H7 & _). auto.
  Qed.

  Lemma loop_follows max l0 : forall m st l streak st' p, inv E fhash k c0 true st ->
    reduction_loop E fhash default_dir scan backend k m (Static l0) max st l streak = Some (st', Ok tt) ->
    l0 = p ++ l -> follows p (r_hist st) -> follows l0 (r_hist st').
  Proof using scan_perm c0_declared.
    assert (MORE : forall p q h, follows p h -> follows (p ++ q) h).
    { intros p q h (r & rows & sub & H1 & H2 & H3 & H4 & H5). exists r, rows, sub. repeat (split; [assumption|]).
      split; [|exact H5]. rewrite <- (app_nil_r sub). apply subseq_app; [exact H4|constructor]. }
    induction m as [|m IH]; intros st l streak st' p I; [discriminate|]. cbn [Reduction.reduction_loop].
    destruct l as [|y l1] eqn:HL.
    { intros H -> F. injection H as <-. now apply MORE. }
    rewrite <- HL in *. destruct (negb (ascendingb (map snd l))); [discriminate|].
    destruct (next_species (r_tried st) l) as [[[sp score] l']|] eqn:NX.
    2: { intros H -> F. injection H as <-. now apply MORE. }
    destruct (next_inv _ _ _ _ _ NX) as (pre & LE & NT & PT).
    destruct (memS sp (r_eligible st)) eqn:EL.
    2: { intros H L0 F. apply (IH st l' streak st' (p ++ pre ++ [(sp, score)])) in H; [exact H|exact I| |].
         - rewrite L0, LE, <- !app_assoc. reflexivity.
         - now apply MORE. }
    destruct (Reduction.remove_one E fhash default_dir scan backend k st sp score true) as [st1 [row|e]] eqn:RM; [|discriminate].
    destruct (step_facts E fhash default_dir scan backend k scan_perm c0 c0_declared st sp score st1 row I RM) as (I1 & S1 & S2 & S3 & S4 & S5).
    destruct (step_score st sp score st1 row I RM) as [R1 R2]. cbv zeta. intros H L0 F.
    assert (F1 : follows (p ++ pre ++ [(sp, score)]) (r_hist st1)).
    { destruct F as (r & rows & sub & H1 & H2 & H3 & H4 & H5). exists r, (rows ++ [row]), (sub ++ [(sp, score)]).
      split; [now rewrite S4, H1|]. split; [exact H2|]. split; [exact H3|]. split.
      - apply subseq_app; [exact H4|]. change [(sp, score)] with ([] ++ [(sp, score)]) at 1. apply subseq_app; [constructor|apply subseq_refl].
      - rewrite !map_app, H5. cbn [map fst snd]. now rewrite R1, R2. }
    assert (L1 : l0 = (p ++ pre ++ [(sp, score)]) ++ l') by (rewrite L0, LE, <- !app_assoc; reflexivity).
    destruct (Z.ltb max _ || _).
    - injection H as <-. rewrite L1. now apply MORE.
    - apply (IH st1 l' _ st' (p ++ pre ++ [(sp, score)])) in H; [exact H|exact I1|exact L1|exact F1].
  Qed.

  Lemma base_row st st1 : run_base_case E fhash default_dir scan backend k st = (st1, Ok tt) ->
    exists r, r_hist st1 = [r] /\ h_species r = None /\ h_score r = None.
  Proof.
    unfold run_base_case. destruct (r_hist st); [|discriminate]. destruct (r_tried st); [|discriminate].
    destruct (r_base st); [discriminate|]. destruct (r_last st); [discriminate|].
    destruct (run_model _ _ _ _ _ _ _ _) as [st2 [[]|]]; [|discriminate]. unfold log_history.
    destruct (put _ _ _) as [s [[]|]]; [|discriminate]. destruct (get_solution _) as [t|]; [|discriminate].
    intros H. injection H as <-. cbn. eexists. split; [reflexivity|]. split; reflexivity.
  Qed.

  Theorem static_follows g s s1 st l max m st' : fs_ok s -> gm_chem g = Some c0 -> r_init k g s = (s1, Ok st) ->
    run_reduction E fhash default_dir scan backend k m st (Static l) max = Some (st', Ok tt) -> follows l (r_hist st').
  Proof using scan_perm c0_reachable c0_declared max_nonneg.
    intros O C H. unfold run_reduction.
    destruct (gm_chem (r_gm st)) as [c|]; [|discriminate].
    destruct (get_disabled_species c); [|discriminate].
    destruct (get_disabled_reactions c); [|discriminate].
    destruct (Reduction.run_base_case E fhash default_dir scan backend k st) as [st1 [[]|]] eqn:B; [|discriminate].
    cbn [rank].
    destruct (Reduction.reduction_loop E fhash default_dir scan backend k m (Static l) max st1 l 0%Z) as [[st2 [[]|]]|] eqn:L; [|discriminate|discriminate].
    destruct (base_case E fhash default_dir scan backend k scan_perm c0 c0_reachable max_nonneg true g s s1 st st1 O C H B) as (I & _).
    destruct (base_row st st1 B) as (r & Hr & Sr & Scr).
    destruct (gm_chem (r_gm st2)) as [c2|]; [|discriminate]. intros X. injection X as <-. cbn [with_gm r_hist].
    apply (loop_follows max l m st1 l 0%Z st2 []) in L; [exact L|exact I|reflexivity|].
    exists r, [], []. rewrite Hr. repeat (split; [first [reflexivity|assumption]|]). split; [constructor|reflexivity].
  Qed.
End R.

Lemma subseq_In {A} (s l : list A) x : subseq s l -> In x s -> In x l.
Proof. induction 1; cbn [In]; intuition. Qed.

Lemma ascending_tail a l : ascendingb (a :: l) = true -> ascendingb l = true /\ forall b, In b l -> a <= b.
Proof.
  revert a. induction l as [|b l IH]; intros a H; [split; [reflexivity|intros b []]|].
  cbn [ascendingb] in H. apply andb_true_iff in H. destruct H as [H1 H2]. apply Qle_bool_iff in H1. split; [exact H2|].
  destruct (IH b H2) as [_ H3]. intros c [<-|Hc]; [exact H1|]. specialize (H3 c Hc). lra.
Qed.

Lemma subseq_order (s l : list (string * Q)) a p b q c : subseq s l -> ascendingb (map snd l) = true ->
  s = a ++ p :: b ++ q :: c -> snd p <= snd q.
Proof.
  intros S. revert a. induction S as [l|x s l S IH|x s l S IH]; intros a A H.
  - destruct a; discriminate.
  - cbn [map] in A. apply ascending_tail in A. destruct A as [A1 A2]. destruct a as [|y a]; cbn [app] in H; injection H as -> H.
    + apply A2, in_map. apply (subseq_In s); [exact S|]. rewrite H. apply in_or_app. right. now left.
    + now apply (IH a).
  - cbn [map] in A. apply ascending_tail in A. destruct A as [A1 A2]. now apply (IH a).
Qed.

Lemma map_split {A B C} (f : A -> C) (g : B -> C) l : forall m a p b q c, map f l = map g m -> l = a ++ p :: b ++ q :: c ->
  exists a' p' b' q' c', m = a' ++ p' :: b' ++ q' :: c' /\ f p = g p' /\ f q = g q'.
Proof.
  intros m a p b q c H ->. rewrite map_app in H. cbn [map] in H. rewrite map_app in H. cbn [map] in H.
  symmetry in H. apply map_eq_app in H. destruct H as (a' & m1 & -> & _ & H).
  apply map_eq_cons in H. destruct H as (p' & m2 & -> & Hp & H).
  apply map_eq_app in H. destruct H as (b' & m3 & -> & _ & H). apply map_eq_cons in H. destruct H as (q' & c' & -> & Hq & _).
  exists a', p', b', q', c'. auto.
Qed.

Lemma best_path_unique gs important s v w : best_path gs important s v -> best_path gs important s w -> v == w.
Proof.
  intros [V1 [(i1 & t1 & g1 & q1 & w1 & I1 & N1 & W1 & E1)|[E1 V2]]] [U1 [(i2 & t2 & g2 & q2 & w2 & I2 & N2 & W2 & E2)|[E2 U2]]].
  - specialize (V1 i2 t2 g2 q2 w2 I2 N2 W2). specialize (U1 i1 t1 g1 q1 w1 I1 N1 W1). lra.
  - elim (U2 i1 t1 g1 q1 w1 I1 N1 W1).
  - elim (V2 i2 t2 g2 q2 w2 I2 N2 W2).
  - lra.
Qed.

Section Driven.
  Variables (E : env) (fhash : string -> option string) (default_dir : string -> res path) (scan : list path -> list path).
  Variable backend : nat -> solving.
  Variable k : rconf.
  Hypothesis scan_perm : forall l, Permutation (scan l) l.
  Variable c0 : chem.
  Hypothesis c0_reachable : reachable E c0.
  Hypothesis c0_declared : declared_exist c0.
  Hypothesis max_nonneg : (0 <= rc_max k)%Q.
  Variables (g : gmodel) (s s1 : gfs) (st st' : rstate) (l : list (string * Q)) (max : Z) (m : nat).
  Hypothesis Hs : fs_ok s.
  Hypothesis Hg : gm_chem g = Some c0.
  Hypothesis Hi : r_init k g s = (s1, Ok st).
  Hypothesis Hrun : run_reduction E fhash default_dir scan backend k m st (Static l) max = Some (st', Ok tt).

  Lemma was_ascending : ascendingb (map snd l) = true.
  Proof using Hrun.
    clear - Hrun. revert Hrun. unfold run_reduction. destruct (gm_chem (r_gm st)) as [c|]; [|discriminate].
    destruct (get_disabled_species c); [|discriminate]. destruct (get_disabled_reactions c); [|discriminate].
    destruct (run_base_case E fhash default_dir scan backend k st) as [st1 [[]|]]; [|discriminate]. cbn [rank].
    destruct l as [|y l1]; [reflexivity|]. destruct m as [|n]; [discriminate|]. cbn [reduction_loop].
    destruct (ascendingb (map snd (y :: l1))); [reflexivity|]. discriminate.
  Qed.

  (** The scores are those of the ranking and do not decrease. *)
  Theorem scores_ascend : exists r rows, r_hist st' = r :: rows /\ h_species r = None /\ h_score r = None /\
    (forall x, In x rows -> exists n v, h_species x = Some n /\ h_score x = Some v /\ In (n, v) l) /\
    (forall a x b y c, rows = a ++ x :: b ++ y :: c ->
       exists v w, h_score x = Some v /\ h_score y = Some w /\ v <= w).
  Proof using scan_perm c0_reachable c0_declared max_nonneg Hs Hg Hi Hrun.
    destruct (static_follows E fhash default_dir scan backend k scan_perm c0 c0_reachable c0_declared max_nonneg g s s1 st l max m st' Hs Hg Hi Hrun)
      as (r & rows & sub & H1 & H2 & H3 & H4 & H5).
    exists r, rows. repeat (split; [assumption|]). split.
    - intros x Hx. apply (in_map (fun x => (h_species x, h_score x))) in Hx. rewrite H5 in Hx. apply in_map_iff in Hx.
      destruct Hx as ([n v] & X & Hx). injection X as X1 X2. exists n, v. split; [auto|]. split; [auto|]. now apply (subseq_In sub).
    - intros a x b y c Hr. destruct (map_split _ _ rows sub a x b y c H5 Hr) as (a' & p & b' & q & c' & Hsub & Hp & Hq).
      injection Hp as _ P. injection Hq as _ Q. exists (snd p), (snd q). split; [exact P|]. split; [exact Q|].
      apply (subseq_order sub l a' p b' q c' H4 was_ascending Hsub).
  Qed.

  Variables (kg : cgraph) (label : string -> Q -> string) (it : nat -> list string -> list string).
  Variables (w : weighting) (surface : bool) (gs : list (graph Q)) (important : list string) (rk : list (string * option Q)).
  Hypothesis AD : admissible kg.
  Hypothesis Hit : permuting it.
  Hypothesis Hgs : distribute_weights kg w surface = Ok gs.
  Hypothesis Hne : cg_times kg <> [].
  Hypothesis Hl : NoDup (map (fun x => label (fst x) (snd x)) (list_prod important (cg_times kg))).
  Hypothesis Hrk : ranking_values kg Graph.Qltb label (scores_shortest it) gs important = Ok rk.
  Hypothesis Hsame : Permutation rk (map (fun p => (fst p, Some (snd p))) l).

  Lemma ranked_best n v : In (n, v) l -> best_path gs important n v /\ In n (cg_species kg) /\ ~ In n important /\ ~ In n (cg_special kg).
  Proof using AD Hit Hgs Hne Hl Hrk Hsame.
    intros H. assert (X : In (n, Some v) rk).
    { apply (Permutation_in _ (Permutation_sym Hsame)). apply in_map_iff. exists (n, v). auto. }
    destruct (rank_shortest kg AD label it Hit w surface gs important Hgs Hne Hl) as (r & R1 & R2 & R3).
    assert (X0 : r = rk) by (apply (f_equal (fun x => match x with Ok y => y | Err _ => rk end)) in R1; rewrite Hrk in R1; auto). subst r.
    assert (A : In n (assessed kg important)) by (rewrite <- R2; apply in_map_iff; exists (n, Some v); auto).
    pose proof (proj1 (assessed_In kg important n) A) as (A1 & A2 & A3).
    destruct (R3 n A1 A2 A3) as (o & Ho & _ & Hv).
    assert (ND : NoDup (map fst rk)).
    { rewrite R2. unfold assessed. apply NoDup_filter, (ad_names kg AD). }
    apply (In_aget String.eqb Seqb_spec) in X; [|exact ND]. assert (o = Some v) by congruence. subst o.
    split; [exact (Hv v eq_refl)|]. auto.
  Qed.

  Theorem graph_driven : exists r rows, r_hist st' = r :: rows /\
    (forall x, In x rows -> exists n v, h_species x = Some n /\ h_score x = Some v /\ best_path gs important n v /\
       In n (cg_species kg) /\ ~ In n important /\ ~ In n (cg_special kg)) /\
    (forall a x b y c, rows = a ++ x :: b ++ y :: c ->
       exists n1 n2, h_species x = Some n1 /\ h_species y = Some n2 /\
         forall v1 v2, best_path gs important n1 v1 -> best_path gs important n2 v2 -> v1 <= v2).
  Proof using scan_perm c0_reachable c0_declared max_nonneg Hs Hg Hi Hrun AD Hit Hgs Hne Hl Hrk Hsame.
    destruct scores_ascend as (r & rows & H1 & _ & _ & H2 & H3). exists r, rows. split; [exact H1|]. split.
    - intros x Hx. destruct (H2 x Hx) as (n & v & N & V & Hnv). exists n, v. split; [exact N|]. split; [exact V|]. now apply ranked_best.
    - intros a x b y c Hr.
      assert (Hx : In x rows) by (rewrite Hr; apply in_or_app; right; now left).
      assert (Hy : In y rows) by (rewrite Hr; apply in_or_app; right; right; apply in_or_app; right; now left).
      destruct (H2 x Hx) as (n1 & u1 & N1 & V1 & L1). destruct (H2 y Hy) as (n2 & u2 & N2 & V2 & L2).
      exists n1, n2. split; [exact N1|]. split; [exact N2|]. intros v1 v2 B1 B2.
      destruct (H3 a x b y c Hr) as (w1 & w2 & W1 & W2 & LE). assert (w1 = u1) by congruence. assert (w2 = u2) by congruence. subst w1 w2.
      pose proof (best_path_unique _ _ _ _ _ B1 (proj1 (ranked_best n1 u1 L1))).
      pose proof (best_path_unique _ _ _ _ _ B2 (proj1 (ranked_best n2 u2 L2))). lra.
  Qed.
End Driven.

Lemma times_nonempty c par rates fluxes kg : Inv c -> assert_consistency c = Ok tt -> dict_rets c -> rectangular rates ->
  cgraph_init c par rates fluxes = Ok kg -> fr_rows rates <> [] -> cg_times kg <> [].
Proof.
  intros I A D RC K N H. pose proof (GraphInitSpec.h_times _ _ _ _ _ (k_holds c I A D par rates fluxes kg RC K)) as L.
  rewrite H in L. destruct (fr_rows rates); [contradiction|discriminate].
Qed.

Theorem chem_driven E fhash default_dir scan backend k c g s s1 st st' l max m par rates fluxes kg r z label it w surface gs important rk :
  (forall l, Permutation (scan l) l) -> reachable E c -> declared_exist c -> (0 <= rc_max k)%Q ->
  assert_consistency c = Ok tt -> dict_rets c -> rectangular rates -> cgraph_init c par rates fluxes = Ok kg ->
  rates_nonneg rates -> sget "radius" par = Some r -> sget "length" par = Some z -> (0 < r)%Q -> (0 < z)%Q ->
  permuting it -> fr_rows rates <> [] ->
  NoDup (map (fun x => label (fst x) (snd x)) (list_prod important (cg_times kg))) ->
  distribute_weights kg w surface = Ok gs -> ranking_values kg Graph.Qltb label (scores_shortest it) gs important = Ok rk ->
  Permutation rk (map (fun p => (fst p, Some (snd p))) l) ->
  fs_ok s -> gm_chem g = Some c -> r_init k g s = (s1, Ok st) ->
  run_reduction E fhash default_dir scan backend k m st (Static l) max = Some (st', Ok tt) ->
  exists r rows, r_hist st' = r :: rows /\
    (forall x, In x rows -> exists n v, h_species x = Some n /\ h_score x = Some v /\ best_path gs important n v /\
       In n (map sp_name (enabled_species c)) /\ ~ In n important) /\
    (forall a x b y c, rows = a ++ x :: b ++ y :: c ->
       exists n1 n2, h_species x = Some n1 /\ h_species y = Some n2 /\
         forall v1 v2, best_path gs important n1 v1 -> best_path gs important n2 v2 -> v1 <= v2).
Proof.
  intros SP R DE MX A D RC K RN Er Ez Pr Pz Hit Hne Hl Hgs Hrk Hp O C H1 H2. pose proof (reachable_Inv E c R) as I.
  pose proof (k_admissible c I A D par rates fluxes kg RC K r z RN Er Ez Pr Pz) as AD.
  pose proof (times_nonempty c par rates fluxes kg I A D RC K Hne) as TN.
  destruct (graph_driven E fhash default_dir scan backend k SP c R DE MX g s s1 st st' l max m O C H1 H2 kg label it w surface gs important rk
    AD Hit Hgs TN Hl Hrk Hp) as (row & rows & X1 & X2 & X3).
  exists row, rows. split; [exact X1|]. split; [|exact X3]. intros x Hx.
  destruct (X2 x Hx) as (n & v & N & V & B & S & NI & _). exists n, v. repeat (split; [assumption|]). split; [|exact NI].
  rewrite <- (GraphInitSpec.h_species _ _ _ _ _ (k_holds c I A D par rates fluxes kg RC K)). exact S.
Qed.
