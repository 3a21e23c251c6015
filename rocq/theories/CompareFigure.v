(** Comparisons of reduction runs: the whole figure. *)
From Coq Require Import Permutation Lqa Qabs Sorted.
From Verif Require Import Base BaseLemmas Species Reactions Chemistry ChemSpec Morris MorrisStats Tables InitialGuess
  GlobalModel GlobalSpec Reduction ReductionSpec ReductionProofs Compare CompareSpec CompareText CompareRun CompareDraw CompareMain.
Open Scope list_scope.

(** ** The drawings of one run *)

Definition fits (a : plot_args) (m : Q) (d : drawn_run) : Prop :=
  (m == rc_max (d_conf d))%Q /\ starts_well m (d_hist d) /\
  (pa_annotate a = true -> d_style d <> ""%string /\ d_dead d <> ""%string) /\
  (forall r, In r (d_hist d) -> dead_end m r = true -> h_species r <> None) /\
  (forall r, In r (d_hist d) -> h_success r = Some true -> notneg (h_base r)).

Lemma filter_last {A} (f : A -> bool) (h : list A) l hs : rev (filter f h) = l :: hs ->
  exists ha hb, h = ha ++ l :: hb /\ f l = true /\ forall q, In q hb -> f q = false.
Proof.
  intros R. assert (EF : filter f h = rev hs ++ [l]) by (rewrite <- (rev_involutive (filter f h)), R; reflexivity). clear R. revert EF.
  generalize (rev hs). induction h as [|q h IH]; intros pre X; [destruct pre; discriminate|]. cbn [filter] in X. destruct (f q) eqn:Q.
  - destruct pre as [|z pre].
    + injection X as -> X. exists [], h. split; [reflexivity|]. split; [exact Q|]. intros y Y. destruct (f y) eqn:Z; [|reflexivity].
      assert (J : In y (filter f h)) by (apply filter_In; auto). rewrite X in J. contradiction.
    + injection X as <- X. destruct (IH pre X) as (ha & hb & -> & A0 & A1). exists (q :: ha), hb. auto.
  - destruct (IH pre X) as (ha & hb & -> & A0 & A1). exists (q :: ha), hb. auto.
Qed.

Lemma text_of_at a r raw style : style <> ""%string -> text_at a r raw style (text_of a style (prettify (pa_names a) raw) (place r)).
Proof.
  intros N. destruct style as [|c rest]; [congruence|]. destruct (place_spot r) as [P1 P2].
  exists (prettify (pa_names a) raw), (fst (place r)), (snd (place r)), c, rest. split; [apply prettify_ok|]. split; [now split|].
  split; [reflexivity|]. unfold text_of, text_pos. cbn [colour_of fst snd]. f_equal. f_equal. destruct (snd (place r)); reflexivity.
Qed.

Lemma drop_last_ok style : (exists c, (drop_last style ++ String c EmptyString)%string = style) \/ (drop_last style = ""%string /\ style = ""%string).
Proof.
  unfold drop_last. destruct style as [|c s]; [now right|left].
  assert (N : chars (String c s) <> []) by discriminate.
  exists (List.last (chars (String c s)) c).
  rewrite <- (str_of_chars (String c s)) at 3. rewrite (app_removelast_last c N) at 3.
  set (z := List.last _ _). generalize (removelast (chars (String c s))). intros l. induction l as [|y l IH]; [reflexivity|].
  change (String y (str_of l ++ String z EmptyString) = String y (str_of (l ++ [z]))). f_equal. exact IH.
Qed.

Lemma eliminated_join r : eliminated r = str_join ", " (match h_species r with Some y => y :: h_more r | None => [] end).
Proof. unfold eliminated. destruct (h_species r) as [y|]; [|reflexivity]. destruct (h_more r); reflexivity. Qed.

Section Run.
  Variables (a : plot_args) (m : Q) (d : drawn_run).
  Hypothesis F : fits a m d.

  Lemma on r : on_line m r = true <-> stays (d_conf d) true r.
  Proof using F. exact (on_line_iff m (d_conf d) (proj1 F) r). Qed.
  Lemma dead r : dead_end m r = true <-> h_success r = Some true /\ over_limit (d_conf d) (h_base r).
  Proof using F. exact (dead_end_iff m (d_conf d) (proj1 F) r). Qed.

  Lemma last_on_from before p : last_on m before = Some p <->
    exists h1 h2, before = h1 ++ p :: h2 /\ stays (d_conf d) true p /\ forall q, In q h2 -> ~ stays (d_conf d) true q.
  Proof using F.
    unfold last_on. split.
    - destruct (rev (filter (on_line m) before)) as [|l hs] eqn:R; [discriminate|]. intros X. injection X as ->.
      destruct (filter_last _ _ _ _ R) as (ha & hb & E1 & E2 & E3). exists ha, hb. split; [exact E1|]. split; [now apply on|].
      intros q I S. apply on in S. rewrite (E3 q I) in S. discriminate.
    - intros (h1 & h2 & -> & S & N). rewrite filter_app. cbn [filter]. rewrite (proj2 (on p) S), rev_app_distr. cbn [rev].
      assert (Z : filter (on_line m) h2 = []).
      { clear -N F. induction h2 as [|q h2 IH]; [reflexivity|]. cbn [filter]. destruct (on_line m q) eqn:O.
        - apply on in O. exfalso. apply (N q); [now left|exact O].
        - apply IH. intros r I. apply N. now right. }
      rewrite Z. reflexivity.
  Qed.

  Lemma dead_draw_In x style rows before : In x (dead_draw a m style before rows) <->
    exists p r r1 r2, rows = r1 ++ r :: r2 /\ dead_end m r = true /\ last_on m (before ++ r1) = Some p /\ In x (dead_one a m style p r).
  Proof.
    revert before. induction rows as [|q rows IH]; intros before.
    - cbn. split; [easy|]. intros (p & r & r1 & r2 & X & _). destruct r1; discriminate.
    - cbn [dead_draw]. rewrite in_app_iff, IH. split.
      + intros [H|(p & r & r1 & r2 & E1 & D & L & I)].
        * destruct (dead_end m q) eqn:D; [|contradiction]. destruct (last_on m before) as [p|] eqn:L; [|contradiction].
          exists p, q, [], rows. rewrite app_nil_r. auto.
        * exists p, r, (q :: r1), r2. split; [now rewrite E1|]. rewrite <- app_assoc in L. auto.
      + intros (p & r & [|z r1] & r2 & E1 & D & L & I).
        * injection E1 as -> ->. left. rewrite app_nil_r in L. now rewrite D, L.
        * injection E1 as <- ->. right. exists p, r, r1, r2. rewrite <- app_assoc. auto.
  Qed.

  Lemma dead_from p r : dead_end_from (d_conf d) (d_hist d) p r <->
    exists r1 r2, d_hist d = r1 ++ r :: r2 /\ dead_end m r = true /\ last_on m r1 = Some p.
  Proof using F.
    split.
    - intros (h1 & h2 & h3 & EH & S & N & S2 & O). exists (h1 ++ p :: h2), h3. split; [rewrite EH, <- app_assoc; reflexivity|].
      split; [now apply dead|]. apply last_on_from. exists h1, h2. auto.
    - intros (r1 & r2 & EH & D & L). apply last_on_from in L. destruct L as (h1 & h2 & -> & S & N). apply dead in D.
      exists h1, h2, r2. rewrite <- app_assoc in EH. cbn [app] in EH. split; [exact EH|]. split; [exact S|]. split; [exact N|exact D].
  Qed.

  Lemma line_run : run_line d (DLine (map place (filter (on_line m) (d_hist d))) (d_style d) (Some (d_label d))).
  Proof using F.
    exists (filter (on_line m) (d_hist d)), (map place (filter (on_line m) (d_hist d))).
    split; [apply picked_filter; exact on|]. split; [apply places_spots|]. split; [|reflexivity].
    pose proof F as (_ & (r & h' & EH & O & _) & _). rewrite EH. cbn [filter]. rewrite O. discriminate.
  Qed.

  Variables (l : hrow) (hs : list hrow).
  Hypothesis L : rev (filter (on_line m) (d_hist d)) = l :: hs.
  Let part : list drawing := run_draw a m (d_style d) (d_dead d) (d_label d) (d_hist d) l.

  Lemma part_line : exists x, In x part /\ run_line d x.
  Proof using F.
    eexists. split; [|exact line_run]. unfold part, run_draw. apply in_or_app. right. now left.
  Qed.
  Lemma part_dead p r : pa_dead_ends a = true -> dead_end_from (d_conf d) (d_hist d) p r ->
    exists x y, In x part /\ dead_line d p r x /\ In y part /\ dead_point d r y.
  Proof using F.
    intros P D. apply dead_from in D. destruct D as (r1 & r2 & EH & D & LO).
    assert (I : forall x, In x (dead_one a m (d_dead d) p r) -> In x part).
    { intros x X. unfold part, run_draw. rewrite P. apply in_or_app. right. apply in_or_app. right. apply in_or_app. right.
      apply dead_draw_In. exists p, r, r1, r2. auto. }
    exists (DLine [place p; place r] (drop_last (d_dead d)) None), (DLine [place r] (d_dead d) None).
    split; [apply I; now left|]. split.
    { exists [place p; place r], (drop_last (d_dead d)). split; [exact (places_spots [p; r])|]. split; [reflexivity|]. apply drop_last_ok. }
    split; [apply I; right; now left|]. exists [place r]. split; [exact (places_spots [r])|reflexivity].
  Qed.
  Lemma part_note r : pa_annotate a = true -> In r (d_hist d) -> stays (d_conf d) true r ->
    exists x, In x part /\ text_at a r (str_join ", " (match h_species r with Some y => y :: h_more r | None => [] end)) (d_style d) x.
  Proof using F.
    intros A I S. exists (text_of a (d_style d) (prettify (pa_names a) (eliminated r)) (place r)). split.
    - unfold part, run_draw, line_notes. rewrite A. apply in_or_app. right. apply in_or_app. right. apply in_or_app. left.
      apply in_map_iff. exists r. split; [reflexivity|]. apply filter_In. split; [exact I|now apply on].
    - rewrite <- eliminated_join. apply text_of_at. pose proof F as (_ & _ & X & _). now apply X.
  Qed.
  Lemma part_dead_note p r y : pa_annotate a = true -> pa_dead_ends a = true -> dead_end_from (d_conf d) (d_hist d) p r -> h_species r = Some y ->
    exists x, In x part /\ text_at a r y (d_dead d) x.
  Proof using F.
    intros A P D Y. apply dead_from in D. destruct D as (r1 & r2 & EH & D & LO).
    exists (text_of a (d_dead d) (prettify (pa_names a) y) (place r)). split.
    - unfold part, run_draw. rewrite P. apply in_or_app. right. apply in_or_app. right. apply in_or_app. right.
      apply dead_draw_In. exists p, r, r1, r2. split; [exact EH|]. split; [exact D|]. split; [exact LO|].
      unfold dead_one. rewrite A, Y. apply in_or_app. right. now left.
    - apply text_of_at. pose proof F as (_ & _ & X & _). now apply X.
  Qed.
  Lemma part_end : pa_endpoints a = true -> exists x, In x part /\ end_mark d x.
  Proof using F L.
    intros P. eexists. split; [unfold part, run_draw, end_line; rewrite P; now left|].
    destruct (filter_last _ _ _ _ L) as (ha & hb & E1 & E2 & E3). exists ha, l, hb. eexists _, _. split; [exact E1|].
    split; [now apply on|]. split; [|reflexivity]. intros q I S. apply on in S. rewrite (E3 q I) in S. discriminate.
  Qed.
  Lemma part_only x : In x part -> belongs a d x.
  Proof using F L.
    unfold part, run_draw. rewrite !in_app_iff. intros [H|[H|[H|H]]].
    - right. left. unfold end_line in H. destruct (pa_endpoints a); [|contradiction]. destruct H as [<-|[]]. split; [reflexivity|].
      destruct (filter_last _ _ _ _ L) as (ha & hb & E1 & E2 & E3). exists ha, l, hb. eexists _, _. split; [exact E1|].
      split; [now apply on|]. split; [|reflexivity]. intros q I S. apply on in S. rewrite (E3 q I) in S. discriminate.
    - left. destruct H as [<-|[]]. exact line_run.
    - right. right. left. unfold line_notes in H. destruct (pa_annotate a) eqn:A; [|contradiction]. split; [reflexivity|].
      apply in_map_iff in H. destruct H as (r & <- & I). apply filter_In in I. destruct I as [I O]. exists r. split; [exact I|].
      split; [now apply on|]. rewrite <- eliminated_join. apply text_of_at. pose proof F as (_ & _ & S & _). now apply S.
    - right. right. right. destruct (pa_dead_ends a) eqn:P; [|contradiction]. split; [reflexivity|]. apply dead_draw_In in H.
      destruct H as (p & r & r1 & r2 & EH & D & LO & I). exists p, r. split; [apply dead_from; exists r1, r2; auto|].
      unfold dead_one in I. apply in_app_or in I. destruct I as [[<-|[<-|[]]]|I].
      + left. exists [place p; place r], (drop_last (d_dead d)). split; [exact (places_spots [p; r])|]. split; [reflexivity|]. apply drop_last_ok.
      + right. left. exists [place r]. split; [exact (places_spots [r])|reflexivity].
      + right. right. destruct (pa_annotate a) eqn:A; [|contradiction]. split; [reflexivity|]. destruct (h_species r) as [y|]; [|contradiction].
        destruct I as [<-|[]]. exists y. split; [reflexivity|]. apply text_of_at. pose proof F as (_ & _ & S & _). now apply S.
  Qed.

  Lemma legend_app l1 l2 : legend (l1 ++ l2) = legend l1 ++ legend l2.
  Proof. apply flat_map_app. Qed.
  Lemma legend_none ls : (forall x, In x ls -> match x with DLine _ _ (Some _) => False | _ => True end) -> legend ls = [].
  Proof.
    intros H. induction ls as [|x ls IH]; [reflexivity|]. unfold legend. cbn [flat_map]. fold (legend ls). rewrite IH by (intros y I; apply H; now right).
    specialize (H x (or_introl eq_refl)). destruct x as [? ? [?|]|]; [contradiction|reflexivity|reflexivity].
  Qed.
  Lemma part_legend : legend part = [(d_label d, d_style d)].
  Proof.
    unfold part, run_draw. rewrite !legend_app.
    rewrite (legend_none (end_line _ _ _)), (legend_none (line_notes _ _ _)), (legend_none (if pa_dead_ends a then _ else _)); [reflexivity| | |].
    - intros x H. destruct (pa_dead_ends a); [|contradiction]. apply dead_draw_In in H. destruct H as (p & r & r1 & r2 & _ & _ & _ & I).
      unfold dead_one in I. apply in_app_or in I. destruct I as [[<-|[<-|[]]]|I]; [exact Logic.I|exact Logic.I|].
      destruct (pa_annotate a); [|contradiction]. destruct (h_species r); [|contradiction]. destruct I as [<-|[]]. exact Logic.I.
    - intros x H. unfold line_notes in H. destruct (pa_annotate a); [|contradiction]. apply in_map_iff in H. destruct H as (r & <- & _). exact Logic.I.
    - intros x H. unfold end_line in H. destruct (pa_endpoints a); [|contradiction]. destruct H as [<-|[]]. exact Logic.I.
  Qed.
End Run.

(** ** Limits of the axes *)

Lemma up_x_ge x z : (x <= up_x x z)%Z /\ (z <= up_x x z)%Z.
Proof. unfold up_x. destruct (Z.ltb_spec x z); lia. Qed.
Lemma up_y_ge p q : exists t, up_y (Fin p) (Fin q) = Fin t /\ (p <= t)%Q /\ (q <= t)%Q.
Proof.
  unfold up_y. destruct (fltb (Fin p) (Fin q)) eqn:C.
  - apply fltb_lt in C. exists q. split; [reflexivity|]. split; [now apply Qlt_le_weak|apply Qle_refl].
  - apply fltb_ge in C. exists p. split; [reflexivity|]. split; [apply Qle_refl|exact C].
Qed.
Lemma dead_x_ge m rows : forall x, (x <= dead_x m rows x)%Z /\ forall r, In r rows -> dead_end m r = true -> (h_removed r <= dead_x m rows x)%Z.
Proof.
  induction rows as [|q rows IH]; intros x; [split; [unfold dead_x; cbn; lia|easy]|].
  unfold dead_x. cbn [fold_left]. fold (dead_x m rows (if dead_end m q then up_x x (h_removed q) else x)).
  destruct (IH (if dead_end m q then up_x x (h_removed q) else x)) as [I1 I2]. pose proof (up_x_ge x (h_removed q)) as [U1 U2].
  destruct (dead_end m q) eqn:D.
  - split; [lia|]. intros r [<-|I] DR; [lia|now apply I2].
  - split; [lia|]. intros r [<-|I] DR; [congruence|now apply I2].
Qed.
Definition finite_rows (m : Q) (rows : list hrow) : Prop := forall r, In r rows -> dead_end m r = true -> exists q, h_base r = Fin q.
Lemma dead_y_ge m rows : finite_rows m rows -> forall y, exists t, dead_y m rows (Fin y) = Fin t /\ (y <= t)%Q /\
  forall r q, In r rows -> dead_end m r = true -> h_base r = Fin q -> (q * 100 <= t)%Q.
Proof.
  induction rows as [|q rows IH]; intros FR y.
  - exists y. split; [reflexivity|]. split; [apply Qle_refl|easy].
  - assert (FR' : finite_rows m rows) by (intros r I; apply FR; now right).
    unfold dead_y. cbn [fold_left]. destruct (dead_end m q) eqn:D.
    + destruct (FR q (or_introl eq_refl) D) as (b & B). rewrite B. cbn [percent fmul].
      destruct (up_y_ge y (b * 100)) as (u & U1 & U2 & U3). unfold percent. cbn [fmul]. rewrite U1.
      destruct (IH FR' u) as (t & T1 & T2 & T3). exists t. split; [exact T1|]. split; [now apply Qle_trans with u|].
      intros r c [<-|I] DR BR; [|now apply (T3 r c)]. rewrite B in BR. injection BR as <-. now apply Qle_trans with u.
    + destruct (IH FR' y) as (t & T1 & T2 & T3). exists t. split; [exact T1|]. split; [exact T2|].
      intros r c [<-|I] DR BR; [congruence|now apply (T3 r c)].
Qed.

(** ** All runs *)

Definition tup (d : drawn_run) : string * string * string * list hrow := (d_style d, d_dead d, d_label d, d_hist d).
Definition part_of (a : plot_args) (m : Q) (d : drawn_run) (part : list drawing) : Prop :=
  exists l hs, rev (filter (on_line m) (d_hist d)) = l :: hs /\ part = run_draw a m (d_style d) (d_dead d) (d_label d) (d_hist d) l.

Lemma plot_runs_eq a m ds : Forall (fits a m) ds -> forall v, exists parts x y, Forall2 (part_of a m) ds parts /\
  plot_runs a m (map tup ds) v = Ok (MkCanvas (cv_draw v ++ List.concat parts) x y) /\
  (cv_x v <= x)%Z /\
  (forall d, In d ds -> (forall l hs, rev (filter (on_line m) (d_hist d)) = l :: hs -> (h_removed l <= x)%Z) /\
     (pa_dead_ends a = true -> forall r, In r (d_hist d) -> dead_end m r = true -> (h_removed r <= x)%Z)) /\
  (forall y0, cv_y v = Fin y0 -> (pa_dead_ends a = true -> forall d, In d ds -> finite_rows m (d_hist d)) ->
     exists t, y = Fin t /\ (y0 <= t)%Q /\ (pa_dead_ends a = true -> forall d r q, In d ds -> In r (d_hist d) -> dead_end m r = true -> h_base r = Fin q -> (q * 100 <= t)%Q)).
Proof.
  induction ds as [|d ds IH]; intros FA v.
  - exists [], (cv_x v), (cv_y v). split; [constructor|]. split; [cbn; rewrite app_nil_r, <- canvas_eta; reflexivity|]. split; [lia|]. split; [easy|].
    intros y0 ->. intros _. exists y0. split; [reflexivity|]. split; [apply Qle_refl|easy].
  - inversion_clear FA as [|? ? FD FA']. cbn [map tup plot_runs].
    destruct FD as (EM & SW & HS & NM & NN).
    destruct (plot_run_eq a m (d_style d) (d_dead d) (d_label d) (d_hist d) v SW HS (fun _ => NM)) as (l & hs & RV & ->).
    cbn [bind]. set (x1 := if pa_dead_ends a then _ else _). set (y1 := if pa_dead_ends a then _ else up_y (cv_y v) _).
    destruct (IH FA' (MkCanvas (cv_draw v ++ run_draw a m (d_style d) (d_dead d) (d_label d) (d_hist d) l) x1 y1))
      as (parts & x & y & P & -> & X1 & X2 & Y). cbn [cv_draw cv_x cv_y] in *.
    exists (run_draw a m (d_style d) (d_dead d) (d_label d) (d_hist d) l :: parts), x, y.
    split; [constructor; [exists l, hs; auto|exact P]|]. split; [cbn [List.concat]; rewrite app_assoc; reflexivity|].
    assert (XL : (cv_x v <= x)%Z /\ (h_removed l <= x)%Z /\ (pa_dead_ends a = true -> forall r, In r (d_hist d) -> dead_end m r = true -> (h_removed r <= x)%Z)).
    { pose proof (up_x_ge (cv_x v) (h_removed l)) as [U1 U2]. pose proof (dead_x_ge m (d_hist d) (up_x (cv_x v) (h_removed l))) as [D1 D2].
      subst x1. destruct (pa_dead_ends a).
      - split; [lia|]. split; [lia|]. intros _ r I D. specialize (D2 r I D). lia.
      - split; [lia|]. split; [lia|]. discriminate. }
    destruct XL as (XL1 & XL2 & XL3). split; [exact XL1|]. split.
    { intros e [<-|I]; [|now apply X2]. split; [|exact XL3]. intros l' hs' E'. rewrite RV in E'. now injection E' as <- <-. }
    intros y0 EY FR.
    assert (FL : exists q, h_base l = Fin q).
    { destruct (filter_last _ _ _ _ RV) as (ha & hb & EH & OL & _). apply (on_line_iff m (d_conf d) EM) in OL.
      assert (IL : In l (d_hist d)) by (rewrite EH; apply in_or_app; right; now left).
      specialize (NN l IL (proj1 OL)). destruct OL as [_ W]. specialize (W eq_refl). destruct (h_base l); cbn in *; try contradiction. eauto. }
    destruct FL as (bl & FL).
    assert (Y1 : exists t1, y1 = Fin t1 /\ (y0 <= t1)%Q /\ (pa_dead_ends a = true -> forall r q, In r (d_hist d) -> dead_end m r = true -> h_base r = Fin q -> (q * 100 <= t1)%Q)).
    { subst y1. rewrite EY, FL. unfold percent. cbn [fmul]. destruct (up_y_ge y0 (bl * 100)) as (u & -> & U1 & U2).
      destruct (pa_dead_ends a) eqn:P'.
      - destruct (dead_y_ge m (d_hist d) (FR eq_refl d (or_introl eq_refl)) u) as (t & -> & T1 & T2). exists t. split; [reflexivity|].
        split; [now apply Qle_trans with u|]. intros _. exact T2.
      - exists u. split; [reflexivity|]. split; [exact U1|discriminate]. }
    destruct Y1 as (t1 & E1 & T1 & T2). destruct (Y t1 E1 (fun P' e I => FR P' e (or_intror I))) as (t & Q1 & Q2 & Q3).
    exists t. split; [exact Q1|]. split; [now apply Qle_trans with t1|]. intros P' e r q [<-|I] IR D B; [|now apply (Q3 P' e r)].
    apply Qle_trans with t1; [now apply (T2 P' r)|exact Q2].
Qed.

(** ** Styles, labels and files *)

Lemma styled_default suffix dflt l :
  (forall i, (i < 70)%nat -> nth_error dflt i = Some (ring suffix i)) -> (List.length l <= 70)%nat ->
  (forall i x, nth_error l i = Some x -> x = ring suffix i) -> exists rest, dflt = l ++ rest.
Proof.
  revert dflt suffix. intros dflt suffix HD HL HN. assert (E : forall n, (n <= List.length l)%nat -> firstn n dflt = firstn n l).
  { induction n as [|n IH]; intros LE; [reflexivity|].
    assert (A : nth_error dflt n = Some (ring suffix n)) by (apply HD; lia).
    destruct (nth_error l n) as [x|] eqn:B; [|apply nth_error_None in B; lia]. pose proof (HN n x B) as ->.
    assert (G : forall (A : Type) (k : list A) z j, nth_error k j = Some z -> firstn (S j) k = firstn j k ++ [z]).
    { clear. intros A k. induction k as [|y k IH]; intros z [|j] H; try discriminate; cbn in *; [now injection H as ->|]. now rewrite (IH z j H). }
    now rewrite (G _ _ _ _ A), (G _ _ _ _ B), IH by lia. }
  exists (skipn (List.length l) dflt). rewrite <- (firstn_skipn (List.length l) dflt) at 1. rewrite E by lia. now rewrite firstn_all.
Qed.
Definition sameO (o : option string) (s : string) : bool := match o with Some t => String.eqb t s | None => false end.
Lemma default_ok suffix dflt : forallb (fun i => sameO (nth_error dflt i) (ring suffix i)) (seq 0 70) = true ->
  forall i, (i < 70)%nat -> nth_error dflt i = Some (ring suffix i).
Proof.
  intros H i LT. rewrite forallb_forall in H. specialize (H i (proj2 (in_seq 70 0 i) ltac:(lia))). unfold sameO in H.
  destruct (nth_error dflt i); [|discriminate]. apply String.eqb_eq in H. now subst.
Qed.
Lemma styled_prefix o suffix dflt l : forallb (fun i => sameO (nth_error dflt i) (ring suffix i)) (seq 0 70) = true ->
  styled o suffix l -> exists rest, or_default o dflt = l ++ rest.
Proof.
  intros H. destruct o as [g|]; cbn [styled or_default]; [easy|]. intros [L N]. apply (styled_default suffix dflt l); [|exact L|exact N].
  now apply default_ok.
Qed.

Lemma combine_tup ds r1 r2 r3 :
  combine (combine (combine (map d_style ds ++ r1) (map d_dead ds ++ r2)) (map d_label ds ++ r3)) (map d_hist ds) = map tup ds.
Proof. induction ds as [|d ds IH]; [cbn [map]; apply combine_nil|]. cbn [map app combine]. now rewrite IH. Qed.

Lemma last_dir k : rc_id k <> ""%string -> last (rc_dir k) ""%string = rc_id k.
Proof.
  intros N. unfold rc_dir, run_path. destruct (String.eqb_spec (rc_id k) "") as [X|_]; [congruence|]. apply last_last.
Qed.

Lemma read_on_disk s k h : on_disk s k h -> read_run s (rc_dir k) = Ok (h, rc_max k).
Proof. intros [H M]. unfold read_run. unfold hist_path in H. unfold meta_path, meta_of in M. now rewrite H, M. Qed.
Lemma read_all s m ds : (forall d, In d ds -> on_disk s (d_conf d) (d_hist d) /\ (m == rc_max (d_conf d))%Q) ->
  read_runs s m (map (fun d => rc_dir (d_conf d)) ds) = Ok (map d_hist ds).
Proof.
  induction ds as [|d ds IH]; intros H; [reflexivity|]. cbn [map read_runs]. destruct (H d (or_introl eq_refl)) as [D M].
  rewrite (read_on_disk _ _ _ D). cbn [bind snd fst]. rewrite (proj2 (Qeq_bool_iff _ _) M). cbn [negb raise_if bind].
  rewrite IH by (intros e I; apply H; now right). reflexivity.
Qed.

Lemma parts_fw a m ds parts : Forall2 (part_of a m) ds parts -> forall d, In d ds ->
  exists part, part_of a m d part /\ forall x, In x part -> In x (List.concat parts).
Proof.
  induction 1 as [|d part l parts H P IH]; [easy|]. intros d' [<-|I].
  - exists part. split; [exact H|]. intros x X. cbn [List.concat]. apply in_or_app. now left.
  - destruct (IH d' I) as (part' & H' & IN). exists part'. split; [exact H'|]. intros x X. cbn [List.concat]. apply in_or_app. right. now apply IN.
Qed.
Lemma parts_bk a m ds parts : Forall2 (part_of a m) ds parts -> forall x, In x (List.concat parts) ->
  exists d part, In d ds /\ part_of a m d part /\ In x part.
Proof.
  induction 1 as [|d part l parts H P IH]; [easy|]. intros x I. cbn [List.concat] in I. apply in_app_or in I. destruct I as [I|I].
  - exists d, part. split; [now left|]. now split.
  - destruct (IH x I) as (e & q & J & K). exists e, q. split; [now right|exact K].
Qed.
Lemma parts_legend a m ds parts : Forall2 (part_of a m) ds parts -> legend (List.concat parts) = map (fun d => (d_label d, d_style d)) ds.
Proof.
  induction 1 as [|d part l parts H P IH]; [reflexivity|]. cbn [List.concat map]. rewrite legend_app, IH.
  destruct H as (l0 & hs & R & ->). now rewrite part_legend.
Qed.

Section All.
  Variables (E : env) (fhash : string -> option string) (default_dir : string -> res path) (scan : list path -> list path).
  Hypothesis scan_perm : forall l, Permutation (scan l) l.
  Variables (s : gfs) (a : plot_args) (d0 : drawn_run) (ds : list drawn_run).
  Let m := rc_max (d_conf d0).
  Hypothesis runs : forall d, In d (d0 :: ds) -> exists c0, history_of E fhash default_dir scan (d_conf d) c0 (d_hist d).
  Hypothesis files : forall d, In d (d0 :: ds) -> on_disk s (d_conf d) (d_hist d).
  Hypothesis limits : forall d, In d (d0 :: ds) -> (m == rc_max (d_conf d))%Q.
  Hypothesis dress : dressed a (d0 :: ds).
  Hypothesis finite : pa_ylim a <> None \/ pa_dead_ends a = false \/
    forall d r, In d (d0 :: ds) -> In r (d_hist d) -> h_success r = Some true -> h_base r <> PInf.

  Lemma all_fit : Forall (fits a m) (d0 :: ds).
  Proof using scan_perm runs limits dress.
    apply Forall_forall. intros d I. destruct (runs d I) as (c0 & H). specialize (limits d I). unfold fits. split; [exact limits|].
    split; [exact (history_starts E fhash default_dir scan scan_perm (d_conf d) c0 (d_hist d) H m limits)|].
    split; [intros A; destruct dress as (_ & _ & _ & X); now apply X|].
    split; [intros r; exact (named E fhash default_dir scan scan_perm (d_conf d) c0 (d_hist d) H r m limits)|].
    intros r. exact (row_notneg E fhash default_dir scan scan_perm (d_conf d) c0 (d_hist d) H r).
  Qed.

  Lemma finite_dead : (forall d r, In d (d0 :: ds) -> In r (d_hist d) -> h_success r = Some true -> h_base r <> PInf) ->
    forall d, In d (d0 :: ds) -> finite_rows m (d_hist d).
  Proof using limits.
    intros FIN d I r IR D. apply (dead_end_iff m (d_conf d) (limits d I)) in D. destruct D as [S O]. specialize (FIN d r I IR S).
    destruct (h_base r); cbn in O; try contradiction. eauto.
  Qed.

  Lemma part_shows parts : Forall2 (part_of a m) (d0 :: ds) parts -> forall f top, fig_draw f = List.concat parts ++ top ->
    (top = [] /\ pa_plot_max a = false) \/ (pa_plot_max a = true /\ exists x, top = [x] /\ top_line m x) -> shows a m (d0 :: ds) f.
  Proof using scan_perm runs limits dress.
    intros P f top EF TOP. pose proof all_fit as FIT. rewrite Forall_forall in FIT.
    assert (FW : forall d, In d (d0 :: ds) -> exists part, part_of a m d part /\ forall x, In x part -> In x (fig_draw f)).
    { intros d I. destruct (parts_fw a m _ _ P d I) as (part & H & IN). exists part. split; [exact H|]. intros x X. rewrite EF. apply in_or_app. left. now apply IN. }
    split.
    - intros d I. destruct (FW d I) as (part & (l & hs & R & ->) & IN). destruct (part_line a m d (FIT d I) l) as (x & X & Y). exists x. split; [now apply IN|exact Y].
    - intros PD d p r I D. destruct (FW d I) as (part & (l & hs & R & ->) & IN).
      destruct (part_dead a m d (FIT d I) l p r PD D) as (x & y & X & X2 & Y & Y2). exists x, y. auto.
    - intros A d r I IR S. destruct (FW d I) as (part & (l & hs & R & ->) & IN).
      destruct (part_note a m d (FIT d I) l r A IR S) as (x & X & Y). exists x. split; [now apply IN|exact Y].
    - intros A PD d p r y I D SY. destruct (FW d I) as (part & (l & hs & R & ->) & IN).
      destruct (part_dead_note a m d (FIT d I) l p r y A PD D SY) as (x & X & Y). exists x. split; [now apply IN|exact Y].
    - intros PE d I. destruct (FW d I) as (part & (l & hs & R & ->) & IN).
      destruct (part_end a m d (FIT d I) l hs R PE) as (x & X & Y). exists x. split; [now apply IN|exact Y].
    - intros x IX. rewrite EF in IX. apply in_app_or in IX. destruct IX as [IX|IX].
      + left. pose proof (parts_bk a m _ _ P x IX) as BK.
        destruct BK as (d & part & I & (l & hs & R & ->) & J). exists d. split; [exact I|]. exact (part_only a m d (FIT d I) l hs R x J).
      + right. destruct TOP as [[-> _]|[PM (y & -> & T)]]; [contradiction|]. destruct IX as [<-|[]]. now split.
    - rewrite EF, legend_app. f_equal.
      + exact (parts_legend a m _ _ P).
      + destruct TOP as [[-> ->]|[-> (y & -> & (x1 & x2 & ->))]]; reflexivity.
  Qed.

  Lemma compare_eq : exists f, compare_runs s a (rc_dir (d_conf d0)) (map (fun d => rc_dir (d_conf d)) ds) = Ok f /\ shows a m (d0 :: ds) f /\
    (forall l, pa_xlim a = Some l -> fig_xlim f = l) /\ (forall l, pa_ylim a = Some l -> fig_ylim f = l) /\
    (pa_plot_max a = true -> exists x, In x (fig_draw f) /\ top_line m x) /\
    (pa_xlim a = None -> fst (fig_xlim f) = (- (1 # 2))%Q /\
       forall d, In d (d0 :: ds) -> (forall l hs, rev (filter (on_line m) (d_hist d)) = l :: hs -> (inject_Z (h_removed l) <= snd (fig_xlim f))%Q) /\
         (pa_dead_ends a = true -> forall r, In r (d_hist d) -> dead_end m r = true -> (inject_Z (h_removed r) <= snd (fig_xlim f))%Q)) /\
    (pa_ylim a = None -> fst (fig_ylim f) = (- (9 # 10))%Q /\ (m <= snd (fig_ylim f))%Q /\
       (pa_dead_ends a = true -> forall d r q, In d (d0 :: ds) -> In r (d_hist d) -> dead_end m r = true -> h_base r = Fin q -> (q * 100 <= snd (fig_ylim f))%Q)).
  Proof using scan_perm runs files limits dress finite.
    unfold compare_runs. pose proof dress as (D1 & D2 & D3 & _).
    destruct (styled_prefix _ "-o"%string default_styles _ eq_refl D1) as (r1 & ->).
    destruct (styled_prefix _ ":X"%string default_dead_styles _ eq_refl D2) as (r2 & ->).
    assert (EL : exists r3, or_default (pa_labels a) (map (fun q => last q ""%string) (rc_dir (d_conf d0) :: map (fun d => rc_dir (d_conf d)) ds)) = map d_label (d0 :: ds) ++ r3).
    { destruct (pa_labels a) as [g|]; cbn [or_default]; [exact D3|]. exists []. rewrite app_nil_r.
      change (rc_dir (d_conf d0) :: map (fun d => rc_dir (d_conf d)) ds) with (map (fun d => rc_dir (d_conf d)) (d0 :: ds)). rewrite map_map.
      apply map_ext_in. intros d I. destruct (D3 d I) as [N ->]. now apply last_dir. }
    destruct EL as (r3 & ->). cbv zeta.
    assert (LEN : forall g (r : list string), Nat.leb (List.length (rc_dir (d_conf d0) :: map (fun d => rc_dir (d_conf d)) ds)) (List.length (map (g : drawn_run -> string) (d0 :: ds) ++ r)) = true).
    { intros g r. apply Nat.leb_le. rewrite app_length. cbn [List.length map]. rewrite !map_length. lia. }
    rewrite !LEN. cbn [andb negb raise_if bind]. rewrite (read_on_disk _ _ _ (files d0 (or_introl eq_refl))). cbn [bind snd fst].
    fold m. rewrite read_all by (intros d I; split; [apply files|apply limits]; now right). cbn [bind].
    change (d_hist d0 :: map d_hist ds) with (map d_hist (d0 :: ds)). rewrite combine_tup.
    destruct (plot_runs_eq a m (d0 :: ds) all_fit (MkCanvas [] 0 (Fin 0))) as (parts & x & y & P & -> & X1 & X2 & Y). cbn [bind cv_draw cv_x cv_y app] in *.
    assert (YL : exists yl, match pa_ylim a with
        | Some l => Ok l
        | None => bind (finite_limit (fadd (if fltb y (Fin m) then Fin m else y) (Fin (9 # 10)))) (fun t => Ok ((- (9 # 10))%Q, t)) end = Ok yl /\
      (forall l, pa_ylim a = Some l -> yl = l) /\
      (pa_ylim a = None -> fst yl = (- (9 # 10))%Q /\ (m <= snd yl)%Q /\
        (pa_dead_ends a = true -> forall d r q, In d (d0 :: ds) -> In r (d_hist d) -> dead_end m r = true -> h_base r = Fin q -> (q * 100 <= snd yl)%Q))).
    { destruct (pa_ylim a) as [l|] eqn:PY.
      - exists l. split; [reflexivity|]. split; [intros ? X; now injection X|discriminate].
      - assert (FR : pa_dead_ends a = true -> forall d, In d (d0 :: ds) -> finite_rows m (d_hist d)).
        { intros PD. destruct finite as [X|[X|X]]; [congruence|congruence|now apply finite_dead]. }
        destruct (Y _ eq_refl FR) as (t & -> & T1 & T2).
        assert (TT : exists u, (if fltb (Fin t) (Fin m) then Fin m else Fin t) = Fin u /\ (m <= u)%Q /\ (t <= u)%Q).
        { destruct (up_y_ge t m) as (u & U1 & U2 & U3). exists u. auto. }
        destruct TT as (u & -> & U1 & U2). cbn [fadd finite_limit bind].
        exists ((- (9 # 10))%Q, (u + (9 # 10))%Q). split; [reflexivity|]. split; [discriminate|]. intros _. cbn [fst snd].
        split; [reflexivity|]. split; [lra|]. intros PD d r q I IR D B. specialize (T2 PD d r q I IR D B). lra. }
    destruct YL as (yl & -> & YL1 & YL2). cbn [bind].
    set (xl := or_default (pa_xlim a) _).
    set (top := if pa_plot_max a then _ else _).
    assert (TOP : (top = [] /\ pa_plot_max a = false) \/ (pa_plot_max a = true /\ exists x, top = [x] /\ top_line m x)).
    { subst top. destruct (pa_plot_max a); [right|now left]. split; [reflexivity|]. eexists. split; [reflexivity|]. eexists _, _. reflexivity. }
    eexists. split; [reflexivity|]. split; [refine (part_shows parts P _ top _ TOP); reflexivity|].
    cbn [fig_xlim fig_ylim fig_draw]. split; [intros l X; subst xl; now rewrite X|]. split; [exact YL1|]. split.
    { intros PM. destruct TOP as [[_ X]|[_ (z & -> & T)]]; [congruence|]. exists z. split; [apply in_or_app; right; now left|exact T]. }
    split; [|exact YL2]. intros PX. subst xl. rewrite PX. cbn [or_default fst snd]. split; [reflexivity|].
    assert (UP : forall z, (z <= x)%Z -> (inject_Z z <= inject_Z x + (1 # 2))%Q).
    { intros z LE. rewrite Zle_Qle in LE. lra. }
    intros d I. destruct (X2 d I) as [W1 W2]. split.
    - intros l hs R. apply UP. now apply (W1 l hs).
    - intros PD r IR D. apply UP. now apply W2.
  Qed.

  Hypothesis nums : forall d, In d (d0 :: ds) -> numbers true (d_hist d).

  Lemma points_inside f : compare_runs s a (rc_dir (d_conf d0)) (map (fun d => rc_dir (d_conf d)) ds) = Ok f -> pa_xlim a = None -> pa_ylim a = None ->
    forall d pts st lb, In d (d0 :: ds) ->
      (run_line d (DLine pts st lb) \/ (pa_dead_ends a = true /\ exists p r, dead_end_from (d_conf d) (d_hist d) p r /\
         (dead_line d p r (DLine pts st lb) \/ dead_point d r (DLine pts st lb)))) ->
      forall p, In p pts -> inside f p.
  Proof using scan_perm runs files limits dress finite nums.
    intros CF PX PY d pts st lb I LN p IP. destruct compare_eq as (f' & CF' & _ & _ & _ & _ & X & Y). rewrite CF in CF'. injection CF' as <-.
    destruct (X PX) as [X1 X2]. destruct (Y PY) as (Y1 & Y2 & Y3). clear X Y. destruct (runs d I) as (c0 & H). pose proof (limits d I) as EM.
    destruct (X2 d I) as [XL XD].
    assert (LO : forall r, In r (d_hist d) -> h_success r = Some true -> (0 <= inject_Z (h_removed r))%Q /\ notneg (h_base r)).
    { intros r IR S. split; [|exact (row_notneg E fhash default_dir scan scan_perm _ c0 _ H r IR S)].
      change (inject_Z 0 <= inject_Z (h_removed r))%Q. rewrite <- Zle_Qle. exact (removed_notneg E fhash default_dir scan scan_perm _ c0 _ H r (nums d I) IR S). }
    (* rows of the line, rows of dead ends *)
    assert (ON : forall r q, In r (d_hist d) -> stays (d_conf d) true r -> spot r (fst q) (snd q) -> inside f q).
    { intros r q IR SR [E1 E2]. destruct (LO r IR (proj1 SR)) as [L1 L2]. unfold inside. rewrite E1, X1, Y1.
      pose proof (proj2 (on_line_iff m (d_conf d) EM r) SR) as O.
      destruct (rev (filter (on_line m) (d_hist d))) as [|l hs] eqn:RV.
      { exfalso. apply (f_equal (@rev hrow)) in RV. rewrite rev_involutive in RV. assert (Z : In r (filter (on_line m) (d_hist d))) by now apply filter_In. rewrite RV in Z. contradiction. }
      destruct (last_most E fhash default_dir scan scan_perm _ c0 _ H m l hs r EM (nums d I) RV IR O) as (LM & _ & _).
      specialize (XL l hs eq_refl). rewrite Zle_Qle in LM. split; [lra|].
      destruct SR as [_ W]. specialize (W eq_refl). destruct (h_base r) as [b| | |]; cbn in W, L2; try contradiction.
      destruct E2 as (z & -> & EZ). exists z. split; [reflexivity|]. rewrite EZ. change (rc_max (d_conf d) / 100)%Q with (rc_max (d_conf d) * (1 # 100))%Q in W.
      rewrite <- EM in W. lra. }
    assert (DE : pa_dead_ends a = true -> forall r q, In r (d_hist d) -> dead_end m r = true -> spot r (fst q) (snd q) -> inside f q).
    { intros PD r q IR D [E1 E2]. pose proof (proj1 (dead_end_iff m (d_conf d) EM r) D) as [S O]. destruct (LO r IR S) as [L1 L2].
      assert (FB : exists b, h_base r = Fin b).
      { destruct finite as [Z|[Z|Z]]; [congruence|congruence|]. now apply (finite_dead Z d I r). }
      destruct FB as (b & B). specialize (XD PD r IR D). specialize (Y3 PD d r b I IR D B). unfold inside. rewrite E1, X1, Y1. split; [lra|].
      rewrite B in E2, L2. cbn in L2. destruct E2 as (z & -> & EZ). exists z. split; [reflexivity|]. rewrite EZ. lra. }
    assert (PT : forall rs, spots rs pts -> exists r, In r rs /\ spot r (fst p) (snd p)).
    { intros rs SP. clear -SP IP. induction SP as [|r q rs pts SQ SP IH]; [easy|]. destruct IP as [<-|IP]; [exists r; split; [now left|exact SQ]|].
      destruct (IH IP) as (r' & I1 & I2). exists r'. split; [now right|exact I2]. }
    destruct LN as [(rs & pts' & PK & SP & _ & EQ)|(PD & p0 & r0 & DF & LN)].
    - injection EQ as <- _ _. destruct (PT rs SP) as (r & IR & SR). apply (picked_In _ _ _ PK) in IR. destruct IR as [I1 I2]. now apply (ON r).
    - assert (RD : In r0 (d_hist d) /\ dead_end m r0 = true /\ In p0 (d_hist d) /\ stays (d_conf d) true p0).
      { destruct DF as (h1 & h2 & h3 & EH & S0 & _ & S1 & O1). rewrite EH. split; [apply in_or_app; right; right; apply in_or_app; right; now left|].
        split; [apply (dead_end_iff m (d_conf d) EM); auto|]. split; [apply in_or_app; right; now left|exact S0]. }
      destruct RD as (R1 & R2 & R3 & R4). destruct LN as [(pts' & st' & SP & EQ & _)|(pts' & SP & EQ)]; injection EQ as <- _ _.
      + destruct (PT _ SP) as (r & [<-|[<-|[]]] & SR); [now apply (ON p0)|now apply (DE PD r0)].
      + destruct (PT _ SP) as (r & [<-|[]] & SR). now apply (DE PD r0).
  Qed.
End All.

(** ** Order of the points *)

Lemma picked_sorted {A} (P : A -> Prop) (R : A -> A -> Prop) l rs : picked P l rs ->
  (forall h1 p h2 r h3, l = h1 ++ p :: h2 ++ r :: h3 -> P p -> P r -> R p r) -> StronglySorted R rs.
Proof.
  induction 1 as [|x l m H K IH|x l m H K IH]; intros HR.
  - constructor.
  - constructor.
    + apply IH. intros h1 p h2 r h3 ->. exact (HR (x :: h1) p h2 r h3 eq_refl).
    + apply Forall_forall. intros y I. apply (picked_In _ _ _ K) in I. destruct I as [I PY]. apply in_split in I. destruct I as (h2 & h3 & ->).
      exact (HR [] x h2 y h3 eq_refl H PY).
  - apply IH. intros h1 p h2 r h3 ->. exact (HR (x :: h1) p h2 r h3 eq_refl).
Qed.

Section Order.
  Variables (E : env) (fhash : string -> option string) (default_dir : string -> res path) (scan : list path -> list path).
  Hypothesis scan_perm : forall l, Permutation (scan l) l.

  Lemma increasing d c0 : history_of E fhash default_dir scan (d_conf d) c0 (d_hist d) -> numbers true (d_hist d) ->
    forall pts st lb, run_line d (DLine pts st lb) -> StronglySorted (fun p q => (fst p < fst q)%Q) pts.
  Proof using scan_perm.
    intros H N pts st lb (rs & pts' & PK & SP & _ & EQ). injection EQ as <- _ _.
    assert (S : StronglySorted (fun p r => (h_removed p < h_removed r)%Z) rs).
    { apply (picked_sorted _ _ _ _ PK). exact (kept_more E fhash default_dir scan scan_perm (d_conf d) c0 (d_hist d) H N). }
    clear PK. induction SP as [|r p rs pts [E1 _] SP IH]; [constructor|]. inversion_clear S as [|? ? S1 S2]. constructor; [now apply IH|].
    clear IH S1. rewrite E1. induction SP as [|r' p' rs pts [E2 _] SP IH]; [constructor|]. inversion_clear S2 as [|? ? S3 S4].
    constructor; [rewrite E2, <- Zlt_Qlt; exact S3|now apply IH].
  Qed.

  (** The line ends at the number of species the chemistry has lost. *)
  Lemma line_end backend k g s st c0 c pts style dead lb st' lb' :
    reachable E c0 -> declared_exist c0 -> (0 <= rc_max k)%Q -> fs_ok s -> gm_chem g = Some c0 ->
    iterated E fhash default_dir scan backend k true g s st -> numbers true (r_hist st) -> gm_chem (r_gm st) = Some c ->
    run_line (style, dead, lb, k, r_hist st) (DLine pts st' lb') ->
    exists pre y, pts = pre ++ [(inject_Z (Z.of_nat (List.length (names_of c0)) - Z.of_nat (List.length (names_of c))), y)].
  Proof using scan_perm.
    intros R D M O C IT N G (rs & pts' & PK & SP & NE & EQ). injection EQ as <- _ _. cbn [d_conf d_hist fst snd] in PK.
    destruct (exists_last NE) as (rs' & r & ->). apply Forall2_app_inv_l in SP. destruct SP as (p1 & p2 & _ & S2 & ->).
    inversion_clear S2 as [|? q ? ? [E1 _] S3]. inversion_clear S3. exists p1, (snd q).
    assert (W : exists h1 h2, r_hist st = h1 ++ r :: h2 /\ stays k true r /\ forall x, In x h2 -> ~ stays k true x).
    { clear -PK. remember (rs' ++ [r]) as rs eqn:ER. revert rs' ER. induction PK as [|x l m H K IH|x l m H K IH]; intros rs' ER.
      - destruct rs'; discriminate.
      - destruct rs' as [|z rs'].
        + injection ER as -> ->. exists [], l. split; [reflexivity|]. split; [exact H|]. intros y I S.
          pose proof (proj2 (picked_In _ _ _ K y) (conj I S)). contradiction.
        + injection ER as <- ER. destruct (IH rs' ER) as (h1 & h2 & -> & X). exists (x :: h1), h2. now split.
      - destruct (IH rs' ER) as (h1 & h2 & -> & X). exists (x :: h1), h2. now split. }
    destruct W as (h1 & h2 & EH & SR & NS).
    pose proof (last_kept E fhash default_dir scan scan_perm k c0 backend g s st c h1 r h2 R D M O C IT N G EH SR NS) as X.
    rewrite <- X. destruct q as [q1 q2]. cbn [fst snd] in *. now rewrite E1.
  Qed.
End Order.

(** ** Refusals *)

Lemma other_limit s a k h k' h' : on_disk s k h -> on_disk s k' h' -> ~ (rc_max k == rc_max k')%Q -> forall ps,
  compare_runs s a (rc_dir k) (rc_dir k' :: ps) = Err EAssertion.
Proof.
  intros D D' N ps. unfold compare_runs. cbv zeta. destruct (negb _); [reflexivity|]. cbn [raise_if bind].
  rewrite (read_on_disk _ _ _ D). cbn [bind snd fst read_runs]. rewrite (read_on_disk _ _ _ D'). cbn [bind snd fst].
  destruct (Qeq_bool (rc_max k) (rc_max k')) eqn:Q; [apply Qeq_bool_iff in Q; contradiction|]. reflexivity.
Qed.
Lemma missing_history s a p ps : fget (p ++ ["reduction_history.csv"%string]) (fs_files s) = None ->
  compare_runs s a p ps = Err EOS \/ compare_runs s a p ps = Err EAssertion.
Proof.
  intros H. unfold compare_runs. cbv zeta. destruct (negb _); [now right|left]. cbn [raise_if bind]. unfold read_run. now rewrite H.
Qed.
