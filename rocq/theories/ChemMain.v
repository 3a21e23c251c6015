(** Property-level facts about chemistries: disabling (C01-C08, C52). *)
From Verif Require Import Base BaseLemmas Species Reactions Chemistry ChemSpec ChemDisable ChemInv ChemHist ChemLoad.
From Coq Require Import ZifyBool.

Section Disable.
  Variables (c : chem) (ss : list ref) (rs : list Z).
  Hypothesis I : Inv c.

  (** What the user asked for. *)
  Definition asked_sp (s : sp) : Prop := exists a, In a ss /\ denotes c a s.
  Definition asked_rx (r : rx) : Prop := In (rx_id r) rs.

  Lemma resolved si : mapM (resolve c) ss = Ok si ->
    forall s, In s (c_species c) -> (In (sp_id s) si <-> asked_sp s).
  Proof using I.
    intros H s Hs. pose proof (mapM_resolve_Ok c ss si (i_wf c I) H) as [H1 _]. rewrite H1. unfold asked_sp. split.
    - intros (a & s' & A1 & A2 & A3). exists a. split; [exact A1|].
      replace s with s'; [exact A2|]. apply (NoDup_map_inj sp_id (c_species c)); auto.
      + apply (i_wf c I).
      + apply A2.
    - intros (a & A1 & A2). exists a, s. auto.
  Qed.

  Theorem disable_closed c' :
    disable c ss rs = (c', Ok tt) ->
    (forall s, asked_sp s -> c_en c' (sp_id s) = false) /\
    (forall a, In a ss -> exists s, denotes c a s) /\
    (forall z, In z rs -> c_enr c' z = false /\ exists r, denotes_r c z r) /\
    closed c' /\
    (forall i, c_en c' i = true -> c_en c i = true) /\
    (forall i, c_enr c' i = true -> c_enr c i = true) /\
    same_data c c' /\ c_prot c' = c_prot c.
  Proof using I.
    intros H. pose proof (disable_ok_inv c ss rs c' (i_wf c I) H) as (si & Hsi & Hrs & DR & _).
    pose proof (dr_ok _ _ _ _ _ (i_wf c I) DR) as (O1 & O2 & _).
    pose proof (disable_frame c ss rs c' _ (i_wf c I) H) as (F1 & F2 & F3 & F4 & _).
    repeat split; auto.
    - intros s Hs. apply O1. apply (resolved si Hsi); [|exact Hs]. destruct Hs as (a & _ & [X _]). exact X.
    - apply (mapM_resolve_Ok c ss si (i_wf c I) Hsi).
    - apply Hrs, in_map_iff in H0. destruct H0 as (r & E & Hr). exists r. split; auto.
    - eapply disable_shape; eauto using i_wf, i_closed.
    - eapply disable_shape; eauto using i_wf, i_closed.
    - apply F1. - apply F1. - apply F1. - apply F1. - apply F1. - apply F1. - apply F1.
  Qed.

  Theorem disable_maximal c' o (S R : Z -> Prop) :
    disable c ss rs = (c', o) ->
    subnetwork c S R ->
    (forall s, In s (c_species c) -> S (sp_id s) -> c_en c (sp_id s) = true /\ ~ asked_sp s) ->
    (forall r, In r (c_reactions c) -> R (rx_id r) -> c_enr c (rx_id r) = true /\ ~ asked_rx r) ->
    (forall s, In s (c_species c) -> S (sp_id s) -> c_en c' (sp_id s) = true) /\
    (forall r, In r (c_reactions c) -> R (rx_id r) -> c_enr c' (rx_id r) = true).
  Proof using I.
    intros H Hsub HS HR. pose proof (disable_cases c ss rs (i_wf c I)) as D. rewrite H in D.
    inversion D; subst; try (split; intros; [apply HS|apply HR]; auto; fail).
    eapply dr_maximal; eauto; try apply (i_wf c I).
    intros s Hs HSs. destruct (HS s Hs HSs) as [X1 X2]. split; [exact X1|]. now rewrite resolved.
  Qed.

  (** The request changes nothing when all of it is already disabled. *)
  Definition asked_off : Prop :=
    (forall s, asked_sp s -> c_en c (sp_id s) = false) /\
    (forall r, In r (c_reactions c) -> asked_rx r -> c_enr c (rx_id r) = false).

  Lemma asked_off_idle si : mapM (resolve c) ss = Ok si -> incl rs (r_ids c) ->
    (asked_off <-> idle c si rs).
  Proof using I.
    intros Hsi Hrs. pose proof (mapM_resolve_Ok c ss si (i_wf c I) Hsi) as [H1 _]. split.
    - intros [A B]. split.
      + intros i Hi. apply H1 in Hi. destruct Hi as (a & s & X1 & X2 & <-). apply A. exists a. auto.
      + intros i Hi. pose proof (Hrs i Hi) as X. apply in_map_iff in X. destruct X as (r & <- & Hr). now apply B.
    - intros [A B]. split.
      + intros s Hs. apply A, (resolved si Hsi); [|exact Hs]. destruct Hs as (a & _ & [X _]). exact X.
      + intros r Hr Hin. now apply B.
  Qed.

  (** A closed sub-network showing that the request can be fulfilled. *)
  Definition fulfillable : Prop :=
    (forall s, asked_sp s -> ~ protected c s) /\
    exists S R : Z -> Prop,
      subnetwork c S R /\
      (forall s, In s (c_species c) -> S (sp_id s) -> c_en c (sp_id s) = true /\ ~ asked_sp s) /\
      (forall r, In r (c_reactions c) -> R (rx_id r) -> c_enr c (rx_id r) = true /\ ~ asked_rx r) /\
      (forall s, In s (c_species c) -> protected c s -> c_en c (sp_id s) = true -> S (sp_id s)) /\
      (c_kind c = Plain -> exists s, In s (c_species c) /\ S (sp_id s) /\ pos_ion s).

  Lemma dr_idle_fuel si : idle c si rs -> disable_recursively (disable_fuel c) c si rs = (c, Ok tt).
  Proof using. intros H. unfold disable_fuel. now apply dr_idle. Qed.

  (** The consistency check at the end of [disable] only depends on the state
      before it. *)
  Lemma cascade_consistent si c' :
    assert_consistency c = Ok tt -> mapM (resolve c) ss = Ok si -> incl rs (r_ids c) ->
    disable_recursively (disable_fuel c) c si rs = (c', Ok tt) -> assert_consistency c' = Ok tt.
  Proof using I.
    intros A Hsi Hrs DR.
    destruct (idle_dec c si rs) as [Hi|Hi].
    { rewrite (dr_idle_fuel si Hi) in DR. congruence. }
    assert (E : disable c ss rs = (c', assert_consistency c')).
    { pose proof (disable_cases c ss rs (i_wf c I)) as D. inversion D as [a A1 A2 E|a A1 A2 A3 E|si' c1 E1 E2 E3 E|si' c1 E1 E2 E3 E].
      - exfalso. pose proof (mapM_resolve_Ok c ss si (i_wf c I) Hsi) as [_ X]. destruct (X a A1) as (s & X'). now apply (A2 s).
      - exfalso. pose proof (Hrs a A1) as X. apply in_map_iff in X. destruct X as (r & Er & Hr). apply (A2 r). split; auto.
      - assert (si' = si) by congruence. subst. congruence.
      - assert (si' = si) by congruence. subst. congruence. }
    pose proof (disable_Inv c ss rs I) as I'. rewrite E in I'. cbn [fst] in I'.
    pose proof (dr_frame _ _ _ _ _ _ DR) as (F1 & _ & F3 & _).
    apply assert_ok_iff; [apply I'|]. split; [apply I'|]. split; [apply I'|].
    apply (assert_ok_iff c (i_wf c I)) in A. destruct A as (_ & _ & A).
    destruct (any_disabled c') eqn:D'; [now apply ret_ok_some_disabled|].
    apply (ret_ok_same c c'); auto.
    apply any_disabled_false. intros s Hs. apply F3. rewrite any_disabled_false in D'. apply D'.
    destruct F1 as (_ & F1 & _). now rewrite F1.
  Qed.

  Theorem disable_succeeds_iff :
    assert_consistency c = Ok tt ->
    ((exists c', disable c ss rs = (c', Ok tt)) <->
     (forall a, In a ss -> exists s, denotes c a s) /\
     (forall z, In z rs -> exists r, denotes_r c z r) /\
     (asked_off \/ fulfillable)).
  Proof using I.
    intros A. pose proof (i_wf c I) as W. split.
    - intros (c' & H). pose proof (disable_closed c' H) as (O1 & O2 & O3 & O4 & O5 & O6 & O7 & O8).
      split; [exact O2|]. split; [intros z Hz; apply O3; exact Hz|].
      pose proof (disable_ok_inv c ss rs c' W H) as (si & Hsi & Hrs & DR & _).
      destruct (idle_dec c si rs) as [Hi|Hi]; [left; now apply (asked_off_idle si)|right].
      assert (NI : ~ idle c si rs).
      { intros X. apply idle_filters in X. destruct X as [X1 X2]. destruct Hi; congruence. }
      split.
      + intros s Hs Hp. unfold disable_fuel in DR.
        assert (Hin : In s (c_species c)) by (destruct Hs as (a & _ & [X _]); exact X).
        pose proof (dr_round (List.length (c_species c) + List.length (c_reactions c)) c si rs) as Rd.
        rewrite DR in Rd.
        assert (Hh : hit c si = false).
        { inversion Rd as [N1 N2| | | |]; subst; auto. exfalso. apply NI, idle_filters. auto. }
        unfold hit in Hh. rewrite existsb_false in Hh.
        assert (Hm : memZ (sp_id s) si = true) by (apply memZ_In, (resolved si Hsi); auto).
        rewrite Hh in Hm; [discriminate|]. apply filter_In. split; [exact Hin|]. apply orb_true_iff. exact Hp.
      + pose proof (disable_Inv c ss rs I) as I'. rewrite H in I'. cbn [fst] in I'.
        exists (on_sp c'), (on_r c'). split; [|split; [|split; [|split]]].
        * eapply subnetwork_same; [apply same_data_sym; exact O7|exact O4].
        * intros s Hs Hon. split; [apply O5; exact Hon|]. intros Ha. apply O1 in Ha. unfold on_sp in Hon. congruence.
        * intros r Hr Hon. split; [apply O6; exact Hon|]. intros Ha. apply O3 in Ha. unfold on_r in Hon.
          destruct Ha. congruence.
        * intros s Hs Hp He. unfold on_sp.
          pose proof (disable_frame c ss rs c' _ W H) as (_ & _ & _ & _ & _ & F). apply F; auto.
        * intros K. pose proof (i_charge c' I') as Q. unfold charge_ok in Q.
          destruct O7 as (Ok & Os & _). rewrite Ok, K, Os in Q. destruct Q as [_ (s & S1 & S2 & S3)].
          exists s. auto.
    - intros (R1 & R2 & Hfeas).
      pose proof (disable_cases c ss rs W) as D.
      inversion D as [a A1 A2 E|a A1 A2 A3 E|si c1 Hsi Hrs DR E|si c1 Hsi Hrs DR E].
      + exfalso. destruct (R1 a A1) as (s & X). now apply (A2 s).
      + exfalso. destruct (R2 a A1) as (r & X). now apply (A2 r).
      + exfalso. destruct Hfeas as [Hoff|(HP & S & R & F1 & F2 & F3 & F4 & F5)].
        * apply (asked_off_idle si Hsi Hrs) in Hoff. rewrite (dr_idle_fuel si Hoff) in DR. discriminate.
        * assert (EChemDisable = EFuel); [|discriminate].
          eapply (dr_succeeds _ c si rs c1 EChemDisable S R); eauto.
          -- intros s Hs HSs. destruct (F2 s Hs HSs) as [X1 X2]. split; [exact X1|]. now rewrite resolved.
          -- intros s Hs Hp Hin. apply (resolved si Hsi s Hs) in Hin. now apply (HP s).
          -- intros K. apply F5. destruct (c_kind c); [reflexivity|discriminate].
      + exists c1. f_equal. eapply cascade_consistent; eauto.
  Qed.

  Theorem disable_failed c' e :
    disable c ss rs = (c', Err e) ->
    (c' = c /\ (e = ESpeciesNotPresent \/ e = EReactionNotPresent \/ e = EChemDisable)) \/
    (e = EChemConsistency /\ assert_consistency c = Err EChemConsistency).
  Proof using I.
    intros H. pose proof (disable_cases c ss rs (i_wf c I)) as D. rewrite H in D.
    inversion D as [a A1 A2 E|a A1 A2 A3 E|si c1 Hsi Hrs DR E|si c1 Hsi Hrs DR E]; subst; auto 6.
    right. match goal with X : assert_consistency c' = Err e |- _ => rename X into A end.
    pose proof (assert_errors c' e A). subst e. split; [reflexivity|].
    destruct (assert_consistency c) as [[]|e'] eqn:Ac.
    - rewrite (cascade_consistent si c' Ac Hsi Hrs DR) in A. discriminate.
    - now rewrite (assert_errors c e' Ac).
  Qed.
End Disable.

(** ** Reset after disable *)
Lemma reset_after_disable c ss rs : wf c -> reset (fst (disable c ss rs)) = reset c.
Proof.
  intros W. destruct (disable c ss rs) as [c' o] eqn:H.
  pose proof (disable_frame c ss rs c' o W H) as ((A1 & A2 & A3 & A4 & A5 & A6 & A7) & Hp & _).
  unfold reset, with_adprot, with_enr, with_en. cbn.
  now rewrite A1, A2, A3, A4, A5, A6, A7, Hp.
Qed.

(** ** Order independence *)

Lemma denotes_same c c' a s : c_species c' = c_species c -> (denotes c' a s <-> denotes c a s).
Proof. intros H. unfold denotes. now rewrite H. Qed.

Lemma asked_same c c' ss s : c_species c' = c_species c -> (asked_sp c' ss s <-> asked_sp c ss s).
Proof.
  intros H. unfold asked_sp. split; intros (a & A1 & A2); exists a; split; auto;
    now apply (denotes_same c c' a s H).
Qed.

Lemma asked_app c s1 s2 s : asked_sp c (s1 ++ s2) s <-> asked_sp c s1 s \/ asked_sp c s2 s.
Proof.
  unfold asked_sp. split.
  - intros (a & A1 & A2). apply in_app_iff in A1. destruct A1; [left|right]; eauto.
  - intros [(a & A1 & A2)|(a & A1 & A2)]; exists a; split; auto; apply in_app_iff; auto.
Qed.

(** Two successful requests from the same state that allow the same
    sub-networks end in the same state. *)
Lemma bool_eq_iff (a b : bool) : (a = true <-> b = true) -> a = b.
Proof. destruct a, b; intuition congruence. Qed.

(** The ad-hoc protection after a successful disable. *)
Lemma disable_adprot c ss rs c' :
  Inv c -> disable c ss rs = (c', Ok tt) ->
  (asked_off c ss rs /\ c' = c) \/
  (~ asked_off c ss rs /\
   forall i, c_adprot c' i = true <->
     c_adprot c i = true \/ c_kind c = Plain /\ exists ion, ions c' = [ion] /\ sp_id ion = i).
Proof.
  intros I H. pose proof (disable_ok_inv c ss rs c' (i_wf c I) H) as (si & Hsi & Hrs & DR & _).
  destruct (idle_dec c si rs) as [Hi|Hi].
  - left. split; [now apply (asked_off_idle c ss rs I si)|].
    rewrite (dr_idle_fuel c rs si Hi) in DR. congruence.
  - right. assert (NI : ~ idle c si rs).
    { intros X. apply idle_filters in X. destruct X as [X1 X2]. destruct Hi; congruence. }
    split; [now rewrite (asked_off_idle c ss rs I si)|].
    pose proof (dr_ions _ _ _ _ _ (i_wf c I) DR NI) as [_ J]. intros i. rewrite J.
    destruct (c_kind c); cbn [requires_charge]; intuition discriminate.
Qed.

Section Order.
  Variables (c : chem) (s1 s2 : list ref) (r1 r2 : list Z).
  Hypothesis I : Inv c.
  Hypothesis A : assert_consistency c = Ok tt.

  Lemma after_consistent c1 ss rs : disable c ss rs = (c1, Ok tt) -> assert_consistency c1 = Ok tt.
  Proof using I.
    intros H. pose proof (disable_ok_inv c ss rs c1 (i_wf c I) H) as (si & _ & _ & _ & X). exact X.
  Qed.

  Lemma seq_masks c1 c2 c3 :
    disable c s1 r1 = (c1, Ok tt) -> disable c1 s2 r2 = (c2, Ok tt) ->
    disable c (s1 ++ s2) (r1 ++ r2) = (c3, Ok tt) ->
    (forall i, In i (sp_ids c) -> c_en c3 i = c_en c2 i) /\
    (forall i, In i (r_ids c) -> c_enr c3 i = c_enr c2 i).
  Proof using I.
    intros H1 H2 H3.
    pose proof (disable_Inv c s1 r1 I) as I1. rewrite H1 in I1. cbn [fst] in I1.
    pose proof (disable_closed c s1 r1 I c1 H1) as (O1 & _ & O3 & O4 & O5 & O6 & O7 & _).
    pose proof (disable_closed c1 s2 r2 I1 c2 H2) as (P1 & _ & P3 & P4 & P5 & P6 & P7 & _).
    pose proof (disable_closed c _ _ I c3 H3) as (Q1 & _ & Q3 & Q4 & Q5 & Q6 & Q7 & _).
    pose proof O7 as (_ & Os & Or & _). pose proof P7 as (_ & Ps & Pr & _).
    assert (Sub2 : subnetwork c (on_sp c2) (on_r c2)).
    { eapply subnetwork_same; [|exact P4]. apply same_data_sym. exact (same_data_trans _ _ _ O7 P7). }
    assert (Sub3 : subnetwork c (on_sp c3) (on_r c3)).
    { eapply subnetwork_same; [apply same_data_sym; exact Q7|exact Q4]. }
    pose proof (disable_maximal c _ _ I c3 _ (on_sp c2) (on_r c2) H3 Sub2) as M3.
    destruct M3 as [M3s M3r].
    { intros s Hs Hon. split; [apply O5, P5, Hon|]. rewrite asked_app. intros [X|X].
      - apply O1 in X. apply P5 in Hon. congruence.
      - assert (asked_sp c1 s2 s) as X' by (now apply (asked_same c c1 s2 s)). apply P1 in X'.
        unfold on_sp in Hon. congruence. }
    { intros r Hr Hon. split; [apply O6, P6, Hon|]. unfold asked_rx. rewrite in_app_iff. intros [X|X].
      - apply O3 in X. apply P6 in Hon. destruct X; congruence.
      - apply P3 in X. unfold on_r in Hon. destruct X; congruence. }
    pose proof (disable_maximal c s1 r1 I c1 _ (on_sp c3) (on_r c3) H1 Sub3) as M1.
    destruct M1 as [M1s M1r].
    { intros s Hs Hon. split; [apply Q5, Hon|]. intros X.
      assert (asked_sp c (s1 ++ s2) s) as X' by (rewrite asked_app; auto). apply Q1 in X'.
      unfold on_sp in Hon. congruence. }
    { intros r Hr Hon. split; [apply Q6, Hon|]. unfold asked_rx. intros X.
      assert (In (rx_id r) (r1 ++ r2)) as X' by (rewrite in_app_iff; auto). apply Q3 in X'.
      unfold on_r in Hon. destruct X'; congruence. }
    assert (Sub31 : subnetwork c1 (on_sp c3) (on_r c3)).
    { eapply subnetwork_same; [exact O7|exact Sub3]. }
    pose proof (disable_maximal c1 s2 r2 I1 c2 _ (on_sp c3) (on_r c3) H2 Sub31) as M2.
    destruct M2 as [M2s M2r].
    { rewrite Os. intros s Hs Hon. split; [now apply M1s|]. intros X.
      apply (asked_same c c1 s2 s Os) in X.
      assert (asked_sp c (s1 ++ s2) s) as X' by (rewrite asked_app; auto). apply Q1 in X'.
      unfold on_sp in Hon. congruence. }
    { rewrite Or. intros r Hr Hon. split; [now apply M1r|]. unfold asked_rx. intros X.
      assert (In (rx_id r) (r1 ++ r2)) as X' by (rewrite in_app_iff; auto). apply Q3 in X'.
      unfold on_r in Hon. destruct X'; congruence. }
    rewrite Os in M2s. rewrite Or in M2r.
    split.
    - intros i Hi. apply in_map_iff in Hi. destruct Hi as (s & <- & Hs). apply bool_eq_iff. split; intros X.
      + apply M2s; auto.
      + apply M3s; auto.
    - intros i Hi. apply in_map_iff in Hi. destruct Hi as (r & <- & Hr). apply bool_eq_iff. split; intros X.
      + apply M2r; auto.
      + apply M3r; auto.
  Qed.

  Theorem disable_seq_union c1 c2 :
    (forall s, asked_sp c (s1 ++ s2) s -> ~ protected c s) ->
    disable c s1 r1 = (c1, Ok tt) -> disable c1 s2 r2 = (c2, Ok tt) ->
    exists c3, disable c (s1 ++ s2) (r1 ++ r2) = (c3, Ok tt) /\ same_state c2 c3.
  Proof using I A.
    intros HP H1 H2.
    pose proof (disable_Inv c s1 r1 I) as I1. rewrite H1 in I1. cbn [fst] in I1.
    pose proof (disable_Inv c1 s2 r2 I1) as I2. rewrite H2 in I2. cbn [fst] in I2.
    pose proof (disable_closed c s1 r1 I c1 H1) as (O1 & O2 & O3 & O4 & O5 & O6 & O7 & O8).
    pose proof (disable_closed c1 s2 r2 I1 c2 H2) as (P1 & P2 & P3 & P4 & P5 & P6 & P7 & P8).
    pose proof O7 as (Ok1 & Os & Or & _). pose proof P7 as (Ok2 & Ps & Pr & _).
    pose proof (disable_frame c s1 r1 c1 _ (i_wf c I) H1) as (_ & _ & _ & _ & Ad1 & Pt1).
    pose proof (disable_frame c1 s2 r2 c2 _ (i_wf c1 I1) H2) as (_ & _ & _ & _ & Ad2 & Pt2).
    assert (Ex : exists c3, disable c (s1 ++ s2) (r1 ++ r2) = (c3, Ok tt)).
    { apply (disable_succeeds_iff c (s1 ++ s2) (r1 ++ r2) I A). split; [|split].
      - intros a Ha. apply in_app_iff in Ha. destruct Ha as [Ha|Ha]; [now apply O2|].
        destruct (P2 a Ha) as (s & Hs). exists s. now apply (denotes_same c c1 a s Os).
      - intros z Hz. apply in_app_iff in Hz. destruct Hz as [Hz|Hz]; [now apply O3|].
        destruct (P3 z Hz) as (_ & r & Hr). exists r. unfold denotes_r in *. now rewrite Or in Hr.
      - right. split; [exact HP|]. exists (on_sp c2), (on_r c2). split; [|split; [|split; [|split]]].
        + eapply subnetwork_same; [|exact P4]. apply same_data_sym. exact (same_data_trans _ _ _ O7 P7).
        + intros s Hs Hon. split; [apply O5, P5, Hon|]. rewrite asked_app. intros [X|X].
          * apply O1 in X. apply P5 in Hon. congruence.
          * assert (asked_sp c1 s2 s) as X' by (now apply (asked_same c c1 s2 s)). apply P1 in X'.
            unfold on_sp in Hon. congruence.
        + intros r Hr Hon. split; [apply O6, P6, Hon|]. unfold asked_rx. rewrite in_app_iff. intros [X|X].
          * apply O3 in X. apply P6 in Hon. destruct X; congruence.
          * apply P3 in X. unfold on_r in Hon. destruct X; congruence.
        + intros s Hs Hp He. unfold on_sp. apply Pt2.
          * now rewrite Os.
          * destruct Hp as [Hp|Hp]; [left; now rewrite O8|right; now apply Ad1].
          * apply Pt1; auto.
        + intros K. pose proof (i_charge c2 I2) as Q. unfold charge_ok in Q.
          rewrite Ok2, Ok1, K, Ps, Os in Q. destruct Q as [_ (s & S1 & S2 & S3)]. exists s. auto. }
    destruct Ex as (c3 & H3). exists c3. split; [exact H3|].
    pose proof (seq_masks c1 c2 c3 H1 H2 H3) as [E1 E2].
    pose proof (disable_closed c _ _ I c3 H3) as (_ & _ & _ & _ & _ & _ & Q7 & Q8).
    pose proof Q7 as (Kq & Qs & Qr & _).
    split; [|split].
    - eapply same_data_trans; [|exact Q7]. apply same_data_sym. exact (same_data_trans _ _ _ O7 P7).
    - intros i Hi. unfold sp_ids in Hi. rewrite Ps, Os in Hi. split; [now apply E1|]. split; [now rewrite Q8, P8, O8|].
      assert (Hions : ions c3 = ions c2).
      { apply ions_same; [congruence|]. intros s Hs. rewrite Ps, Os in Hs. apply E1. now apply in_map. }
      apply bool_eq_iff.
      destruct (disable_adprot c s1 r1 c1 I H1) as [[F1 ->]|[F1 G1]].
      + destruct (disable_adprot c s2 r2 c2 I H2) as [[F2 ->]|[F2 G2]].
        * destruct (disable_adprot c _ _ c3 I H3) as [[F3 ->]|[F3 G3]]; [tauto|].
          exfalso. apply F3. split.
          -- intros s Hs. apply asked_app in Hs. destruct Hs as [Hs|Hs]; [now apply F1|now apply F2].
          -- intros r Hr Hs. unfold asked_rx in Hs. apply in_app_iff in Hs. destruct Hs as [Hs|Hs]; [now apply F1|now apply F2].
        * destruct (disable_adprot c _ _ c3 I H3) as [[F3 ->]|[F3 G3]].
          -- exfalso. apply F2. destruct F3 as [F3 F3']. split.
             ++ intros s Hs. apply F3, asked_app. auto.
             ++ intros r Hr Hs. apply F3'; auto. unfold asked_rx. apply in_app_iff. auto.
          -- rewrite G3, G2, Hions. tauto.
      + assert (F3 : ~ asked_off c (s1 ++ s2) (r1 ++ r2)).
        { intros [F3 F3']. apply F1. split.
          - intros s Hs. apply F3, asked_app. auto.
          - intros r Hr Hs. apply F3'; auto. unfold asked_rx. apply in_app_iff. auto. }
        destruct (disable_adprot c _ _ c3 I H3) as [[F3' _]|[_ G3]]; [contradiction|].
        rewrite G3. destruct (disable_adprot c1 s2 r2 c2 I1 H2) as [[F2 ->]|[F2 G2]].
        * rewrite G1, Hions. tauto.
        * rewrite G2, G1, Hions. rewrite Ok1. split; [tauto|].
          intros [[X|(K & ion & X & Y)]|X]; auto.
          right. split; [exact K|]. exists ion. split; [|exact Y].
          apply (ions_unique_shrink c1 c2); auto.
          assert (In ion (ions c1)) as Z by (rewrite X; now left). apply ions_In in Z. destruct Z as (Z1 & Z2 & Z3).
          apply Pt2; auto. rewrite <- Ok1 in K. now apply (i_last c1 I1 K).
    - intros i Hi. unfold r_ids in Hi. rewrite Pr, Or in Hi. now apply E2.
  Qed.

  Theorem disable_union_seq c3 :
    (forall s, asked_sp c (s1 ++ s2) s -> ~ protected c s) ->
    disable c (s1 ++ s2) (r1 ++ r2) = (c3, Ok tt) ->
    exists c1 c2, disable c s1 r1 = (c1, Ok tt) /\ disable c1 s2 r2 = (c2, Ok tt).
  Proof using I A.
    intros HP H3.
    pose proof (disable_Inv c (s1 ++ s2) (r1 ++ r2) I) as I3. rewrite H3 in I3. cbn [fst] in I3.
    pose proof (disable_closed c _ _ I c3 H3) as (Q1 & Q2 & Q3 & Q4 & Q5 & Q6 & Q7 & Q8).
    pose proof (disable_frame c _ _ c3 _ (i_wf c I) H3) as (_ & _ & _ & _ & Ad3 & Pt3).
    pose proof Q7 as (Kq & Qs & Qr & _).
    assert (Sub3 : subnetwork c (on_sp c3) (on_r c3)).
    { eapply subnetwork_same; [apply same_data_sym; exact Q7|exact Q4]. }
    assert (Ion3 : c_kind c = Plain -> exists s, In s (c_species c) /\ on_sp c3 (sp_id s) /\ pos_ion s).
    { intros K. pose proof (i_charge c3 I3) as Q. unfold charge_ok in Q. rewrite Kq, K, Qs in Q.
      destruct Q as [_ (s & S1 & S2 & S3)]. exists s. auto. }
    assert (Ex1 : exists c1, disable c s1 r1 = (c1, Ok tt)).
    { apply (disable_succeeds_iff c s1 r1 I A). split; [|split].
      - intros a Ha. apply Q2, in_app_iff. auto.
      - intros z Hz. apply Q3, in_app_iff. auto.
      - right. split; [intros s Hs; apply HP, asked_app; auto|].
        exists (on_sp c3), (on_r c3). split; [exact Sub3|]. split; [|split; [|split]].
        + intros s Hs Hon. split; [apply Q5, Hon|]. intros X.
          assert (asked_sp c (s1 ++ s2) s) as X' by (rewrite asked_app; auto). apply Q1 in X'.
          unfold on_sp in Hon. congruence.
        + intros r Hr Hon. split; [apply Q6, Hon|]. unfold asked_rx. intros X.
          assert (In (rx_id r) (r1 ++ r2)) as X' by (rewrite in_app_iff; auto). apply Q3 in X'.
          unfold on_r in Hon. destruct X'; congruence.
        + intros s Hs Hp He. apply Pt3; auto.
        + exact Ion3. }
    destruct Ex1 as (c1 & H1).
    pose proof (disable_Inv c s1 r1 I) as I1. rewrite H1 in I1. cbn [fst] in I1.
    pose proof (disable_closed c s1 r1 I c1 H1) as (O1 & O2 & O3 & O4 & O5 & O6 & O7 & O8).
    pose proof O7 as (Ok1 & Os & Or & _).
    pose proof (disable_maximal c s1 r1 I c1 _ (on_sp c3) (on_r c3) H1 Sub3) as M1.
    destruct M1 as [M1s M1r].
    { intros s Hs Hon. split; [apply Q5, Hon|]. intros X.
      assert (asked_sp c (s1 ++ s2) s) as X' by (rewrite asked_app; auto). apply Q1 in X'.
      unfold on_sp in Hon. congruence. }
    { intros r Hr Hon. split; [apply Q6, Hon|]. unfold asked_rx. intros X.
      assert (In (rx_id r) (r1 ++ r2)) as X' by (rewrite in_app_iff; auto). apply Q3 in X'.
      unfold on_r in Hon. destruct X'; congruence. }
    (* a species protected in c1 and enabled there belongs to c3 *)
    assert (Keep : forall s, In s (c_species c) -> protected c1 s -> c_en c1 (sp_id s) = true -> on_sp c3 (sp_id s)).
    { intros s Hs Hp He. destruct Hp as [Hp|Hp].
      - apply Pt3; auto. left. now rewrite O8 in Hp.
      - destruct (disable_adprot c s1 r1 c1 I H1) as [[F1 ->]|[F1 G1]].
        + apply Pt3; auto. now right.
        + apply G1 in Hp. destruct Hp as [Hp|(K & ion & X & Y)].
          * apply Pt3; auto. now right.
          * destruct (Ion3 K) as (s' & S1 & S2 & S3).
            assert (In s' (ions c1)) as Z by (apply ions_In; rewrite Os; repeat split; auto; try apply S3; apply M1s; auto).
            rewrite X in Z. destruct Z as [Z|[]]. subst s'. congruence. }
    assert (Ex2 : exists c2, disable c1 s2 r2 = (c2, Ok tt)).
    { apply (disable_succeeds_iff c1 s2 r2 I1 (after_consistent c1 s1 r1 H1)). split; [|split].
      - intros a Ha. destruct (Q2 a) as (s & Hs); [apply in_app_iff; auto|]. exists s. now apply (denotes_same c c1 a s Os).
      - intros z Hz. destruct (Q3 z) as (_ & r & Hr); [apply in_app_iff; auto|]. exists r.
        unfold denotes_r in *. now rewrite Or.
      - assert (NotProt : (forall s, asked_sp c1 s2 s -> ~ protected c1 s) \/ asked_off c1 s2 r2 \/ True) by auto.
        right. split.
        + intros s Hs Hp. apply (asked_same c c1 s2 s Os) in Hs.
          assert (Hin : In s (c_species c)) by (destruct Hs as (a & _ & [X _]); exact X).
          assert (Hs' : asked_sp c (s1 ++ s2) s) by (apply asked_app; auto).
          destruct Hp as [Hp|Hp].
          * apply (HP s Hs'). left. now rewrite O8 in Hp.
          * destruct (disable_adprot c s1 r1 c1 I H1) as [[F1 ->]|[F1 G1]].
            -- apply (HP s Hs'). now right.
            -- apply G1 in Hp. destruct Hp as [Hp|(K & ion & X & Y)].
               ++ apply (HP s Hs'). now right.
               ++ assert (c_en c1 (sp_id s) = true) as He.
                  { rewrite <- Y. assert (In ion (ions c1)) as Z by (rewrite X; now left). apply ions_In in Z. tauto. }
                  assert (on_sp c3 (sp_id s)) as Hon.
                  { apply Keep; auto. right. apply G1. right. split; [exact K|]. exists ion. auto. }
                  apply Q1 in Hs'. unfold on_sp in Hon. congruence.
        + exists (on_sp c3), (on_r c3). split; [eapply subnetwork_same; [exact O7|exact Sub3]|].
          rewrite Os, Or, Ok1. split; [|split; [|split]].
          * intros s Hs Hon. split; [now apply M1s|]. intros X. apply (asked_same c c1 s2 s Os) in X.
            assert (asked_sp c (s1 ++ s2) s) as X' by (rewrite asked_app; auto). apply Q1 in X'.
            unfold on_sp in Hon. congruence.
          * intros r Hr Hon. split; [now apply M1r|]. unfold asked_rx. intros X.
            assert (In (rx_id r) (r1 ++ r2)) as X' by (rewrite in_app_iff; auto). apply Q3 in X'.
            unfold on_r in Hon. destruct X'; congruence.
          * exact Keep.
          * exact Ion3. }
    destruct Ex2 as (c2 & H2). exists c1, c2. auto.
  Qed.
End Order.

(** Repeating a successful disable changes nothing. *)
Theorem disable_idempotent c ss rs c1 :
  Inv c -> disable c ss rs = (c1, Ok tt) -> disable c1 ss rs = (c1, Ok tt).
Proof.
  intros I H. pose proof (disable_Inv c ss rs I) as I1. rewrite H in I1. cbn [fst] in I1.
  pose proof (disable_closed c ss rs I c1 H) as (O1 & O2 & O3 & _ & _ & _ & O7 & _).
  pose proof O7 as (_ & Os & Or & _).
  pose proof (after_consistent c I c1 ss rs H) as A.
  assert (Off : asked_off c1 ss rs).
  { split.
    - intros s Hs. apply O1. now apply (asked_same c c1 ss s).
    - intros r Hr Hin. now apply O3. }
  pose proof (disable_cases c1 ss rs (i_wf c1 I1)) as D.
  inversion D as [a A1 A2 E|a A1 A2 A3 E|si c2 Hsi Hrs DR E|si c2 Hsi Hrs DR E].
  - exfalso. destruct (O2 a A1) as (s & X). apply (A2 s). now apply (denotes_same c c1 a s Os).
  - exfalso. destruct (O3 a A1) as (_ & r & X). apply (A2 r). unfold denotes_r in *. now rewrite Or.
  - exfalso. apply (asked_off_idle c1 ss rs I1 si Hsi Hrs) in Off. rewrite (dr_idle_fuel c1 rs si Off) in DR. discriminate.
  - apply (asked_off_idle c1 ss rs I1 si Hsi Hrs) in Off. rewrite (dr_idle_fuel c1 rs si Off) in DR.
    inversion DR; subst. now rewrite A.
Qed.

(** ** User protections hold for ever *)
Lemma step_prot_mono E c o i : c_prot c i = true -> c_prot (fst (step E c o)) i = true.
Proof.
  intros H. destruct o; cbn [step].
  - unfold disable.
    destruct (let* si := _ in _) as [[si ri]|e]; [|exact H].
    destruct (disable_recursively (disable_fuel c) c si ri) as [c' [u|e]] eqn:D.
    + pose proof (dr_frame _ _ _ _ _ _ D) as (_ & Hp & _). cbn. now rewrite Hp.
    + pose proof (dr_frame _ _ _ _ _ _ D) as (_ & Hp & _). destruct e; cbn; try (now rewrite Hp); exact H.
  - destruct (set_protected_cases c args) as [(e & ->)|(ids & _ & ->)]; cbn; [exact H|]. apply mset_true. auto.
  - exact H.
  - destruct (set_adhoc_species_cases E c attrib r v)
      as [(e & ->)|[(s & x & _ & _ & _ & ->)|(s & d & d' & _ & _ & _ & _ & _ & ->)]]; exact H.
  - unfold reset_adhoc_species.
    destruct (String.eqb attrib "all"); [exact H|]. destruct (String.eqb attrib "stick_coef"); [exact H|].
    destruct (String.eqb attrib "ret_coefs"); exact H.
  - destruct (set_rx_cases c attrib rid v) as [(e & ->)|(x & _ & _ & _ & ->)]; exact H.
  - unfold reset_adhoc_reactions. destruct (String.eqb attrib "all" || String.eqb attrib "arrh_a"); exact H.
Qed.

Lemma step_static E c o : wf c ->
  c_kind (fst (step E c o)) = c_kind c /\ c_species (fst (step E c o)) = c_species c /\
  c_reactions (fst (step E c o)) = c_reactions c /\ c_xml (fst (step E c o)) = c_xml c.
Proof.
  intros W. destruct o; cbn [step].
  - destruct (disable c species reactions) as [c' o] eqn:H.
    pose proof (disable_frame c species reactions c' o W H) as ((A1 & A2 & A3 & A4 & _) & _). auto.
  - destruct (set_protected_cases c args) as [(e & ->)|(ids & _ & ->)]; auto.
  - auto.
  - destruct (set_adhoc_species_cases E c attrib r v)
      as [(e & ->)|[(s & x & _ & _ & _ & ->)|(s & d & d' & _ & _ & _ & _ & _ & ->)]]; auto.
  - unfold reset_adhoc_species.
    destruct (String.eqb attrib "all"); [auto|]. destruct (String.eqb attrib "stick_coef"); [auto|].
    destruct (String.eqb attrib "ret_coefs"); auto.
  - destruct (set_rx_cases c attrib rid v) as [(e & ->)|(x & _ & _ & _ & ->)]; auto.
  - unfold reset_adhoc_reactions. destruct (String.eqb attrib "all" || String.eqb attrib "arrh_a"); auto.
Qed.

(** Enabled-ness is only lost through disable. *)
Lemma step_keeps_protected E c o s :
  Inv c -> In s (c_species c) -> protected c s -> c_en c (sp_id s) = true ->
  c_en (fst (step E c o)) (sp_id s) = true.
Proof.
  intros I Hs Hp He. destruct o; cbn [step].
  - destruct (disable c species reactions) as [c' o] eqn:H.
    pose proof (disable_frame c species reactions c' o (i_wf c I) H) as (_ & _ & _ & _ & _ & F). now apply F.
  - destruct (set_protected_cases c args) as [(e & ->)|(ids & _ & ->)]; exact He.
  - reflexivity.
  - destruct (set_adhoc_species_cases E c attrib r v)
      as [(e & ->)|[(s' & x & _ & _ & _ & ->)|(s' & d & d' & _ & _ & _ & _ & _ & ->)]]; exact He.
  - unfold reset_adhoc_species.
    destruct (String.eqb attrib "all"); [exact He|]. destruct (String.eqb attrib "stick_coef"); [exact He|].
    destruct (String.eqb attrib "ret_coefs"); exact He.
  - destruct (set_rx_cases c attrib rid v) as [(e & ->)|(x & _ & _ & _ & ->)]; exact He.
  - unfold reset_adhoc_reactions. destruct (String.eqb attrib "all" || String.eqb attrib "arrh_a"); exact He.
Qed.

Theorem protected_forever E c ops s :
  Inv c -> In s (c_species c) -> c_prot c (sp_id s) = true -> c_en c (sp_id s) = true ->
  c_en (run E c ops) (sp_id s) = true /\ c_prot (run E c ops) (sp_id s) = true.
Proof.
  unfold run. revert c. induction ops as [|o ops IH]; cbn [fold_left]; intros c I Hs Hp He; [auto|].
  apply IH.
  - now apply step_Inv.
  - destruct (step_static E c o (i_wf c I)) as (_ & -> & _). exact Hs.
  - now apply step_prot_mono.
  - apply step_keeps_protected; auto. now left.
Qed.

Theorem charge_kept c :
  Inv c -> c_kind c = Plain ->
  (exists e, In e (c_species c) /\ sp_name e = "e" /\ c_en c (sp_id e) = true /\ protected c e) /\
  (exists s, In s (c_species c) /\ c_en c (sp_id s) = true /\ pos_ion s) /\
  (forall s, In s (c_species c) -> c_en c (sp_id s) = true -> pos_ion s ->
     (forall s', In s' (c_species c) -> c_en c (sp_id s') = true -> pos_ion s' -> s' = s) ->
     protected c s).
Proof.
  intros I K. pose proof (i_charge c I) as Q. unfold charge_ok in Q. rewrite K in Q.
  destruct Q as [(e & E1 & E2 & E3) Q]. split; [|split; [exact Q|]].
  - destruct (i_eprot c I K) as (s & S1 & S2 & S3). exists s. repeat split; auto.
    + replace s with e; [exact E3|]. apply (NoDup_map_inj sp_name (c_species c)); auto.
      * apply (i_wf c I).
      * congruence.
    + now left.
  - intros s Hs He Hp Hu. apply (i_last c I K).
    assert (Hin : In s (ions c)) by (apply ions_In; auto).
    assert (Huniq : forall y, In y (ions c) -> y = s) by (intros y Hy; apply ions_In in Hy; destruct Hy as (?&?&?); auto).
    assert (ND : NoDup (ions c)).
    { apply (NoDup_map_inv sp_id). unfold ions, get_species. rewrite filter_filter.
      apply NoDup_map_filter. apply (i_wf c I). }
    destruct (ions c) as [|x [|y l]].
    + destruct Hin.
    + f_equal. apply Huniq. now left.
    + exfalso. inversion ND as [|? ? Hni ?]; subst. apply Hni. left.
      rewrite (Huniq x), (Huniq y); auto; cbn; auto.
Qed.

(** ** copy succeeds on every reachable base-class chemistry *)
Lemma load_static E fh c f b : 
  c_kind (fst (load E fh c f b)) = c_kind c /\ c_species (fst (load E fh c f b)) = c_species c /\
  c_reactions (fst (load E fh c f b)) = c_reactions c /\ c_xml (fst (load E fh c f b)) = c_xml c.
Proof.
  set (P := fun c' => c_kind c' = c_kind c /\ c_species c' = c_species c /\
                      c_reactions c' = c_reactions c /\ c_xml c' = c_xml c).
  assert (P0 : P c) by (repeat split).
  assert (PM : P (fst (load_masks c f))).
  { unfold load_masks.
    assert (G : forall l c0, P c0 -> (forall g c1, In g l -> P c1 -> P (fst (g c1))) ->
                P (fst (steps (fun c (g : chem -> chem * res unit) => g c) c0 l))).
    { intros l. induction l as [|g l IH]; cbn; intros c0 H0 Hg; [exact H0|].
      pose proof (Hg g c0 (or_introl eq_refl) H0) as X. destruct (g c0) as [c1 [u|e]]; cbn in *; auto. }
    apply G; [exact P0|].
    intros g c1 Hin H1.
    cbn in Hin. unfold series_set in Hin.
    repeat (destruct Hin as [<-|Hin];
      [ try (destruct (forallb _ _)); exact H1 |]). destruct Hin. }
  assert (PA : forall l c1, P c1 -> P (fst (steps (load_sp E) c1 l))).
  { intros l c1 H1. apply steps_inv; [|exact H1]. intros c2 t H2. unfold load_sp.
    destruct (set_adhoc_species_cases E c2 (fst (fst t)) (RId (snd (fst t))) (snd t))
      as [(e & ->)|[(s' & x & _ & _ & _ & ->)|(s' & d & d' & _ & _ & _ & _ & _ & ->)]]; exact H2. }
  assert (PR : forall l c1, P c1 -> P (fst (steps load_rx c1 l))).
  { intros l c1 H1. apply steps_inv; [|exact H1]. intros c2 t H2. unfold load_rx.
    destruct (set_rx_cases c2 (fst (fst t)) (snd (fst t)) (snd t)) as [(e & ->)|(x & _ & _ & _ & ->)]; exact H2. }
  change (P (fst (load E fh c f b))). unfold load. fold (load_sp E). fold load_rx.
  destruct (if b then _ else _) as [u|e]; [|exact P0].
  destruct (load_masks c f) as [c1 [u'|e]]; [|exact PM]. cbn [fst] in PM.
  change (fun (c0 : chem) (t : string * Z * pyval) =>
     set_adhoc_species E c0 (fst (fst t)) (RId (snd (fst t))) (snd t)) with (load_sp E).
  change (fun (c0 : chem) (t : string * Z * pyval) =>
     set_adhoc_reactions c0 (fst (fst t)) (snd (fst t)) (snd t)) with load_rx.
  specialize (PA (a_sp f) (with_ret (with_stick c1 []) []) PM).
  destruct (steps (load_sp E) (with_ret (with_stick c1 []) []) (a_sp f)) as [c3 [u''|e]]; [|exact PA]. cbn [fst] in PA.
  specialize (PR (a_rx f) (with_arrh c3 []) PA).
  destruct (steps load_rx (with_arrh c3 []) (a_rx f)) as [c5 [u3|e]]; exact PR.
Qed.

Lemma reachable_built E c :
  reachable E c -> exists c0, init (c_kind c) (c_species c) (c_reactions c) (c_xml c) = Ok c0.
Proof.
  intros H. induction H as [k species reactions xml c Hh Hi|c o Hc IH|c c' Hc IH Hcp|fh fh' c d f b Hc IHc Hd IHd Hsi Hf].
  - exists c. pose proof (init_fields _ _ _ _ _ Hi) as (-> & -> & -> & -> & _). exact Hi.
  - destruct (step_static E c o (i_wf c (reachable_Inv E c Hc))) as (-> & -> & -> & ->). exact IH.
  - rewrite (copy_same c c'); auto. eapply reachable_Inv; eauto.
  - destruct (load_static E fh' c f b) as (-> & -> & -> & ->). exact IHc.
Qed.

Theorem copy_total E c : reachable E c -> c_kind c = Plain -> copy c = Ok c.
Proof.
  intros H K. destruct (reachable_built E c H) as (c0 & Hi). rewrite K in Hi.
  assert (exists c', copy c = Ok c') as (c' & Hc).
  { unfold copy. rewrite Hi. cbn. eauto. }
  rewrite Hc. f_equal. apply copy_same; auto. eapply reachable_Inv; eauto.
Qed.

Theorem copy_neutral E c : reachable E c -> c_kind c = Neutral -> exists e, copy c = Err e.
Proof.
  intros H K. destruct (copy c) as [c'|e] eqn:Hc; [|eauto].
  pose proof (copy_Plain c c' (reachable_Inv E c H) Hc). congruence.
Qed.
