(** Facts about the histories of reduction runs that a comparison shows. *)
From Coq Require Import Permutation.
From Verif Require Import Base BaseLemmas Species Reactions Chemistry ChemSpec ChemHist ChemLoad Morris MorrisStats Tables InitialGuess
  GlobalModel GlobalSpec Reduction ReductionSpec ReductionChem ReductionRun ReductionProofs ReductionMain Compare CompareSpec.
Open Scope list_scope.

Lemma names_nodup E c : reachable E c -> NoDup (names_of c).
Proof. intros R. apply NoDup_map_filter. exact (wf_names c (i_wf c (reachable_Inv E c R))). Qed.

(** As many names as names that are present. *)
Lemma same_count E c d : reachable E c -> reachable E d -> (forall x, present c x <-> present d x) ->
  List.length (names_of c) = List.length (names_of d).
Proof.
  intros C D P. apply Permutation_length, NoDup_Permutation; [exact (names_nodup E c C)|exact (names_nodup E d D)|].
  intros x. rewrite !present_names. apply P.
Qed.
Lemma fewer E c d x : reachable E c -> reachable E d -> (forall y, present d y -> present c y) -> present c x -> ~ present d x ->
  (List.length (names_of d) < List.length (names_of c))%nat.
Proof.
  intros C D P X N. assert (L : (List.length (x :: names_of d) <= List.length (names_of c))%nat).
  { apply NoDup_incl_length.
    - constructor; [|exact (names_nodup E d D)]. rewrite present_names. exact N.
    - intros y [<-|Y]; apply present_names; [exact X|]. apply P. now apply present_names. }
  exact L.
Qed.

Lemma within_not_over k e : within_limit k e -> ~ over_limit k e.
Proof. destruct e; cbn; try tauto. intros A B. exact (Qlt_not_le _ _ B A). Qed.
Lemma not_nan_cases k e : e <> NaN -> within_limit k e \/ over_limit k e.
Proof.
  intros N. destruct e; cbn; try tauto; try congruence.
  destruct (Qlt_le_dec (rc_max k / 100) q); auto.
Qed.

Lemma numbers_prefix bt h1 h2 : numbers bt (h1 ++ h2) -> numbers bt h1.
Proof. intros N B r I S. apply (N B r); [apply in_or_app; now left|exact S]. Qed.

Section History.
  Variables (E : env) (fhash : string -> option string) (default_dir : string -> res path) (scan : list path -> list path).
  Hypothesis scan_perm : forall l, Permutation (scan l) l.
  Variables (k : rconf) (c0 : chem).
  Let hist h := history_of E fhash default_dir scan k c0 h.

  (** The first row is that of the base run; it stays. *)
  Lemma base_row h : hist h -> exists r h', h = r :: h' /\ h_species r = None /\ h_success r = Some true /\ h_base r = Fin 0 /\ stays k true r.
  Proof using scan_perm.
    intros (b & g & s & st & R & D & M & O & C & IT & <-).
    destruct (proj2 (iterated_inv E fhash default_dir scan b k scan_perm c0 R D M true g s st O C IT)) as [CR _ _ _ _ CS CL _].
    destruct (r_hist st) as [|r h'] eqn:H; [discriminate|]. exists r, h'. split; [reflexivity|].
    assert (S : h_success r = Some true /\ h_base r = Fin 0).
    { clear CS. assert (S : h_success r = Some true).
      { clear CL CR. revert r h' H. induction IT as [s1 st st1 H1 H2|st sp score st1 row IT IH RM]; intros r h' H.
        - unfold run_base_case in H2. destruct (r_hist st); [|discriminate]. destruct (r_tried st); [|discriminate].
          destruct (r_base st); [discriminate|]. destruct (r_last st); [discriminate|].
          destruct (run_model _ _ _ _ _ _ _ _) as [st2 [[]|]]; [|discriminate].
          destruct (log_history k _) as [st3 [[]|]] eqn:L; [|discriminate].
          unfold log_history in L. cbn [with_hist r_hist r_fs] in L. destruct (put _ _ _) as [fs o]. injection L as <- ->.
          cbn [with_fs r_gm] in H2. destruct (get_solution _) as [t|]; [|discriminate]. injection H2 as <-.
          cbn [with_sols with_fs with_hist r_hist] in H. injection H as <- _. reflexivity.
        - destruct (removal E fhash default_dir scan b k scan_perm c0 R D M true g s st sp score st1 row O C IT RM) as (_ & _ & _ & HH & _).
          destruct (proj2 (iterated_inv E fhash default_dir scan b k scan_perm c0 R D M true g s st O C IT)) as [CR _ _ _ _ _ _ _].
          destruct (r_hist st) as [|q h1] eqn:HS; [discriminate|]. rewrite HH in H. injection H as <- _. now apply (IH q h1). }
      split; [exact S|]. destruct CL as (base & _ & CL). destruct (CL [] r h' eq_refl S) as (rid & d & sol & _ & _ & _ & _ & _ & _ & (_ & X) & _).
      exact X. }
    injection CR as CR _. destruct S as [S B]. refine (conj CR (conj S (conj B (conj S _)))). intros _. rewrite B. cbn.
    apply Qle_shift_div_l; [reflexivity|]. now rewrite Qmult_0_l.
  Qed.

  (** A row that stays shows how many species the chemistry has lost. *)
  Lemma last_kept b g s st c h1 p h2 : reachable E c0 -> declared_exist c0 -> (0 <= rc_max k)%Q -> fs_ok s -> gm_chem g = Some c0 ->
    iterated E fhash default_dir scan b k true g s st -> numbers true (r_hist st) -> gm_chem (r_gm st) = Some c ->
    r_hist st = h1 ++ p :: h2 -> stays k true p -> (forall q, In q h2 -> ~ stays k true q) ->
    h_removed p = (Z.of_nat (List.length (names_of c0)) - Z.of_nat (List.length (names_of c)))%Z.
  Proof using scan_perm.
    intros R D M O C IT N GC H SP NS.
    destruct (proj2 (iterated_inv E fhash default_dir scan b k scan_perm c0 R D M true g s st O C IT)) as [_ _ _ _ _ _ CL CC].
    destruct CL as (base & _ & CL). destruct SP as [S W].
    destruct (CL h1 p h2 H S) as (rid & d & sol & _ & _ & RD & _ & HL & HR & _ & PD).
    destruct CC as (c' & GC' & _ & RC & PC). rewrite GC in GC'. injection GC' as <-.
    assert (L : List.length (names_of d) = List.length (names_of c)).
    { apply (same_count E); [exact RD|exact RC|]. intros x. rewrite (PD N), (PC N). rewrite H.
      split; intros (P0 & P1).
      - destruct P1 as (P1 & P2). split; [exact P0|]. intros (r & I & SR & RR). apply in_app_or in I. destruct I as [I|[<-|I]].
        + apply P2. eauto.
        + contradiction.
        + exact (NS r I SR).
      - split; [exact P0|]. split.
        + intros RR. apply P1. exists p. split; [apply in_or_app; right; now left|]. split; [split; assumption|exact RR].
        + intros (r & I & SR & RR). apply P1. exists r. split; [apply in_or_app; now left|]. auto. }
    rewrite HR, HL, L. reflexivity.
  Qed.

  (** The rows that stay remove more and more. *)
  Lemma kept_more h : hist h -> numbers true h -> forall h1 p h2 r h3, h = h1 ++ p :: h2 ++ r :: h3 ->
    stays k true p -> stays k true r -> (h_removed p < h_removed r)%Z.
  Proof using scan_perm.
    intros (b & g & s & st & R & D & M & O & C & IT & <-).
    induction IT as [s1 st st1 H1 H2|st sp score st1 row IT IH RM]; intros N h1 p h2 r h3 H SP SR.
    - destruct (base_case E fhash default_dir scan b k scan_perm c0 R M true g s s1 st st1 O C H1 H2) as (_ & _ & _ & _ & L).
      rewrite H in L. rewrite app_length in L. cbn [List.length] in L. rewrite app_length in L. cbn [List.length] in L. lia.
    - destruct (removal E fhash default_dir scan b k scan_perm c0 R D M true g s st sp score st1 row O C IT RM)
        as (_ & _ & _ & HH & HS & _ & c & c' & G & G' & _ & HT).
      rewrite HH in N. destruct (exists_last (l := r :: h3)) as (l & z & HL); [discriminate|].
      assert (HE : r_hist st1 = h1 ++ p :: h2 ++ l ++ [z]) by (rewrite H, HL; reflexivity).
      rewrite HH in HE. replace (h1 ++ p :: h2 ++ l ++ [z]) with ((h1 ++ p :: h2 ++ l) ++ [z]) in HE
        by (rewrite <- app_assoc; cbn [app]; now rewrite <- app_assoc).
      apply app_inj_tail in HE. destruct HE as [HE <-].
      destruct h3 as [|y h3].
      + (* the new row *)
        destruct l as [|? [|? ?]]; [|discriminate|discriminate]. cbn [app] in HL. injection HL as <-. rewrite app_nil_r in HE.
        pose proof (numbers_prefix _ _ _ N) as N'.
        destruct SR as [SR WR]. destruct (HT SR) as (c1 & DS & _ & RB & _ & NB).
        assert (Hc : c' = c1) by (apply NB; intros [_ X]; exact (within_not_over _ _ (WR eq_refl) X)). subst c1.
        assert (IT1 : iterated E fhash default_dir scan b k true g s st1) by (eapply it_next; eauto).
        destruct (proj2 (iterated_inv E fhash default_dir scan b k scan_perm c0 R D M true g s st O C IT)) as [_ _ _ _ _ _ _ (c2 & G2 & VC & RC & _)].
        rewrite G in G2. injection G2 as <-.
        destruct (proj2 (iterated_inv E fhash default_dir scan b k scan_perm c0 R D M true g s st1 O C IT1)) as [_ _ _ _ _ _ _ (c2 & G2 & _ & RC' & _)].
        rewrite G' in G2. injection G2 as <-.
        (* the last kept row of the old history *)
        assert (LK : exists ha q hb, r_hist st = ha ++ q :: hb /\ stays k true q /\ (forall y, In y hb -> ~ stays k true y) /\
                     (h_removed p <= h_removed q)%Z).
        { assert (DEC : forall y, {stays k true y} + {~ stays k true y}).
          { intros y. unfold stays. destruct (h_success y) as [[]|]; [|right; intros [X _]; discriminate|right; intros [X _]; discriminate].
            unfold within_limit. destruct (h_base y); try (right; intros [_ X]; now apply X); try (left; split; auto; fail).
            destruct (Qlt_le_dec (rc_max k / 100) q) as [Q1|Q1]; [right; intros [_ X]; exact (Qlt_not_le _ _ Q1 (X eq_refl))|left; auto]. }
          assert (LAST : forall l, (forall y, In y l -> ~ stays k true y) \/ exists a q e, l = a ++ q :: e /\ stays k true q /\ forall y, In y e -> ~ stays k true y).
          { intros l. induction l as [|y l IHl]; [left; intros ? []|]. destruct IHl as [X|(a & q & e & -> & X1 & X2)].
            - destruct (DEC y) as [Y|Y]; [right; exists [], y, l; auto|left; intros z [<-|I]; auto].
            - right. exists (y :: a), q, e. auto. }
          destruct (LAST h2) as [X|(a & q & e & -> & X1 & X2)].
          - exists h1, p, h2. split; [exact HE|]. split; [exact SP|]. split; [exact X|lia].
          - exists (h1 ++ p :: a), q, e. split; [rewrite HE, <- app_assoc; reflexivity|]. split; [exact X1|]. split; [exact X2|].
            apply Z.lt_le_incl. apply (IH N' h1 p a q e); auto. }
        destruct LK as (ha & q & hb & Hq & Sq & Nq & Lq).
        rewrite (last_kept b g s st c ha q hb R D M O C IT N' G Hq Sq Nq) in Lq.
        assert (NR : numbers true (r_hist st1)) by (rewrite HH; exact N).
        rewrite (last_kept b g s st1 c' (r_hist st) r [] R D M O C IT1 NR G' HH (conj SR WR)) by (intros ? []).
        assert (X : present c sp /\ ~ present c' sp) by (apply RB; left; exact HS).
        assert (F : (List.length (names_of c') < List.length (names_of c))%nat).
        { apply (fewer E c c' sp); [exact RC|exact RC'| |exact (proj1 X)|exact (proj2 X)].
          intros y Y. apply present_names. apply present_names in Y. exact (names_sub E c0 c c' (conj VC RC) [RName sp] [] DS y Y). }
        lia.
      + destruct l as [|? l]; [destruct h3; discriminate|]. injection HL as <- HL.
        apply (IH (numbers_prefix _ _ _ N) h1 p h2 r l); [exact HE|exact SP|exact SR].
  Qed.
End History.
