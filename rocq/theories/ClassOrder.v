(** Sorting reactions. *)
From Coq Require Import Sorted Permutation.
From Verif Require Import Base BaseLemmas Species Reactions SortLemmas Classification ClassSpec ClassProofs ClassSort.

(** ** Positions *)
Lemma index_of_place l s : NoDup (map cs_uid l) -> In s l ->
  exists i, index_of Nat.eqb (cs_uid s) (map cs_uid l) = Ok i /\ place l s i.
Proof.
  induction l as [|x l IH]; cbn; [easy|]. intros ND H. inversion ND as [|? ? Hn ND']; subst.
  destruct (Nat.eqb_spec (cs_uid s) (cs_uid x)) as [E|E].
  - exists 0. split; [reflexivity|]. split; [lia|]. destruct H as [->|H]; [reflexivity|].
    exfalso. apply Hn. rewrite <- E. now apply in_map.
  - destruct H as [->|H]; [contradiction|]. destruct (IH ND' H) as (i & -> & P1 & P2). cbn [bind]. exists (i + 1).
    split; [reflexivity|]. split; [lia|]. replace (Z.to_nat (i + 1)) with (S (Z.to_nat i)) by lia. exact P2.
Qed.

Lemma place_fun l s i j : NoDup (map cs_uid l) -> place l s i -> place l s j -> i = j.
Proof.
  intros ND [I1 I2] [J1 J2]. apply NoDup_map_inv in ND.
  assert (Z.to_nat i = Z.to_nat j); [|lia].
  apply (proj1 (NoDup_nth_error l) ND); [apply nth_error_Some; congruence|congruence].
Qed.

Section Places.
  Variables (sps : list cs) (rs : list cr).
  Hypothesis KN : species_known sps rs.

  (** The memo of positions is right. *)
  Definition index_ok (k : clf) : Prop :=
    forall s i, In s sps -> zget (cs_id s) (k_index k) = Some i -> place (k_species k) s i.
  Definition idx (k : clf) : Prop := index_ok k /\ Permutation (k_species k) sps.

  Lemma known_nodup k : idx k -> NoDup (map cs_uid (k_species k)) /\ NoDup (map cs_id (k_species k)).
  Proof using KN.
    intros [_ P]. destruct KN as (N1 & N2 & _). split.
    - apply (Permutation_NoDup (l := map cs_uid sps)); [|exact N2]. now apply Permutation_map, Permutation_sym.
    - apply (Permutation_NoDup (l := map cs_id sps)); [|exact N1]. now apply Permutation_map, Permutation_sym.
  Qed.

  Lemma same_species s t : In s sps -> In t sps -> cs_id s = cs_id t -> s = t.
  Proof using KN. intros Hs Ht E. apply (NoDup_map_inj cs_id sps); auto. apply KN. Qed.

  Lemma species_index_spec k s : idx k -> In s sps ->
    exists k' i, species_index k s = (k', Ok i) /\ idx k' /\ place (k_species k) s i /\ k_species k' = k_species k.
  Proof using KN.
    intros X Hs. pose proof X as [H P]. unfold species_index. destruct (zget (cs_id s) (k_index k)) as [i|] eqn:E.
    - exists k, i. split; [reflexivity|]. split; [exact X|]. split; [now apply H|reflexivity].
    - destruct (index_of_place (k_species k) s) as (i & -> & Pl).
      { now apply known_nodup. }
      { now apply (Permutation_in s (Permutation_sym P)). }
      eexists _, i. split; [reflexivity|]. split; [|auto]. split; [|exact P].
      intros t j Ht Hj. cbn [k_index k_species] in *. destruct (Z.eq_dec (cs_id t) (cs_id s)) as [Q|Q].
      + rewrite Q, (aget_aset_same Z.eqb Zeqb_spec) in Hj. injection Hj as <-. now rewrite (same_species t s Ht Hs Q).
      + rewrite (aget_aset_other Z.eqb Zeqb_spec) in Hj by exact Q. now apply H.
  Qed.

  Lemma indices_spec l : forall k, idx k -> (forall s, In s l -> In s sps) ->
    exists k' r, indices k l = (k', Ok r) /\ idx k' /\ k_species k' = k_species k /\ map snd r = l /\
      forall i s, In (i, s) r -> place (k_species k) s i.
  Proof using KN.
    induction l as [|s l IH]; intros k X Hl; cbn [indices].
    - exists k, []. split; [reflexivity|]. split; [exact X|]. split; [reflexivity|]. split; [reflexivity|]. intros ? ? [].
    - destruct (species_index_spec k s X (Hl s (or_introl eq_refl))) as (k1 & i & -> & X1 & P1 & S1).
      destruct (IH k1 X1 (fun t Ht => Hl t (or_intror Ht))) as (k2 & r & -> & X2 & S2 & M2 & P2).
      exists k2, ((i, s) :: r). split; [reflexivity|]. split; [exact X2|]. split; [congruence|]. split; [cbn; now rewrite M2|].
      intros j t [Hin|Hin]; [injection Hin as <- <-; exact P1|]. rewrite <- S1. auto.
  Qed.

  Lemma sorted_side_spec k l : idx k -> (forall s, In s l -> In s sps) ->
    exists k' r, sorted_side k l = (k', Ok r) /\ idx k' /\ k_species k' = k_species k /\
      in_order (k_species k) l (map snd r) (map fst r).
  Proof using KN.
    intros X Hl. unfold sorted_side. destruct (indices_spec l k X Hl) as (k' & r & -> & X' & S & M & P).
    eexists k', _. split; [reflexivity|]. split; [exact X'|]. split; [exact S|].
    set (leb := fun x y : Z * cs => fst x <=? fst y). split; [|split].
    - rewrite <- M. apply Permutation_map, Permutation_sym, isort_perm.
    - assert (Q : forall i s, In (i, s) (isort leb r) -> place (k_species k) s i).
      { intros i s H. apply isort_In in H. now apply P. }
      induction (isort leb r) as [|[i s] m IH]; cbn [map fst snd]; constructor.
      + apply Q. now left.
      + apply IH. intros j t H. apply Q. now right.
    - apply StronglySorted_map. eapply StronglySorted_impl; [|apply (isort_sorted leb)].
      + intros x y _ _ H. apply Z.leb_le. exact H.
      + intros a b. unfold leb. destruct (Z.leb_spec (fst a) (fst b)); [now left|right; apply Z.leb_le; lia].
      + intros a b c. unfold leb. rewrite !Z.leb_le. lia.
  Qed.

  (** Positions are determined by the list of species. *)
  Lemma in_order_places k l x p y q : idx k ->
    in_order (k_species k) l x p -> in_order (k_species k) l y q -> p = q /\ x = y.
  Proof using KN.
    intros X (P1 & F1 & S1) (P2 & F2 & S2). destruct (known_nodup k X) as [N _].
    assert (PP : Permutation p q).
    { assert (G : forall l m ps qs, Permutation l m -> Forall2 (place (k_species k)) l ps -> Forall2 (place (k_species k)) m qs -> Permutation ps qs).
      { clear -N. intros l m ps qs H. revert ps qs. induction H as [|a l m H IH|a b l|l m n H1 IH1 H2 IH2]; intros ps qs F G.
        - inversion F; inversion G; constructor.
        - inversion F as [|? i ? ps' Hi F']; subst. inversion G as [|? j ? qs' Hj G']; subst.
          rewrite (place_fun _ _ _ _ N Hi Hj). constructor. auto.
        - inversion F as [|? i ? ps' Hi F']; subst. inversion F' as [|? i2 ? ps2 Hi2 F2]; subst.
          inversion G as [|? j ? qs' Hj G']; subst. inversion G' as [|? j2 ? qs2 Hj2 G2]; subst.
          rewrite (place_fun _ _ _ _ N Hi Hj2), (place_fun _ _ _ _ N Hi2 Hj).
          assert (ps2 = qs2) as ->.
          { clear -N F2 G2. revert qs2 G2. induction F2 as [|? ? ? ? Hx F IH]; intros qs G; inversion G as [|? ? ? ? Hy G']; subst; [reflexivity|].
            rewrite (place_fun _ _ _ _ N Hx Hy). f_equal. auto. }
          constructor.
        - assert (exists rs, Forall2 (place (k_species k)) m rs) as (rs' & FR).
          { clear -H1 F. assert (K : forall s, In s m -> exists i, place (k_species k) s i).
            { intros s Hs. apply (Permutation_in s (Permutation_sym H1)) in Hs. clear -F Hs. induction F as [|a i l ps Ha F IH]; [destruct Hs|].
              destruct Hs as [->|Hs]; [eauto|auto]. }
            clear -K. induction m as [|s m IH]; [exists []; constructor|].
            destruct (K s (or_introl eq_refl)) as (i & Hi). destruct IH as (r & Hr); [intros t Ht; apply K; now right|].
            exists (i :: r). now constructor. }
          transitivity rs'; eauto. }
      apply (G x y p q); auto. transitivity l; [exact P1|now apply Permutation_sym]. }
    assert (p = q) as <-.
    { apply (sorted_unique Z.leb); auto.
      - intros a b. rewrite !Z.leb_le. lia.
      - eapply StronglySorted_impl; [|exact S1]. intros. now apply Z.leb_le.
      - eapply StronglySorted_impl; [|exact S2]. intros. now apply Z.leb_le. }
    split; [reflexivity|]. clear -F1 F2. revert y F2. induction F1 as [|s i x p [_ Hs] F IH]; intros y G; inversion G as [|t ? y' ? [_ Ht] G']; subst; [reflexivity|].
    f_equal; [congruence|auto].
  Qed.

  (** ** Keys of reactions *)
  Definition key_of (species : list cs) (r : cr) (key : list Z * list Z) : Prop :=
    (exists x, in_order species (cr_lhs r) x (fst key)) /\ (exists y, in_order species (cr_rhs r) y (snd key)).

  Lemma sort_key_spec k r : idx k -> In r rs ->
    exists k' key, reaction_sort_key k r = (k', Ok key) /\ idx k' /\ k_species k' = k_species k /\ key_of (k_species k) r key.
  Proof using KN.
    intros X Hr. unfold reaction_sort_key. destruct KN as (_ & _ & K).
    destruct (sorted_side_spec k (cr_lhs r) X) as (k1 & a & -> & X1 & S1 & O1).
    { intros s Hs. apply (K r); [exact Hr|]. apply in_or_app. now left. }
    destruct (sorted_side_spec k1 (cr_rhs r) X1) as (k2 & b & -> & X2 & S2 & O2).
    { intros s Hs. apply (K r); [exact Hr|]. apply in_or_app. now right. }
    eexists _, _. split; [reflexivity|]. split; [exact X2|]. split; [cbn; congruence|].
    rewrite S1 in O2. split; cbn [fst snd]; eauto.
  Qed.

  Lemma reaction_keys_spec l : forall k, idx k -> incl l rs ->
    exists k' ks, reaction_keys k l = (k', Ok ks) /\ idx k' /\ k_species k' = k_species k /\ map snd ks = l /\
      forall key r, In (key, r) ks -> key_of (k_species k) r key.
  Proof using KN.
    induction l as [|r l IH]; intros k X Hl; cbn [reaction_keys].
    - exists k, []. split; [reflexivity|]. split; [exact X|]. split; [reflexivity|]. split; [reflexivity|]. intros ? ? [].
    - destruct (sort_key_spec k r X (Hl r (or_introl eq_refl))) as (k1 & key & -> & X1 & S1 & K1).
      destruct (IH k1 X1 (fun t Ht => Hl t (or_intror Ht))) as (k2 & ks & -> & X2 & S2 & M2 & K2).
      exists k2, ((key, r) :: ks). split; [reflexivity|]. split; [exact X2|]. split; [congruence|]. split; [cbn; now rewrite M2|].
      intros key' r' [Hin|Hin]; [injection Hin as <- <-; exact K1|]. rewrite <- S1. auto.
  Qed.
End Places.

(** ** Comparing keys *)
Lemma eqbl_spec a b : eqbl a b = true <-> a = b.
Proof.
  revert b. induction a as [|x a IH]; intros [|y b]; cbn; try (split; [reflexivity || discriminate|]; try discriminate; reflexivity).
  rewrite andb_true_iff, Z.eqb_eq, IH. split; [intros [-> ->]; reflexivity|intros H; injection H as -> ->; auto].
Qed.
Lemma lexb_spec a b : lexb a b = true <-> ~ lex_lt b a.
Proof.
  revert b. induction a as [|x a IH]; intros [|y b]; cbn.
  - tauto.
  - tauto.
  - split; [discriminate|]. intros H. exfalso. now apply H.
  - rewrite orb_true_iff, andb_true_iff, Z.ltb_lt, Z.eqb_eq, IH. split.
    + intros [H|[Q H]] [K|[Q' K]]; try lia. now apply H.
    + intros H. destruct (Z.lt_trichotomy x y) as [L|[->|L]]; [now left| |].
      * right. split; [reflexivity|]. intros K. apply H. now right.
      * exfalso. apply H. now left.
Qed.
Lemma lex_irrefl a : ~ lex_lt a a.
Proof. induction a as [|x a IH]; cbn; [tauto|]. intros [H|[_ H]]; [lia|now apply IH]. Qed.
Lemma lex_trans a b c : lex_lt a b -> lex_lt b c -> lex_lt a c.
Proof.
  revert b c. induction a as [|x a IH]; intros [|y b] [|z c]; cbn; try tauto.
  intros [H|[Q H]] [K|[Q' K]]; try (left; lia). right. split; [congruence|eauto].
Qed.

Definition pair_lt (p q : list Z * list Z) : Prop :=
  lex_lt (fst p) (fst q) \/ (fst p = fst q /\ lex_lt (snd p) (snd q)).
Lemma pair_leb_spec p q : pair_leb p q = true <-> ~ pair_lt q p.
Proof.
  unfold pair_leb, pair_lt. destruct (eqbl (fst p) (fst q)) eqn:E.
  - apply eqbl_spec in E. rewrite lexb_spec. rewrite E. split.
    + intros H [K|[_ K]]; [now apply lex_irrefl in K|now apply H].
    + intros H K. apply H. now right.
  - assert (fst p <> fst q) by (intros K; apply eqbl_spec in K; congruence). rewrite lexb_spec. split.
    + intros H1 [K|[K _]]; [now apply H1|congruence].
    + intros H1 K. apply H1. now left.
Qed.
Lemma pair_total p q : pair_lt p q \/ p = q \/ pair_lt q p.
Proof.
  unfold pair_lt. destruct p as [a b], q as [a' b']. cbn [fst snd].
  destruct (lex_trichotomy a a') as [H|[->|H]]; [tauto| |tauto].
  destruct (lex_trichotomy b b') as [H|[->|H]]; [tauto|tauto|tauto].
Qed.
Lemma pair_lt_trans p q r : pair_lt p q -> pair_lt q r -> pair_lt p r.
Proof.
  unfold pair_lt. intros [H|[E H]] [K|[E' K]].
  - left. eapply lex_trans; eauto.
  - left. now rewrite <- E'.
  - left. now rewrite E.
  - right. split; [congruence|eapply lex_trans; eauto].
Qed.
Lemma pair_lt_irrefl p : ~ pair_lt p p.
Proof. intros [H|[_ H]]; now apply lex_irrefl in H. Qed.

(** ** Histories *)
Lemma classify_m_index k r : k_index (fst (classify_m k r)) = k_index k.
Proof. unfold classify_m. destruct (zget _ _); [reflexivity|]. now destruct (classify r). Qed.
Lemma populate_index l : forall k k' o, populate k l = (k', o) -> k_index k' = k_index k /\ k_species k' = k_species k.
Proof.
  induction l as [|r l IH]; intros k k' o H; cbn [populate] in H; [now injection H as <- <-|].
  pose proof (classify_m_index k r) as Q. assert (S : k_species (fst (classify_m k r)) = k_species k).
  { unfold classify_m. destruct (zget _ _); [reflexivity|]. now destruct (classify r). }
  destruct (classify_m k r) as [k1 [[t c]|e]]; cbn [fst] in Q, S; [|injection H as <- <-; auto].
  destruct (tbl_append t c r _); [|injection H as <- <-; auto]. apply IH in H. cbn in H. destruct H. split; congruence.
Qed.

Section History.
  Variables (sps : list cs) (rs : list cr).
  Hypothesis KN : species_known sps rs.

  Lemma sorted_names_idx k r : idx sps k -> In r rs -> idx sps (fst (sorted_names k r)).
  Proof using KN.
    intros X Hr. unfold sorted_names. destruct (zget _ _); [exact X|]. destruct KN as (_ & _ & K).
    destruct (sorted_side_spec sps rs KN k (cr_lhs r) X) as (k1 & a & -> & X1 & S1 & O1).
    { intros s Hs. apply (K r); [exact Hr|]. apply in_or_app. now left. }
    destruct (sorted_side_spec sps rs KN k1 (cr_rhs r) X1) as (k2 & b & -> & X2 & S2 & O2).
    { intros s Hs. apply (K r); [exact Hr|]. apply in_or_app. now right. }
    exact X2.
  Qed.

  Lemma widths_idx l : forall k acc, idx sps k -> incl l rs -> idx sps (fst (widths k l acc)).
  Proof using KN.
    induction l as [|r l IH]; intros k acc X Hl; cbn [widths]; [exact X|].
    pose proof (sorted_names_idx k r X (Hl r (or_introl eq_refl))) as X1.
    destruct (sorted_names k r) as [k1 [[a b]|e]]; cbn [fst] in X1; [|exact X1].
    apply IH; [exact X1|]. intros z Hz. apply Hl. now right.
  Qed.

  (** Classified reactions are among those given. *)
  Definition tbl_ok (k : clf) : Prop :=
    forall t c cats l, In (t, cats) (k_classified k) -> In (c, l) cats -> incl l rs.

  Lemma idx_frame k k' : k_index k' = k_index k -> k_species k' = k_species k -> idx sps k -> idx sps k'.
  Proof using. intros E1 E2 [H P]. split; [|now rewrite E2]. intros s i. rewrite E1, E2. apply H. Qed.

  Lemma aset_in {K V} (eqb : K -> K -> bool) k (v : V) d x y : In (x, y) (aset eqb k v d) -> In (x, y) d \/ y = v.
  Proof using.
    induction d as [|[k' v'] d IH]; cbn [aset].
    - intros [H|[]]. injection H as <- <-. now right.
    - destruct (eqb k k'); cbn [In].
      + intros [H|H]; [injection H as <- <-; now right|left; now right].
      + intros [H|H]; [left; now left|]. destruct (IH H); [left; now right|now right].
  Qed.

  Lemma append_tbl k t c r d : In r rs -> tbl_ok k -> tbl_append t c r (k_classified k) = Ok d -> tbl_ok (set_classified k d).
  Proof using.
    intros Hr T H. unfold tbl_append in H. destruct (sget t (k_classified k)) as [cats|] eqn:Et; [|discriminate].
    destruct (sget c cats) as [l|] eqn:Ec; [|discriminate]. injection H as <-.
    apply (aget_In String.eqb Seqb_spec) in Et, Ec.
    intros t' c' cats' l' H1 H2. cbn [set_classified k_classified] in H1. apply aset_in in H1. destruct H1 as [H1| ->]; [now apply (T t' c' cats')|].
    apply aset_in in H2. destruct H2 as [H2| ->]; [now apply (T t c' cats)|].
    intros z Hz. apply in_app_or in Hz. destruct Hz as [Hz|[<-|[]]]; [now apply (T t c cats l)|exact Hr].
  Qed.

  Lemma tbl_frame k k' : k_classified k' = k_classified k -> tbl_ok k -> tbl_ok k'.
  Proof using. intros E H t c cats l. rewrite E. apply H. Qed.

  Lemma classify_m_frame k r : k_classified (fst (classify_m k r)) = k_classified k /\ k_species (fst (classify_m k r)) = k_species k /\
    k_reactions (fst (classify_m k r)) = k_reactions k.
  Proof using. unfold classify_m. destruct (zget _ _); [auto|]. now destruct (classify r). Qed.

  Lemma populate_tbl l : forall k k' o, incl l rs -> tbl_ok k -> populate k l = (k', o) -> tbl_ok k' /\ k_reactions k' = k_reactions k.
  Proof using.
    induction l as [|r l IH]; intros k k' o Hl T H; cbn [populate] in H; [injection H as <- <-; auto|].
    destruct (classify_m_frame k r) as (C & _ & R).
    destruct (classify_m k r) as [k1 [[t c]|e]]; cbn [fst] in C, R; [|injection H as <- <-; split; [now apply (tbl_frame k)|exact R]].
    destruct (tbl_append t c r _) as [d|e] eqn:Ea; [|injection H as <- <-; split; [now apply (tbl_frame k)|exact R]].
    apply append_tbl in Ea; [|apply Hl; now left|now apply (tbl_frame k)].
    apply IH in H; [|intros z Hz; apply Hl; now right|exact Ea]. destruct H as [H1 H2]. split; [exact H1|]. rewrite H2. exact R.
  Qed.

  Definition inv (k : clf) : Prop := idx sps k /\ tbl_ok k /\ Permutation (k_reactions k) rs.

  Lemma step_inv k o : inv k -> (forall r, o = OAligned r -> In r rs) -> inv (step k o).
  Proof using KN.
    intros (X & T & P) Ho. destruct o as [| | |r]; cbn [step].
    - destruct (sort_species k) as [k' o] eqn:E. pose proof (sort_species_frame _ _ _ E) as (Ps & R & _). cbn [fst].
      unfold sort_species in E. destruct (sort_by _ _ _) as [l|e]; injection E as <- <-; [|now split].
      split; [|split; [intros ? ? ? ? []|exact P]]. split; [intros s i _ H; discriminate|].
      cbn [k_species] in *. transitivity (k_species k); [exact Ps|apply X].
    - assert (I : incl (k_reactions k) rs) by (intros z Hz; now apply (Permutation_in z P)).
      destruct (sort_reactions k) as [k' o] eqn:E. pose proof (sort_reactions_frame _ _ _ E) as (_ & R & _). cbn [fst].
      unfold sort_reactions in E. destruct (reaction_keys_spec sps rs KN (k_reactions k) k X I) as (k1 & ks & Ek & X1 & S1 & _).
      rewrite Ek in E. injection E as <- <-.
      split; [exact X1|]. split; [intros ? ? ? ? []|]. transitivity (k_reactions k); [exact R|exact P].
    - assert (I : incl (k_reactions k) rs) by (intros z Hz; now apply (Permutation_in z P)).
      unfold get_classified. destruct (populate _ _) as [k1 o1] eqn:E.
      pose proof (populate_index _ _ _ _ E) as (Q1 & Q2). cbn in Q1, Q2.
      apply populate_tbl in E; [|exact I|].
      2: { intros t c cats l H1 H2. cbn [set_classified k_classified] in H1. unfold empty_table in H1. apply in_map_iff in H1.
           destruct H1 as (tc & K & _). injection K as <- <-. apply in_map_iff in H2. destruct H2 as (c' & K & _). injection K as <- <-. intros z []. }
      destruct E as [T1 R1]. cbn in R1. destruct o1 as [u|e]; cbn [fst].
      + split; [now apply (idx_frame k)|]. split; [|now rewrite <- R1 in P].
        intros t c cats l H1 H2. cbn [set_classified k_classified] in H1. unfold prune in H1. apply filter_In in H1. destruct H1 as [H1 _].
        apply in_map_iff in H1. destruct H1 as ([t' cats'] & K & H1). cbn [fst snd] in K. injection K as <- <-.
        apply filter_In in H2. destruct H2 as [H2 _]. now apply (T1 t' c cats').
      + split; [now apply (idx_frame k)|]. split; [exact T1|now rewrite <- R1 in P].
    - specialize (Ho r eq_refl). unfold get_aligned. destruct (classify_m_frame k r) as (C & S & R).
      pose proof (classify_m_index k r) as Q. destruct (classify_m k r) as [k1 [[t c]|e]]; cbn [fst] in C, S, R, Q.
      2: { cbn [fst]. split; [now apply (idx_frame k)|]. split; [now apply (tbl_frame k)|now rewrite R]. }
      cbv zeta. match goal with |- inv (fst (match ?x with _ => _ end)) => destruct x as [k2 o2] eqn:E2 end.
      assert (V : inv k2).
      { assert (V1 : inv k1) by (split; [now apply (idx_frame k)|split; [now apply (tbl_frame k)|now rewrite R]]).
        destruct (aget pair_eqb (t, c) (k_align k1)); [now injection E2 as <- <-|].
        destruct (sget t (k_classified k1)) as [cats|] eqn:Et; [|now injection E2 as <- <-].
        destruct (sget c cats) as [l|] eqn:Ec; [|now injection E2 as <- <-].
        apply (aget_In String.eqb Seqb_spec) in Et, Ec. destruct V1 as (X1 & T1 & P1).
        pose proof (widths_idx l k1 ([], []) X1 (T1 t c cats l Et Ec)) as X2.
        destruct (widths k1 l ([], [])) as [k3 o3] eqn:E3. pose proof (widths_frame _ _ _ _ _ E3) as (_ & R3 & C3 & _). cbn [fst] in X2.
        destruct o3; injection E2 as <- <-; (split; [exact X2|split; [now apply (tbl_frame k1)|cbn; now rewrite R3]]). }
      destruct o2 as [[wl wr]|e]; [|exact V]. destruct (zget _ _) as [[a b]|]; exact V.
  Qed.

  Lemma run_inv h : forall k, inv k -> ops_of rs h -> inv (run k h).
  Proof using KN.
    unfold run. induction h as [|o h IH]; intros k V Ho; [exact V|]. cbn [fold_left]. apply IH.
    - apply step_inv; [exact V|]. intros r ->. apply Ho. now left.
    - intros r Hr. apply Ho. now right.
  Qed.

  Lemma new_inv : inv (clf_new sps rs).
  Proof using.
    split; [|split; [intros ? ? ? ? []|reflexivity]]. split; [intros s i _ H; discriminate|reflexivity].
  Qed.

  Lemma sort_reactions_spec k : idx sps k -> Permutation (k_reactions k) rs ->
    exists k', sort_reactions k = (k', Ok tt) /\
      k_species k' = k_species k /\ Permutation (k_reactions k') (k_reactions k) /\
      StronglySorted (fun a b => ~ earlier (k_species k) b a) (k_reactions k') /\
      (forall p : cr -> bool,
         (forall a b, In a rs -> In b rs -> p a = true -> p b = true -> ~ earlier (k_species k) b a) ->
         filter p (k_reactions k') = filter p (k_reactions k)).
  Proof using KN.
    intros X P. assert (I : incl (k_reactions k) rs) by (intros z Hz; now apply (Permutation_in z P)).
    unfold sort_reactions. destruct (reaction_keys_spec sps rs KN (k_reactions k) k X I) as (k1 & ks & -> & X1 & S1 & M & Hk).
    eexists. split; [reflexivity|]. cbn [k_species k_reactions]. split; [exact S1|].
    set (leb := fun x y : (list Z * list Z) * cr => pair_leb (fst x) (fst y)).
    assert (Hleb : forall x y, In x ks -> In y ks -> (leb x y = true <-> ~ earlier (k_species k) (snd y) (snd x))).
    { intros [kx x] [ky y] Hx Hy. apply Hk in Hx, Hy. unfold leb. cbn [fst snd]. rewrite pair_leb_spec.
      destruct Hx as [(xl & Ox) (xr & Ox')], Hy as [(yl & Oy) (yr & Oy')]. split; intros H K; apply H; clear H.
      - destruct K as (la & pa & lb & pb & xa & ya & xb & yb & A1 & A2 & A3 & A4 & K).
        destruct (in_order_places sps rs KN k _ _ _ _ _ X A1 Oy) as [-> _], (in_order_places sps rs KN k _ _ _ _ _ X A2 Oy') as [-> _].
        destruct (in_order_places sps rs KN k _ _ _ _ _ X A3 Ox) as [-> _], (in_order_places sps rs KN k _ _ _ _ _ X A4 Ox') as [-> _].
        exact K.
      - exists (fst ky), (snd ky), (fst kx), (snd kx), yl, yr, xl, xr. auto. }
    assert (Tot : forall a b, leb a b = true \/ leb b a = true).
    { intros a b. unfold leb. rewrite !pair_leb_spec. destruct (pair_total (fst a) (fst b)) as [H|[H|H]].
      - left. intros K. exact (pair_lt_irrefl _ (pair_lt_trans _ _ _ H K)).
      - left. rewrite H. apply pair_lt_irrefl.
      - right. intros K. exact (pair_lt_irrefl _ (pair_lt_trans _ _ _ H K)). }
    assert (Tr : forall a b c, leb a b = true -> leb b c = true -> leb a c = true).
    { intros a b c. unfold leb. rewrite !pair_leb_spec. intros H1 H2 K.
      destruct (pair_total (fst a) (fst b)) as [L|[L|L]]; [|apply H2; now rewrite <- L|now apply H1].
      apply H2. exact (pair_lt_trans _ _ _ K L). }
    split; [|split].
    - rewrite <- M. apply Permutation_map, Permutation_sym, isort_perm.
    - apply StronglySorted_map. eapply StronglySorted_impl; [|apply (isort_sorted leb Tot Tr)].
      intros x y Hx Hy H. apply isort_In in Hx, Hy. now apply Hleb.
    - intros p Hp. rewrite filter_map_snd.
      assert (filter (fun x => p (snd x)) (isort leb ks) = filter (fun x => p (snd x)) ks) as ->.
      2: { rewrite <- filter_map_snd. now rewrite M. }
      assert (forall l, incl l ks -> filter (fun x => p (snd x)) (isort leb l) = filter (fun x => p (snd x)) l) as G.
      { induction l as [|x l IH]; intros Hl; [reflexivity|]. cbn [isort].
        assert (forall m, incl m ks -> filter (fun x => p (snd x)) (insert leb x m) = filter (fun x => p (snd x)) (x :: m)) as J.
        { induction m as [|y m IHm]; intros Hmm; [reflexivity|]. cbn [insert]. destruct (leb x y) eqn:E; [reflexivity|].
          cbn [filter]. rewrite IHm by (intros z Hz; apply Hmm; now right). cbn [filter].
          destruct (p (snd x)) eqn:Ex, (p (snd y)) eqn:Ey; try reflexivity.
          assert (leb x y = true); [|congruence].
          assert (In x ks) as Hx by (apply Hl; now left). assert (In y ks) as Hy by (apply Hmm; now left).
          apply (Hleb x y Hx Hy). apply Hp; auto; apply I; rewrite <- M; now apply in_map. }
        rewrite J; [|intros z Hz; apply Hl; right; now apply (isort_In leb)].
        cbn [filter]. rewrite IH; [reflexivity|]. intros z Hz. apply Hl. now right. }
      apply G, incl_refl.
  Qed.

  (** C142 *)
  Theorem reactions_sorted h : ops_of rs h ->
    exists k', sort_reactions (run (clf_new sps rs) h) = (k', Ok tt) /\
      k_species k' = k_species (run (clf_new sps rs) h) /\ Permutation (k_reactions k') rs /\
      StronglySorted (fun a b => ~ earlier (k_species k') b a) (k_reactions k') /\
      (forall p : cr -> bool,
         (forall a b, In a rs -> In b rs -> p a = true -> p b = true -> ~ earlier (k_species k') b a) ->
         filter p (k_reactions k') = filter p (k_reactions (run (clf_new sps rs) h))).
  Proof using KN.
    intros Ho. destruct (run_inv h _ new_inv Ho) as (X & _ & P).
    destruct (sort_reactions_spec _ X P) as (k' & Ek & S & Pk & So & St). exists k'. rewrite S.
    split; [exact Ek|]. split; [reflexivity|]. split; [now transitivity (k_reactions (run (clf_new sps rs) h))|]. auto.
  Qed.
End History.
