(** Proofs about the chemistry graph. *)
From Coq Require Import Permutation Qabs Lqa.
From Verif Require Import Base BaseLemmas SortLemmas Graph GraphSpec GraphProofs GraphPaths GraphFlow ChemGraph ChemGraphSpec.
Local Open Scope Q_scope.

Lemma sumto_qsum n f : sumto n f = qsum f (seq 0 n).
Proof. reflexivity. Qed.
Lemma sumto_ext n f g : (forall j, (j < n)%nat -> f j == g j) -> sumto n f == sumto n g.
Proof. intros H. apply qsum_ext. intros j Hj. apply H. apply in_seq in Hj. lia. Qed.
Lemma sumto_le n f g : (forall j, (j < n)%nat -> f j <= g j) -> sumto n f <= sumto n g.
Proof. intros H. apply qsum_le. intros j Hj. apply H. apply in_seq in Hj. lia. Qed.
Lemma sumto_term n f b : (forall j, (j < n)%nat -> 0 <= f j) -> (b < n)%nat -> f b <= sumto n f.
Proof. intros H Hb. apply qsum_le_pos; [intros j Hj; apply H; apply in_seq in Hj; lia|]. apply in_seq. lia. Qed.
Lemma sumto_nonneg n f : (forall j, (j < n)%nat -> 0 <= f j) -> 0 <= sumto n f.
Proof.
  intros H. apply (Qle_trans _ (sumto n (fun _ => 0))); [|now apply sumto_le].
  rewrite sumto_qsum, qsum_0; [apply Qle_refl|reflexivity].
Qed.
Lemma sumto_add n f g : sumto n (fun j => f j + g j) == sumto n f + sumto n g.
Proof. apply qsum_add. Qed.
Lemma sumto_sub n f g : sumto n (fun j => f j - g j) == sumto n f - sumto n g.
Proof. apply qsum_sub. Qed.
Lemma sumto_zero n f : (forall j, (j < n)%nat -> 0 <= f j) -> (sumto n f == 0 <-> forall j, (j < n)%nat -> f j == 0).
Proof.
  intros H. split.
  - intros E j Hj. pose proof (sumto_term n f j H Hj). pose proof (H j Hj). lra.
  - intros E. rewrite sumto_qsum. apply qsum_0. intros j Hj. apply E. apply in_seq in Hj. lia.
Qed.

Lemma cap0_nonneg x : 0 <= cap0 x.
Proof. unfold cap0. destruct (Qltb x 0) eqn:E; [apply Qle_refl|now apply Qltb_false in E]. Qed.
Lemma cap0_split x : x == cap0 x - cap0 (- x).
Proof.
  unfold cap0. destruct (Qltb x 0) eqn:E1, (Qltb (- x) 0) eqn:E2; rewrite ?Qltb_true, ?Qltb_false in *; lra.
Qed.

Section Weights.
  Variable k : cgraph.
  Hypothesis AD : admissible k.
  Notation ns := (List.length (cg_species k)).
  Notation nr := (cg_reactions k).

  Lemma delta_01 j b : delta k j b == 0 \/ delta k j b == 1.
  Proof using. unfold delta. destruct (_ <? _)%Z; [right|left]; reflexivity. Qed.
  Lemma delta_pos j b : delta k j b == 1 <-> involves k j b.
  Proof using AD.
    pose proof (ad_lhs k AD j b). pose proof (ad_rhs k AD j b). unfold delta, involves.
    destruct (0 <? cg_lhs k j b + cg_rhs k j b)%Z eqn:E.
    - apply Z.ltb_lt in E. split; [lia|reflexivity].
    - apply Z.ltb_ge in E. split; [intros H1; exfalso; revert H1; unfold Qeq; cbn; lia|lia].
  Qed.
  Lemma area_vol_pos : 0 < area_vol k.
  Proof using AD.
    unfold area_vol. pose proof (ad_radius k AD) as R. pose proof (ad_length k AD) as L.
    apply Qlt_shift_div_l; [now apply Qmult_lt_0_compat|]. lra.
  Qed.

  Lemma drg_term t j a b :
    0 <= Qabs (inject_Z (net k j a)) * cg_rate k t j * delta k j b <= Qabs (inject_Z (net k j a)) * cg_rate k t j.
  Proof using AD.
    pose proof (ad_rates k AD t j) as R. pose proof (Qabs_nonneg (inject_Z (net k j a))) as N.
    assert (0 <= Qabs (inject_Z (net k j a)) * cg_rate k t j) as P by now apply Qmult_le_0_compat.
    destruct (delta_01 j b) as [-> | ->]; lra.
  Qed.

  Lemma drg_coupling_le surface t b a : (b < ns)%nat -> coupling k DRG surface t b a <= normalisation k DRG surface t a.
  Proof using AD.
    intros Hb. cbn [coupling normalisation]. apply Qplus_le_compat.
    - apply sumto_le. intros j _. apply drg_term.
    - apply (sumto_term ns (fun b => Qabs (surf_rate k surface t b a)) b); [intros; apply Qabs_nonneg|exact Hb].
  Qed.

  Lemma coupling_nonneg m surface t b a : 0 <= coupling k m surface t b a.
  Proof using AD.
    destruct m; cbn [coupling]; try apply Qabs_nonneg.
    all: rewrite <- (Qplus_0_r 0); apply Qplus_le_compat; [apply sumto_nonneg; intros; apply drg_term|apply Qabs_nonneg].
  Qed.

  Lemma tot_prod_nonneg surface t a : 0 <= tot_prod k surface t a.
  Proof using AD.
    unfold tot_prod. rewrite <- (Qplus_0_r 0). apply Qplus_le_compat; apply sumto_nonneg; intros.
    - apply Qmult_le_0_compat; [apply cap0_nonneg|apply (ad_rates k AD)].
    - apply cap0_nonneg.
  Qed.
  Lemma tot_cons_nonneg surface t a : 0 <= tot_cons k surface t a.
  Proof using AD.
    unfold tot_cons. rewrite <- (Qplus_0_r 0). apply Qplus_le_compat; apply sumto_nonneg; intros.
    - apply Qmult_le_0_compat; [apply cap0_nonneg|apply (ad_rates k AD)].
    - apply cap0_nonneg.
  Qed.

  Lemma norm_nonneg m surface t a : 0 <= normalisation k m surface t a.
  Proof using AD.
    destruct m; cbn [normalisation]; try apply Qabs_nonneg.
    - rewrite <- (Qplus_0_r 0). apply Qplus_le_compat; apply sumto_nonneg; intros; [|apply Qabs_nonneg].
      apply Qmult_le_0_compat; [apply Qabs_nonneg|apply (ad_rates k AD)].
    - destruct (Qltb _ _); [apply tot_prod_nonneg|]. destruct (Qltb _ _); [apply tot_cons_nonneg|apply Qle_refl].
  Qed.

  Lemma drgep_coupling_le surface t b a :
    (b < ns)%nat -> ~ normalisation k DRGEP surface t a == 0 -> coupling k DRGEP surface t b a <= normalisation k DRGEP surface t a.
  Proof using AD.
    intros Hb Hn. cbn [coupling].
    set (P := sumto nr (fun j => cap0 (inject_Z (net k j a)) * cg_rate k t j * delta k j b) + cap0 (surf_rate k surface t b a)).
    set (C := sumto nr (fun j => cap0 (inject_Z (- net k j a)) * cg_rate k t j * delta k j b) + cap0 (- surf_rate k surface t b a)).
    assert (forall x j, 0 <= cap0 x * cg_rate k t j * delta k j b <= cap0 x * cg_rate k t j) as T.
    { intros x j. pose proof (ad_rates k AD t j). pose proof (cap0_nonneg x).
      assert (0 <= cap0 x * cg_rate k t j) by now apply Qmult_le_0_compat. destruct (delta_01 j b) as [-> | ->]; lra. }
    assert (0 <= P <= tot_prod k surface t a) as [P1 P2].
    { unfold P, tot_prod. split.
      - rewrite <- (Qplus_0_r 0). apply Qplus_le_compat; [apply sumto_nonneg; intros; apply T|apply cap0_nonneg].
      - apply Qplus_le_compat; [apply sumto_le; intros; apply T|].
        apply (sumto_term ns (fun b => cap0 (surf_rate k surface t b a)) b); [intros; apply cap0_nonneg|exact Hb]. }
    assert (0 <= C <= tot_cons k surface t a) as [C1 C2].
    { unfold C, tot_cons. split.
      - rewrite <- (Qplus_0_r 0). apply Qplus_le_compat; [apply sumto_nonneg; intros; apply T|apply cap0_nonneg].
      - apply Qplus_le_compat; [apply sumto_le; intros; apply T|].
        apply (sumto_term ns (fun b => cap0 (- surf_rate k surface t b a)) b); [intros; apply cap0_nonneg|exact Hb]. }
    assert (sumto nr (fun j => inject_Z (net k j a) * cg_rate k t j * delta k j b) + surf_rate k surface t b a == P - C) as E.
    { unfold P, C. rewrite (cap0_split (surf_rate k surface t b a)) at 1.
      assert (sumto nr (fun j => inject_Z (net k j a) * cg_rate k t j * delta k j b) ==
              sumto nr (fun j => cap0 (inject_Z (net k j a)) * cg_rate k t j * delta k j b) -
              sumto nr (fun j => cap0 (inject_Z (- net k j a)) * cg_rate k t j * delta k j b)) as ->; [|ring].
      rewrite <- sumto_sub. apply sumto_ext. intros j _.
      rewrite (cap0_split (inject_Z (net k j a))) at 1. rewrite inject_Z_opp. ring. }
    rewrite E. cbn [normalisation] in *.
    destruct (Qltb (tot_cons k surface t a) (tot_prod k surface t a)) eqn:E1.
    - apply Qltb_true in E1. apply Qabs_Qle_condition. split; lra.
    - destruct (Qltb (tot_prod k surface t a) (tot_cons k surface t a)) eqn:E2.
      + apply Qltb_true in E2. apply Qabs_Qle_condition. split; lra.
      + exfalso. apply Hn. reflexivity.
  Qed.

  Lemma weight_pos m surface t b a w : weight k m surface t b a = Some w -> 0 < w.
  Proof using AD.
    unfold weight. pose proof (coupling_nonneg m surface t b a) as R. pose proof (norm_nonneg m surface t a) as N.
    destruct (Qeq_bool (coupling k m surface t b a) 0 || Qeq_bool (normalisation k m surface t a) 0) eqn:Z; [discriminate|].
    intros H. injection H as <-. apply orb_false_iff in Z as [Z1 Z2]. apply Qeq_bool_neq in Z1, Z2.
    assert (0 < normalisation k m surface t a) by (apply Qle_lteq in N as [N|N]; [exact N|exfalso; apply Z2; now symmetry]).
    assert (0 < coupling k m surface t b a) by (apply Qle_lteq in R as [R|R]; [exact R|exfalso; apply Z1; now symmetry]).
    apply Qlt_shift_div_l; lra.
  Qed.

  Lemma weight_le_1 m surface t b a w :
    m = DRG \/ m = DRGEP -> (b < ns)%nat -> weight k m surface t b a = Some w -> w <= 1.
  Proof using AD.
    intros Hm Hb. unfold weight. pose proof (norm_nonneg m surface t a) as N.
    destruct (Qeq_bool (coupling k m surface t b a) 0 || Qeq_bool (normalisation k m surface t a) 0) eqn:Z; [discriminate|].
    intros H. injection H as <-. apply orb_false_iff in Z as [Z1 Z2]. apply Qeq_bool_neq in Z1, Z2.
    assert (0 < normalisation k m surface t a) by (apply Qle_lteq in N as [N|N]; [exact N|exfalso; apply Z2; now symmetry]).
    assert (coupling k m surface t b a <= normalisation k m surface t a) as L.
    { destruct Hm as [-> | ->]; [now apply drg_coupling_le|now apply drgep_coupling_le]. }
    apply Qle_shift_div_r; lra.
  Qed.

  Lemma surf_zero t b a : a <> b -> (surf_rate k true t b a == 0 <-> cg_flux k t b == 0 \/ cg_ret k a b == 0).
  Proof using AD.
    intros Ne. unfold surf_rate, stick_rate. destruct (Nat.eqb_spec b a) as [E|_]; [congruence|].
    pose proof area_vol_pos as A. split.
    - intros H. assert (cg_ret k a b * cg_flux k t b * area_vol k == 0) as H' by lra.
      apply Qmult_integral in H' as [H'|H']; [|lra]. apply Qmult_integral in H'. tauto.
    - intros [-> | ->]; ring.
  Qed.

  Lemma net_zero j a : inject_Z (net k j a) == 0 <-> ~ changes k j a.
  Proof using. unfold net, changes, Qeq; cbn. lia. Qed.

  Lemma coupling_zero surface t b a : a <> b -> (coupling k DRG surface t b a == 0 <-> ~ linked k surface t b a).
  Proof using AD.
    intros Ne. cbn [coupling].
    assert (0 <= sumto nr (fun j => Qabs (inject_Z (net k j a)) * cg_rate k t j * delta k j b)) as P1.
    { apply sumto_nonneg. intros. apply drg_term. }
    pose proof (Qabs_nonneg (surf_rate k surface t b a)) as P2.
    split.
    - intros E [(j & Hj & Hr & Hi & Hc)|(-> & Hf & Hret)].
      + assert (sumto nr (fun j => Qabs (inject_Z (net k j a)) * cg_rate k t j * delta k j b) == 0) as E1 by lra.
        rewrite (sumto_zero nr) in E1 by (intros; apply drg_term). specialize (E1 j Hj). cbv beta in E1.
        apply delta_pos in Hi. rewrite Hi in E1.
        assert (Qabs (inject_Z (net k j a)) * cg_rate k t j == 0) as E2 by lra.
        apply Qmult_integral in E2 as [E2|E2]; [|lra].
        assert (inject_Z (net k j a) == 0) as E3.
        { pose proof (Qle_Qabs (inject_Z (net k j a))). pose proof (Qle_Qabs (- inject_Z (net k j a))).
          rewrite Qabs_opp in H0. lra. }
        apply net_zero in E3. contradiction.
      + assert (surf_rate k true t b a == 0) as E1.
        { pose proof (Qle_Qabs (surf_rate k true t b a)). pose proof (Qle_Qabs (- surf_rate k true t b a)).
          rewrite Qabs_opp in H0. lra. }
        apply surf_zero in E1; [tauto|exact Ne].
    - intros Hn.
      assert (sumto nr (fun j => Qabs (inject_Z (net k j a)) * cg_rate k t j * delta k j b) == 0) as ->.
      { apply sumto_zero; [intros; apply drg_term|]. intros j Hj.
        pose proof (ad_rates k AD t j) as R. apply Qle_lteq in R as [R|R]; [|rewrite <- R; ring].
        destruct (delta_01 j b) as [D|D]; [rewrite D; ring|]. apply delta_pos in D.
        assert (inject_Z (net k j a) == 0) as E.
        { apply net_zero. intros C. apply Hn. left. exists j. auto. }
        rewrite E. cbn [Qabs]. rewrite (Qabs_wd _ _ (Qeq_refl 0)). change (Qabs 0) with 0. ring. }
      assert (surf_rate k surface t b a == 0) as E.
      { destruct surface; [|reflexivity]. apply surf_zero; [exact Ne|].
        destruct (Qeq_dec (cg_flux k t b) 0) as [F|F]; [now left|]. destruct (Qeq_dec (cg_ret k a b) 0) as [G|G]; [now right|].
        exfalso. apply Hn. right. auto. }
      rewrite E. change (Qabs 0) with 0. ring.
  Qed.

  Lemma drg_weight_some surface t b a :
    a <> b -> (b < ns)%nat -> ((exists w, weight k DRG surface t b a = Some w) <-> linked k surface t b a).
  Proof using AD.
    intros Ne Hb. unfold weight. pose proof (drg_coupling_le surface t b a Hb) as L.
    pose proof (coupling_nonneg DRG surface t b a) as R.
    destruct (Qeq_bool (coupling k DRG surface t b a) 0) eqn:Z1.
    - apply Qeq_bool_iff in Z1. cbn [orb]. apply coupling_zero in Z1; [|exact Ne]. split; [intros [w H]; discriminate|contradiction].
    - apply Qeq_bool_neq in Z1. destruct (Qeq_bool (normalisation k DRG surface t a) 0) eqn:Z2; cbn [orb].
      + apply Qeq_bool_iff in Z2. exfalso. apply Z1. lra.
      + split; [|eauto]. intros _.
        assert (forall l, (forall j, In j l -> (j < nr)%nat) -> ~ qsum (fun j => Qabs (inject_Z (net k j a)) * cg_rate k t j * delta k j b) l == 0 ->
                      exists j, (j < nr)%nat /\ 0 < cg_rate k t j /\ involves k j b /\ changes k j a) as X.
        { induction l as [|j l IH]; intros Hl Hz; [exfalso; apply Hz; reflexivity|].
                destruct (Qeq_dec (Qabs (inject_Z (net k j a)) * cg_rate k t j * delta k j b) 0) as [E0|E0].
                - apply IH; [intros; apply Hl; now right|]. intros E1. apply Hz. rewrite qsum_cons, E0, E1. reflexivity.
                - exists j. split; [apply Hl; now left|]. split; [|split].
                  + pose proof (ad_rates k AD t j) as Rj. apply Qle_lteq in Rj as [Rj|Rj]; [exact Rj|].
                    exfalso. apply E0. rewrite <- Rj. ring.
                  + destruct (delta_01 j b) as [D|D]; [exfalso; apply E0; rewrite D; ring|now apply delta_pos].
                  + intros C. assert (~ changes k j a) as C' by (unfold changes; congruence). apply net_zero in C'.
                    apply E0. rewrite C'. change (Qabs 0) with 0. ring. }
        destruct surface; [destruct (Qeq_dec (surf_rate k true t b a) 0) as [E|E]|].
        * left. apply (X (seq 0 nr)); [intros j Hj; apply in_seq in Hj; lia|]. intros Q0. apply Z1. cbn [coupling].
          rewrite E. change (Qabs 0) with 0. rewrite sumto_qsum, Q0. reflexivity.
        * right. split; [reflexivity|]. rewrite surf_zero in E by exact Ne. tauto.
        * left. apply (X (seq 0 nr)); [intros j Hj; apply in_seq in Hj; lia|]. intros Q0. apply Z1. cbn [coupling].
          rewrite sumto_qsum, Q0. reflexivity.
  Qed.

  (** ** The graphs *)
  Definition edges_of (m : weighting) (surface : bool) (t : nat) (g : graph Q) : Prop :=
    wfg g /\ (forall n, In n (g_nodes g) <-> connected g n) /\
    forall x y, In (x, y) (g_edges g) -> exists a b w, species_at k a y /\ species_at k b x /\ x <> y /\
      weight k m surface t b a = Some w /\ edge_attribute g x y "weight" = Ok w.

  Lemma name_at a : (a < ns)%nat -> species_at k a (name k a).
  Proof using. intros H. unfold species_at, name. now apply nth_error_nth'. Qed.

  Lemma put_edge_spec m surface t a b g :
    edges_of m surface t g -> (a < ns)%nat -> (b < ns)%nat ->
    exists g', put_edge k m surface t a b g = Ok g' /\ edges_of m surface t g' /\
      forall x y, In (x, y) (g_edges g') <-> In (x, y) (g_edges g) \/
        (x = name k b /\ y = name k a /\ x <> y /\ exists w, weight k m surface t b a = Some w).
  Proof using AD.
    intros (W & N & H) Ha Hb. unfold put_edge. destruct (String.eqb_spec (name k a) (name k b)) as [E|Ne].
    - exists g. split; [reflexivity|]. split; [split; auto|]. intros x y. split; [auto|].
      intros [?|(-> & -> & C & _)]; [assumption|congruence].
    - destruct (weight k m surface t b a) as [w|] eqn:Ew.
      2: { exists g. split; [reflexivity|]. split; [split; auto|]. intros x y. split; [auto|].
           intros [?|(_ & _ & _ & w & C)]; [assumption|discriminate]. }
      destruct (add_edge_spec g (name k b) (name k a) W) as (g1 & E1 & W1 & HE & HN & HA & HD). rewrite E1. cbn [bind].
      pose proof (weight_pos m surface t b a w Ew) as Pw.
      destruct (update_edge_attributes (Qltb 0) g1 (name k b) (name k a) [("weight", w)]) as [g2 r2] eqn:E2.
      pose proof (update_edge_wf (Qltb 0) g1 (name k b) (name k a) [("weight", w)] W1) as W2. rewrite E2 in W2. cbn [fst] in W2.
      assert (exists d, eget (name k b, name k a) (g_eattr g1) = Some d) as [d Hd].
      { apply (wf_eattr g1 W1). apply HE. now right. }
      unfold update_edge_attributes in E2. cbn in E2. apply Qltb_true in Pw as Pw'. rewrite Pw' in E2. cbn in E2. rewrite Hd in E2.
      injection E2 as <- <-. cbn [bind]. eexists. split; [reflexivity|]. cbn [g_edges g_nodes].
      assert (forall x y, In (x, y) (g_edges g1) <-> In (x, y) (g_edges g) \/
        (x = name k b /\ y = name k a /\ x <> y /\ exists w0, Some w = Some w0)) as HE'.
      { intros x y. rewrite HE. split; (intros [?|C]; [now left|right]).
        - injection C as -> ->. split; [reflexivity|]. split; [reflexivity|]. split; [congruence|eauto].
        - destruct C as (-> & -> & _). reflexivity. }
      split; [|exact HE'].
      split; [exact W2|]. split.
      + intros n. cbn [g_nodes g_edges]. unfold connected. cbn [g_edges]. rewrite HN, N. unfold connected. split.
        * intros [(u & [Hu|Hu])|[->| ->]].
          -- exists u. left. apply HE. now left.
          -- exists u. right. apply HE. now left.
          -- exists (name k a). left. apply HE. now right.
          -- exists (name k b). right. apply HE. now right.
        * intros (u & [Hu|Hu]); apply HE in Hu as [Hu|Hu].
          -- left. exists u. now left.
          -- injection Hu as -> ->. right. now left.
          -- left. exists u. now right.
          -- injection Hu as -> ->. right. now right.
      + intros x y. cbn [g_edges]. intros Hi. apply HE in Hi.
        unfold edge_attribute. cbn [g_eattr].
        destruct (edge_eqb (x, y) (name k b, name k a)) eqn:Ee.
        * apply edge_eqb_spec in Ee. injection Ee as -> ->. exists a, b, w. split; [now apply name_at|]. split; [now apply name_at|].
          split; [congruence|]. split; [exact Ew|]. rewrite (aget_aset_same edge_eqb edge_eqb_spec). cbn. now rewrite sget_same.
        * assert ((x, y) <> (name k b, name k a)) as Ne' by (intros C; apply edge_eqb_spec in C; congruence).
          destruct Hi as [Hi|Hi]; [|contradiction]. destruct (H x y Hi) as (a' & b' & w' & S1 & S2 & S3 & S4 & S5).
          exists a', b', w'. split; [exact S1|]. split; [exact S2|]. split; [exact S3|]. split; [exact S4|].
          rewrite (aget_aset_other edge_eqb edge_eqb_spec) by congruence. rewrite HA, Ee. exact S5.
  Qed.

  Lemma put_edges_spec m surface t l : forall g,
    edges_of m surface t g -> (forall a b, In (a, b) l -> (a < ns)%nat /\ (b < ns)%nat) ->
    exists g', put_edges k m surface t l g = Ok g' /\ edges_of m surface t g' /\
      forall x y, In (x, y) (g_edges g') <-> In (x, y) (g_edges g) \/
        exists a b, In (a, b) l /\ x = name k b /\ y = name k a /\ x <> y /\ exists w, weight k m surface t b a = Some w.
  Proof using AD.
    induction l as [|[a b] l IH]; intros g Hg Hl; cbn [put_edges].
    - exists g. split; [reflexivity|]. split; [exact Hg|]. intros x y. split; [auto|]. intros [?|(a & b & [] & _)]. assumption.
    - destruct (Hl a b (or_introl eq_refl)) as [Ha Hb].
      destruct (put_edge_spec m surface t a b g Hg Ha Hb) as (g1 & -> & H1 & E1). cbn [bind].
      destruct (IH g1 H1) as (g2 & -> & H2 & E2); [intros a' b' Hi; apply Hl; now right|].
      exists g2. split; [reflexivity|]. split; [exact H2|]. intros x y. rewrite E2, E1. split.
      + intros [[?|C]|(a' & b' & Hi & C)].
        * now left.
        * right. exists a, b. split; [now left|]. tauto.
        * right. exists a', b'. split; [now right|exact C].
      + intros [?|(a' & b' & [Hi|Hi] & C)].
        * left. now left.
        * injection Hi as -> ->. left. right. tauto.
        * right. exists a', b'. auto.
  Qed.

  Definition time_graph (m : weighting) (surface : bool) (t : nat) (g : graph Q) : Prop :=
    wfg g /\ g_dist g = true /\ (forall n, In n (g_nodes g) <-> connected g n) /\
    (forall x y, In (x, y) (g_edges g) <->
       exists a b, species_at k a y /\ species_at k b x /\ x <> y /\ exists w, weight k m surface t b a = Some w) /\
    (forall x y a b w, species_at k a y -> species_at k b x -> x <> y -> weight k m surface t b a = Some w ->
       edge_attribute g x y "weight" = Ok w).

  Lemma at_lt a s : species_at k a s -> (a < ns)%nat.
  Proof using. intros H. apply nth_error_Some. unfold species_at in H. congruence. Qed.
  Lemma at_inj a b s : species_at k a s -> species_at k b s -> a = b.
  Proof using AD.
    intros H1 H2. apply (proj1 (NoDup_nth_error (cg_species k)) (ad_names k AD)); [now apply (at_lt _ s)|]. congruence.
  Qed.
  Lemma at_name a s : species_at k a s -> name k a = s.
  Proof using. intros H. unfold name. now apply nth_error_nth. Qed.

  Lemma one_graph m surface t :
    exists g, put_edges k m surface t (list_prod (seq 0 ns) (seq 0 ns)) graph_new = Ok g /\
      time_graph m surface t (set_distributed g true).
  Proof using AD.
    destruct (put_edges_spec m surface t (list_prod (seq 0 ns) (seq 0 ns)) graph_new) as (g & E & (W & N & H) & HE).
    - split; [apply new_wf|]. split; [|easy]. intros n. cbn. split; [easy|]. intros (u & [[]|[]]).
    - intros a b Hi. apply in_prod_iff in Hi as [Ha Hb]. apply in_seq in Ha, Hb. lia.
    - exists g. split; [exact E|]. split; [|split; [reflexivity|split; [exact N|]]].
      + destruct W as [V1 V2 V3 V4 V5 V6 V7]. constructor; cbn; assumption.
      + assert (forall x y, In (x, y) (g_edges (set_distributed g true)) <->
          exists a b, species_at k a y /\ species_at k b x /\ x <> y /\ exists w, weight k m surface t b a = Some w) as HE'.
        { intros x y. cbn [set_distributed g_edges]. rewrite HE. cbn [graph_new g_edges]. split.
          - intros [[]|(a & b & Hi & -> & -> & Ne & Hw)]. apply in_prod_iff in Hi as [Ha Hb]. apply in_seq in Ha, Hb.
            exists a, b. split; [apply name_at; lia|]. split; [apply name_at; lia|]. auto.
          - intros (a & b & Sa & Sb & Ne & Hw). right. exists a, b.
            split; [apply in_prod_iff; split; apply in_seq; [pose proof (at_lt _ _ Sa)|pose proof (at_lt _ _ Sb)]; lia|].
            rewrite (at_name _ _ Sa), (at_name _ _ Sb). auto. }
        split; [exact HE'|].
        intros x y a b w Sa Sb Ne Hw. destruct (H x y) as (a' & b' & w' & Sa' & Sb' & _ & Hw' & HA).
        { apply HE'. exists a, b. eauto. }
        rewrite (at_inj _ _ _ Sa' Sa), (at_inj _ _ _ Sb' Sb), Hw in Hw'. injection Hw' as <-. exact HA.
  Qed.

  Lemma sane_true m surface : sane k m surface = true.
  Proof using AD.
    destruct m; try reflexivity. cbn [sane]. apply forallb_forall. intros t _. apply forallb_forall. intros a _.
    apply andb_true_iff. split; apply Qle_bool_iff; [apply tot_prod_nonneg|apply tot_cons_nonneg].
  Qed.

  Lemma distribute_ok m surface :
    exists gs, distribute_weights k m surface = Ok gs /\ List.length gs = List.length (cg_times k) /\
      forall t g, nth_error gs t = Some g -> time_graph m surface t g.
  Proof using AD.
    unfold distribute_weights. rewrite sane_true. cbn [negb raise_if bind].
    assert (forall l, exists gs,
      mapM (fun t => let* g := put_edges k m surface t (list_prod (seq 0 ns) (seq 0 ns)) graph_new in Ok (set_distributed g true)) l = Ok gs /\
      Forall2 (fun t g => time_graph m surface t g) l gs) as X.
    { induction l as [|t l (gs & E & F)]; [exists []; split; [reflexivity|constructor]|].
      destruct (one_graph m surface t) as (g & Eg & Tg). cbn [mapM]. rewrite Eg. cbn [bind]. rewrite E. cbn [bind].
      eexists. split; [reflexivity|]. now constructor. }
    destruct (X (seq 0 (List.length (cg_times k)))) as (gs & E & F). exists gs. split; [exact E|]. split.
    - assert (List.length (seq 0 (List.length (cg_times k))) = List.length gs) as L by (clear E; induction F; cbn; congruence).
      rewrite <- L. now rewrite seq_length.
    - intros t g Hg. clear E X.
      assert (forall s n (gs : list (graph Q)), Forall2 (fun t g => time_graph m surface t g) (seq s n) gs ->
                forall t g, nth_error gs t = Some g -> time_graph m surface (s + t) g) as Y.
      { clear. intros s n. revert s. induction n as [|n IH]; intros s gs F t g Hg; inversion F; subst.
        - destruct t; discriminate.
        - destruct t as [|t]; cbn in Hg; [injection Hg as <-; now rewrite Nat.add_0_r|].
          replace (s + S t)%nat with (S s + t)%nat by lia. eapply IH; eassumption. }
      exact (Y 0%nat _ gs F t g Hg).
  Qed.
End Weights.
