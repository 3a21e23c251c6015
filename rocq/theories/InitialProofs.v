(** Proofs about the initial densities. *)
From Coq Require Import Lqa Permutation.
From Verif Require Import Base BaseLemmas Chemistry ChemSpec ChemInv ChemHist ChemLoad ChemMain Morris MorrisStats InitialGuess InitialSpec
  Tables TablesProofs.
Open Scope Q_scope.

Lemma qsum_cons a l : qsum (a :: l) = a + qsum l.
Proof. reflexivity. Qed.

Lemma qsum_map_ext {A} (f g : A -> Q) l : (forall x, In x l -> f x == g x) -> qsum (map f l) == qsum (map g l).
Proof.
  induction l as [|x l IH]; intros H; [reflexivity|].
  cbn [map]. rewrite !qsum_cons, (H x (or_introl eq_refl)), IH; [reflexivity|]. intros y Y. apply H. now right.
Qed.

Lemma qsum_split {A} (p : A -> bool) (f : A -> Q) l :
  qsum (map f l) == qsum (map f (filter p l)) + qsum (map f (filter (fun x => negb (p x)) l)).
Proof.
  induction l as [|x l IH]; [cbn; lra|]. cbn [map filter]. rewrite qsum_cons, IH.
  destruct (p x); cbn [negb map]; rewrite qsum_cons; ring.
Qed.

Lemma qsum_scale {A} (k : Q) (f : A -> Q) l : qsum (map (fun x => k * f x) l) == k * qsum (map f l).
Proof. induction l as [|x l IH]; [cbn; lra|]. cbn [map]. rewrite !qsum_cons, IH. ring. Qed.

Lemma zlen_cons {A} (x : A) l : zlen (x :: l) == zlen l + 1.
Proof. unfold zlen. cbn [List.length]. rewrite Nat2Z.inj_succ. unfold Z.succ. rewrite inject_Z_plus. reflexivity. Qed.

Lemma qsum_all {A} (f : A -> Q) k l : (forall x, In x l -> f x == k) -> qsum (map f l) == k * zlen l.
Proof.
  induction l as [|x l IH]; intros H; [cbn; unfold zlen; cbn; ring|].
  cbn [map]. rewrite qsum_cons, zlen_cons, (H x (or_introl eq_refl)), IH; [ring|]. intros y Y. apply H. now right.
Qed.

Lemma qsum_nonneg {A} (f : A -> Q) l : (forall x, In x l -> 0 <= f x) -> 0 <= qsum (map f l).
Proof.
  induction l as [|x l IH]; intros H; [cbn; lra|]. cbn [map]. rewrite qsum_cons.
  pose proof (H x (or_introl eq_refl)). assert (0 <= qsum (map f l)) by (apply IH; intros y Y; apply H; now right). lra.
Qed.

Lemma qsum_charges l : qsum (map (fun s : string * Z => inject_Z (snd s)) l) == inject_Z (zsum (map snd l)).
Proof.
  induction l as [|s l IH]; [reflexivity|]. cbn [map zsum fold_right]. rewrite qsum_cons, IH, inject_Z_plus. reflexivity.
Qed.

Lemma map_filter_snd (p : Z -> bool) (l : list (string * Z)) :
  filter p (map snd l) = map snd (filter (fun s => p (snd s)) l).
Proof. induction l as [|s l IH]; [reflexivity|]. cbn. destruct (p (snd s)); cbn; now rewrite IH. Qed.

Definition poss (l : list (string * Z)) := filter (fun s => (0 <? snd s)%Z) l.
Definition negs (l : list (string * Z)) := filter (fun s => (snd s <? 0)%Z) l.

Lemma pos_charges_eq l : pos_charges l = map snd (poss l).
Proof. apply map_filter_snd. Qed.
Lemma neg_charges_eq l : neg_charges l = map snd (negs l).
Proof. apply map_filter_snd. Qed.

(** Splitting by the sign of the charge. *)
Lemma qsum_signs (f : string * Z -> Q) l :
  qsum (map f l) == qsum (map f (poss l)) + qsum (map f (negs l)) + qsum (map f (neutrals l)).
Proof.
  unfold poss, negs, neutrals. induction l as [|s l IH]; [cbn; lra|]. cbn [map filter]. rewrite qsum_cons, IH.
  destruct (Z.ltb_spec 0 (snd s)), (Z.ltb_spec (snd s) 0), (Z.eqb_spec (snd s) 0); try lia; cbn [map]; rewrite qsum_cons; ring.
Qed.

Lemma zsum_pos l : (forall q, In q l -> (0 < q)%Z) -> l <> [] -> (0 < zsum l)%Z.
Proof.
  induction l as [|q l IH]; intros H N; [easy|]. cbn [zsum fold_right]. change (fold_right Z.add 0%Z l) with (zsum l).
  pose proof (H q (or_introl eq_refl)). destruct l as [|q' l]; [cbn; lia|].
  assert (0 < zsum (q' :: l))%Z by (apply IH; [intros x X; apply H; now right|easy]). lia.
Qed.

Lemma zsum_neg l : (forall q, In q l -> (q < 0)%Z) -> l <> [] -> (zsum l < 0)%Z.
Proof.
  induction l as [|q l IH]; intros H N; [easy|]. cbn [zsum fold_right]. change (fold_right Z.add 0%Z l) with (zsum l).
  pose proof (H q (or_introl eq_refl)). destruct l as [|q' l]; [cbn; lia|].
  assert (zsum (q' :: l) < 0)%Z by (apply IH; [intros x X; apply H; now right|easy]). lia.
Qed.

Lemma poss_In l s : In s (poss l) <-> In s l /\ (0 < snd s)%Z.
Proof. unfold poss. rewrite filter_In, Z.ltb_lt. tauto. Qed.
Lemma negs_In l s : In s (negs l) <-> In s l /\ (snd s < 0)%Z.
Proof. unfold negs. rewrite filter_In, Z.ltb_lt. tauto. Qed.
Lemma neutrals_In l s : In s (neutrals l) <-> In s l /\ snd s = 0%Z.
Proof. unfold neutrals. rewrite filter_In, Z.eqb_eq. tauto. Qed.

Lemma filter_idem {A} (p : A -> bool) l : filter p (filter p l) = filter p l.
Proof. induction l as [|x l IH]; [reflexivity|]. cbn. destruct (p x) eqn:P; cbn; rewrite ?P, IH; reflexivity. Qed.

Section D.
  Variables (l : list (string * Z)) (feeds : list (string * Q)) (n_tot : Q) (fr : fractions).
  Hypothesis ion : exists s, In s l /\ (0 < snd s)%Z.
  Hypothesis feeds_ok : neutral_feeds l feeds.
  Notation feed s := (feed_of feeds (fst s)).
  Notation n0 := (n_zero l feeds n_tot fr).
  Notation n1 := (n_start l feeds n_tot fr).

  Lemma pos_sum_pos : (0 < zsum (pos_charges l))%Z.
  Proof.
    apply zsum_pos.
    - intros q H. unfold pos_charges in H. apply filter_In in H. destruct H as [_ H]. now apply Z.ltb_lt in H.
    - destruct ion as (s & Hs & P). intros H. rewrite pos_charges_eq in H.
      assert (In (snd s) (map snd (poss l))) as I by (apply in_map, poss_In; auto). rewrite H in I. destruct I.
  Qed.

  Lemma neg_sum_neg : neg_charges l <> [] -> (zsum (neg_charges l) < 0)%Z.
  Proof.
    apply zsum_neg. intros q H. unfold neg_charges in H. apply filter_In in H. destruct H as [_ H]. now apply Z.ltb_lt in H.
  Qed.

  Lemma fed_iff : fed l feeds <-> 0 < feed_sum l feeds.
  Proof.
    assert (NN : forall s, In s l -> 0 <= feed s) by (intros [n q] H; now apply (feeds_ok n q)).
    unfold fed, feed_sum. revert NN. generalize l as m. induction m as [|s m IH]; intros NN.
    - cbn. split; [now intros (s & [] & _)|lra].
    - cbn [map]. rewrite qsum_cons.
      assert (0 <= feed s) by (apply NN; now left).
      assert (NM : forall s, In s m -> 0 <= feed s) by (intros x X; apply NN; now right).
      assert (0 <= qsum (map (fun s => feed s) m)) by now apply qsum_nonneg.
      specialize (IH NM). split.
      + intros (x & [<-|X] & P); [lra|].
        assert (0 < qsum (map (fun s => feed s) m)) by (apply IH; now exists x). lra.
      + intros P. destruct (Qlt_le_dec 0 (feed s)) as [F|F]; [exists s; split; [now left|exact F]|].
        assert (0 < qsum (map (fun s => feed s) m)) as G by lra. apply IH in G. destruct G as (x & X & Y). exists x. split; [now right|exact Y].
  Qed.

  Lemma n1_pos s : (0 < snd s)%Z -> n1 s = (n_neg_ions l n_tot fr + n_el n_tot fr) / inject_Z (zsum (pos_charges l)).
  Proof. intros H. unfold n_start. now rewrite (proj2 (Z.ltb_lt _ _) H). Qed.

  Lemma n1_neg s : In s l -> (snd s < 0)%Z -> n1 s == n_tot * fr_neg fr.
  Proof.
    intros I H. unfold n_start. assert ((0 <? snd s)%Z = false) as -> by (apply Z.ltb_ge; lia).
    rewrite (proj2 (Z.ltb_lt _ _) H). unfold n_neg_ions.
    assert (zsum (neg_charges l) < 0)%Z as N.
    { apply neg_sum_neg. rewrite neg_charges_eq. intros E. assert (In (snd s) (map snd (negs l))) as J by (apply in_map, negs_In; auto).
      rewrite E in J. destruct J. }
    rewrite inject_Z_opp. field. rewrite Zlt_Qlt in N. change (inject_Z 0) with 0 in N. lra.
  Qed.

  Lemma n0_charged s : In s l -> snd s <> 0%Z -> n0 s = n1 s.
  Proof.
    intros I H. unfold n_zero. destruct s as [n q]. cbn [fst snd] in *.
    destruct (Qltb 0 (feed_sum l feeds)).
    - destruct (Qltb 0 (feed_of feeds n)) eqn:F; [|reflexivity]. apply Qltb_iff in F.
      destruct (feeds_ok n q I) as [_ Z]. now apply Z in F.
    - now rewrite (proj2 (Z.eqb_neq _ _) H).
  Qed.

  Lemma charge_is_n_e : qsum (map (fun s => inject_Z (snd s) * n0 s) l) == n_tot * fr_ion fr.
  Proof.
    rewrite qsum_signs.
    assert (Z0 : qsum (map (fun s => inject_Z (snd s) * n0 s) (neutrals l)) == 0).
    { rewrite (qsum_all _ 0); [ring|]. intros s Hs. apply neutrals_In in Hs. destruct Hs as [_ ->]. change (inject_Z 0) with 0. ring. }
    assert (ZP : qsum (map (fun s => inject_Z (snd s) * n0 s) (poss l)) == n_neg_ions l n_tot fr + n_el n_tot fr).
    { rewrite (qsum_map_ext _ (fun s => ((n_neg_ions l n_tot fr + n_el n_tot fr) / inject_Z (zsum (pos_charges l))) * inject_Z (snd s))).
      - rewrite qsum_scale, qsum_charges, <- pos_charges_eq. field.
        pose proof pos_sum_pos as P. rewrite Zlt_Qlt in P. change (inject_Z 0) with 0 in P. lra.
      - intros s Hs. apply poss_In in Hs. destruct Hs as [Hs P]. rewrite n0_charged by (auto; lia). rewrite n1_pos by exact P. ring. }
    assert (ZN : qsum (map (fun s => inject_Z (snd s) * n0 s) (negs l)) == - n_neg_ions l n_tot fr).
    { rewrite (qsum_map_ext _ (fun s => (n_tot * fr_neg fr) * inject_Z (snd s))).
      - rewrite qsum_scale, qsum_charges, <- neg_charges_eq. unfold n_neg_ions. rewrite inject_Z_opp. ring.
      - intros s Hs. apply negs_In in Hs. destruct Hs as [Hs P]. rewrite n0_charged by (auto; lia). rewrite n1_neg by auto. ring. }
    rewrite Z0, ZP, ZN. unfold n_el. ring.
  Qed.

  Lemma total_fed : fed l feeds -> qsum (map n0 l) == n_tot.
  Proof.
    intros F. apply fed_iff in F. pose proof (proj2 (Qltb_iff _ _) F) as B.
    rewrite (qsum_split (fun s => Qltb 0 (feed s))).
    rewrite (qsum_map_ext n0 (fun s => ((n_tot - qsum (map n1 l)) / feed_sum l feeds) * feed s) (filter (fun s => Qltb 0 (feed s)) l)).
    2:{ intros s Hs. apply filter_In in Hs. destruct Hs as [_ Hs]. unfold n_zero. rewrite B, Hs. unfold Qdiv. ring. }
    rewrite (qsum_map_ext n0 n1 (filter (fun s => negb (Qltb 0 (feed s))) l)).
    2:{ intros s Hs. apply filter_In in Hs. destruct Hs as [_ Hs]. unfold n_zero. rewrite B. apply negb_true_iff in Hs. now rewrite Hs. }
    assert (Fs : qsum (map (fun s => feed s) (filter (fun s => Qltb 0 (feed s)) l)) == feed_sum l feeds).
    { unfold feed_sum. rewrite (qsum_split (fun s => Qltb 0 (feed s)) _ l).
      rewrite (qsum_all (fun s => feed s) 0 (filter (fun s => negb (Qltb 0 (feed s))) l)); [ring|].
      intros s Hs. apply filter_In in Hs. destruct Hs as [Hs N]. apply negb_true_iff, Qltb_false in N.
      destruct s as [n q]. destruct (feeds_ok n q Hs) as [P _]. cbn [fst] in *. lra. }
    assert (N1 : qsum (map n1 l) == qsum (map n1 (filter (fun s => negb (Qltb 0 (feed s))) l))).
    { rewrite (qsum_split (fun s => Qltb 0 (feed s)) n1 l).
      rewrite (qsum_all n1 0 (filter (fun s => Qltb 0 (feed s)) l)); [ring|].
      intros s Hs. apply filter_In in Hs. destruct Hs as [Hs P]. apply Qltb_iff in P. destruct s as [n q]. cbn [fst] in P.
      destruct (feeds_ok n q Hs) as [_ Z]. specialize (Z P). subst q. unfold n_start. cbn [snd fst Z.ltb Z.compare].
      destruct (Qeq_bool (feed_of feeds n) 0) eqn:Q; [|reflexivity]. apply Qeq_bool_iff in Q. lra. }
    rewrite qsum_scale, Fs, <- N1. field. lra.
  Qed.

  Lemma total_unfed : ~ fed l feeds -> (exists s, In s l /\ snd s = 0%Z) -> qsum (map n0 l) == n_tot.
  Proof.
    intros F (s0 & I0 & Q0). assert (B : Qltb 0 (feed_sum l feeds) = false).
    { apply Qltb_false. destruct (Qlt_le_dec 0 (feed_sum l feeds)) as [G|G]; [now apply fed_iff in G|exact G]. }
    rewrite (qsum_split (fun s => (snd s =? 0)%Z)). fold (neutrals l).
    set (K := (n_tot - qsum (map n1 (filter (fun s => negb (snd s =? 0)%Z) l))) / zlen (neutrals l)).
    rewrite (qsum_all n0 K (neutrals l)).
    2:{ intros s Hs. apply neutrals_In in Hs. destruct Hs as [_ Hs]. unfold n_zero. rewrite B, Hs. cbn [Z.eqb]. reflexivity. }
    rewrite (qsum_map_ext n0 n1 (filter (fun s => negb (snd s =? 0)%Z) l)).
    2:{ intros s Hs. apply filter_In in Hs. destruct Hs as [Hs N]. apply negb_true_iff, Z.eqb_neq in N. now rewrite n0_charged. }
    unfold K. field. unfold zlen. destruct (neutrals l) as [|x m] eqn:E.
    - assert (In s0 (neutrals l)) as J by (apply neutrals_In; auto). rewrite E in J. destruct J.
    - intros A. change 0 with (inject_Z 0) in A. apply (proj1 (inject_Z_injective _ 0)) in A. cbn in A. lia.
  Qed.

  (** ** Signs *)
  Hypothesis small : small_fractions l fr.
  Hypothesis n_tot_pos : 0 < n_tot.

  Lemma neg_sum_nonneg : 0 <= inject_Z (- zsum (neg_charges l)).
  Proof.
    change 0 with (inject_Z 0). rewrite <- Zle_Qle. destruct (neg_charges l) eqn:E; [cbn; lia|].
    rewrite <- E. assert (zsum (neg_charges l) < 0)%Z by (apply neg_sum_neg; rewrite E; easy). lia.
  Qed.

  Lemma zlen_nonneg {A} (m : list A) : 0 <= zlen m.
  Proof. unfold zlen. change 0 with (inject_Z 0). rewrite <- Zle_Qle. lia. Qed.

  Lemma n_pos_nonneg : 0 <= n_neg_ions l n_tot fr + n_el n_tot fr.
  Proof.
    destruct small as (I & N & _ & _). pose proof neg_sum_nonneg. unfold n_neg_ions, n_el.
    assert (0 <= n_tot * inject_Z (- zsum (neg_charges l)) * fr_neg fr) by (repeat apply Qmult_le_0_compat; lra).
    assert (0 <= n_tot * fr_ion fr) by (apply Qmult_le_0_compat; lra). lra.
  Qed.

  Lemma n1_nonneg s : In s l -> 0 <= n1 s.
  Proof.
    intros I. destruct small as (Fi & Fn & Fo & _). destruct (Z.lt_trichotomy (snd s) 0) as [H|[H|H]].
    - rewrite n1_neg by auto. apply Qmult_le_0_compat; lra.
    - unfold n_start. rewrite H. cbn [Z.ltb Z.compare]. destruct (Qeq_bool _ _); [|lra]. apply Qmult_le_0_compat; lra.
    - rewrite n1_pos by auto. pose proof pos_sum_pos as P. rewrite Zlt_Qlt in P. change (inject_Z 0) with 0 in P.
      apply Qle_shift_div_l; [exact P|]. pose proof n_pos_nonneg. lra.
  Qed.

  Lemma poss_count : zlen (poss l) <= inject_Z (zsum (pos_charges l)).
  Proof.
    rewrite pos_charges_eq. assert (H : forall s, In s (poss l) -> (0 < snd s)%Z) by (intros s Hs; now apply poss_In in Hs).
    revert H. generalize (poss l) as m. induction m as [|s m IH]; intros H; [unfold zlen; cbn; lra|].
    rewrite zlen_cons. cbn [map zsum fold_right]. change (fold_right Z.add 0%Z (map snd m)) with (zsum (map snd m)). rewrite inject_Z_plus.
    assert (zlen m <= inject_Z (zsum (map snd m))) by (apply IH; intros x X; apply H; now right).
    assert (1 <= inject_Z (snd s)); [|lra]. change 1 with (inject_Z 1). rewrite <- Zle_Qle. specialize (H s (or_introl eq_refl)). lia.
  Qed.

  Lemma charged_le : qsum (map n1 (filter (fun s => negb (snd s =? 0)%Z) l))
    <= n_tot * (fr_ion fr + fr_neg fr * (inject_Z (- zsum (neg_charges l)) + zlen (neg_charges l))).
  Proof.
    rewrite qsum_signs.
    assert (E0 : neutrals (filter (fun s => negb (snd s =? 0)%Z) l) = []).
    { apply filter_nil. intros s Hs. apply filter_In in Hs. destruct Hs as [_ Hs]. now apply negb_true_iff in Hs. }
    assert (EP : poss (filter (fun s => negb (snd s =? 0)%Z) l) = poss l).
    { unfold poss. clear. induction l as [|s m IH]; [reflexivity|]. cbn [filter].
      destruct (Z.eqb_spec (snd s) 0) as [H|H]; cbn [negb filter].
      - rewrite H. cbn [Z.ltb Z.compare]. exact IH.
      - destruct (0 <? snd s)%Z; now rewrite IH. }
    assert (EN : negs (filter (fun s => negb (snd s =? 0)%Z) l) = negs l).
    { unfold negs. clear. induction l as [|s m IH]; [reflexivity|]. cbn [filter].
      destruct (Z.eqb_spec (snd s) 0) as [H|H]; cbn [negb filter].
      - rewrite H. cbn [Z.ltb Z.compare]. exact IH.
      - destruct (snd s <? 0)%Z; now rewrite IH. }
    rewrite E0, EP, EN. cbn [map].
    rewrite (qsum_all n1 (n_tot * fr_neg fr) (negs l)) by (intros s Hs; apply negs_In in Hs; destruct Hs; now apply n1_neg).
    rewrite (qsum_all n1 ((n_neg_ions l n_tot fr + n_el n_tot fr) / inject_Z (zsum (pos_charges l))) (poss l))
      by (intros s Hs; apply poss_In in Hs; destruct Hs as [_ Hs]; rewrite n1_pos by exact Hs; reflexivity).
    assert (EL : zlen (neg_charges l) = zlen (negs l)) by (unfold zlen; now rewrite neg_charges_eq, map_length).
    rewrite EL. pose proof n_pos_nonneg as NP. pose proof poss_count as PC.
    pose proof pos_sum_pos as P. rewrite Zlt_Qlt in P. change (inject_Z 0) with 0 in P.
    assert (X : (n_neg_ions l n_tot fr + n_el n_tot fr) / inject_Z (zsum (pos_charges l)) * zlen (poss l) <= n_neg_ions l n_tot fr + n_el n_tot fr).
    { unfold Qdiv. rewrite <- Qmult_assoc. rewrite <- (Qmult_1_r (n_neg_ions l n_tot fr + n_el n_tot fr)) at 2.
      apply Qmult_le_compat_nonneg; [split; [exact NP|apply Qle_refl]|]. split.
      - apply Qmult_le_0_compat; [apply Qlt_le_weak, Qinv_lt_0_compat, P|apply zlen_nonneg].
      - rewrite Qmult_comm. apply (Qle_shift_div_r (zlen (poss l)) _ 1 P). lra. }
    eapply Qle_trans; [apply Qplus_le_compat; [apply Qplus_le_compat; [exact X|apply Qle_refl]|apply Qle_refl]|].
    unfold n_neg_ions, n_el. change (qsum []) with 0.
    assert (A : n_tot * inject_Z (- zsum (neg_charges l)) * fr_neg fr + n_tot * fr_ion fr + n_tot * fr_neg fr * zlen (negs l) + 0
      == n_tot * (fr_ion fr + fr_neg fr * (inject_Z (- zsum (neg_charges l)) + zlen (negs l)))) by ring.
    rewrite A. apply Qle_refl.
  Qed.

  Lemma neutral_le : qsum (map n1 (neutrals l)) <= n_tot * (fr_non fr * zlen (neutrals l)).
  Proof.
    destruct small as (_ & _ & Fo & _). assert (0 <= n_tot * fr_non fr) as G by (apply Qmult_le_0_compat; [now apply Qlt_le_weak|exact Fo]).
    assert (H : forall s, In s (neutrals l) -> n1 s <= n_tot * fr_non fr).
    { intros s Hs. apply neutrals_In in Hs. destruct Hs as [_ Hs]. unfold n_start. rewrite Hs. cbn [Z.ltb Z.compare].
      destruct (Qeq_bool _ _); lra. }
    revert H. generalize (neutrals l) as m. induction m as [|s m IH]; intros H.
    { change (qsum (map n1 [])) with 0. change (zlen (@nil (string * Z))) with 0. setoid_replace (n_tot * (fr_non fr * 0)) with 0 by ring. lra. }
    cbn [map]. rewrite qsum_cons, zlen_cons. pose proof (H s (or_introl eq_refl)).
    assert (qsum (map n1 m) <= n_tot * (fr_non fr * zlen m)) by (apply IH; intros x X; apply H; now right).
    assert (n_tot * (fr_non fr * (zlen m + 1)) == n_tot * (fr_non fr * zlen m) + n_tot * fr_non fr) as -> by ring. lra.
  Qed.

  Lemma n0_nonneg s : In s l -> 0 <= n0 s.
  Proof.
    intros I. pose proof charged_le as C. pose proof neutral_le as N. pose proof (zlen_nonneg (neutrals l)) as ZN.
    destruct small as (_ & _ & Fo & Sm).
    set (a := fr_ion fr + fr_neg fr * (inject_Z (- zsum (neg_charges l)) + zlen (neg_charges l))) in *.
    set (b := fr_non fr * zlen (neutrals l)) in *.
    assert (NB : 0 <= b) by (unfold b; apply Qmult_le_0_compat; lra).
    assert (T : n_tot * a + n_tot * b <= n_tot).
    { assert (n_tot * (a + b) <= n_tot * 1) by (apply Qmult_le_compat_nonneg; [lra|]; split; [|lra];
        assert (0 <= a); [|lra]; unfold a; destruct small as (Fi & Fn & _ & _); pose proof neg_sum_nonneg; pose proof (zlen_nonneg (neg_charges l));
        assert (0 <= fr_neg fr * (inject_Z (- zsum (neg_charges l)) + zlen (neg_charges l))) by (apply Qmult_le_0_compat; lra); lra). lra. }
    assert (NTB : 0 <= n_tot * b) by (apply Qmult_le_0_compat; lra).
    unfold n_zero. destruct (Qltb 0 (feed_sum l feeds)) eqn:B.
    - destruct (Qltb 0 (feed s)) eqn:F; [|now apply n1_nonneg]. apply Qltb_iff in B, F.
      apply Qmult_le_0_compat; [apply Qle_shift_div_l; [exact B|lra]|].
      rewrite (qsum_split (fun s => (snd s =? 0)%Z) n1 l). fold (neutrals l). lra.
    - destruct (Z.eqb_spec (snd s) 0) as [H|H]; [|now apply n1_nonneg].
      apply Qle_shift_div_l; [|lra].
      assert (In s (neutrals l)) as J by (apply neutrals_In; auto). destruct (neutrals l) as [|x m]; [destruct J|].
      rewrite zlen_cons. pose proof (zlen_nonneg m). lra.
  Qed.
End D.
