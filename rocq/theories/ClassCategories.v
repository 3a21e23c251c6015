(** The categories mean what ClassMeaning.v says. *)
From Coq Require Import Permutation.
From Verif Require Import Base BaseLemmas Species Reactions SortLemmas ChemDisable Classification ClassSpec ClassProofs ClassExact
  ClassMeaning.

Lemma electrons_n_e l : electrons l = n_e l.
Proof. reflexivity. Qed.
Lemma heavies_heavy l : heavies l = Z.of_nat (List.length (heavy l)).
Proof. reflexivity. Qed.
Lemma states_n l : states l = Z.of_nat (n_excited l).
Proof. reflexivity. Qed.
Lemma length_split l : Z.of_nat (List.length l) = electrons l + heavies l.
Proof. rewrite electrons_n_e, heavies_heavy, n_e_heavy. lia. Qed.

Lemma charge_is0_iff c : sane c -> cs_name c <> "M" -> charge_is0 c = (q0 c =? 0).
Proof.
  intros S N. unfold charge_is0, q0. destruct (sane_dec c S) as [[H _]|[(_ & -> & _)|(_ & _ & (q & ->) & _)]]; [contradiction| |]; reflexivity.
Qed.
Lemma charge_num_q0 c : sane c -> cs_name c <> "M" -> charge_num c = Ok (q0 c).
Proof.
  intros S N. unfold charge_num, q0. destruct (sane_dec c S) as [[H _]|[(_ & -> & _)|(_ & _ & (q & ->) & _)]]; [contradiction| |]; reflexivity.
Qed.

Lemma single_one {A} (P : A -> Prop) x : (exists p, [x] = [p] /\ P p) <-> P x.
Proof. split; [intros (p & E & H); now injection E as ->|eauto]. Qed.
Lemma single_nil {A} (P : A -> Prop) : (exists p, [] = [p] /\ P p) <-> False.
Proof. split; [intros (p & E & H); discriminate|easy]. Qed.
Lemma single_more {A} (P : A -> Prop) x y l : (exists p, x :: y :: l = [p] /\ P p) <-> False.
Proof. split; [intros (p & E & H); discriminate|easy]. Qed.

Lemma heavy_state l : (exists p, In p l /\ is_heavy p = true /\ has_state p = true) <-> existsb excited (heavy l) = true.
Proof.
  rewrite existsb_exists. split.
  - intros (p & H1 & H2 & H3). exists p. split; [|exact H3]. apply filter_In. auto.
  - intros (p & H1 & H2). apply filter_In in H1 as [H1 H3]. eauto.
Qed.
Lemma heavy_stateless l : (forall p, In p l -> is_heavy p = true -> has_state p = false) <-> existsb excited (heavy l) = false.
Proof.
  rewrite existsb_false. split.
  - intros H p Hp. apply filter_In in Hp as [H1 H2]. apply H; assumption.
  - intros H p H1 H2. apply H. apply filter_In. auto.
Qed.

Ltac iffs := repeat match goal with |- _ /\ _ => split end; split.
Ltac crush X := repeat match type of X with _ /\ _ => let Y := fresh in destruct X as [Y X]; try discriminate Y; try contradiction end;
  first [discriminate X | congruence | lia | tauto].
Ltac leaf := let X := fresh in intros X;
  first [discriminate X | reflexivity | solve [crush X]
        | clear X; repeat match goal with |- _ /\ _ => split end; first [reflexivity | assumption | discriminate | lia | tauto]
        | intuition (first [discriminate | congruence | lia])].

Lemma hits_two r c : electron_hits r c ->
  List.length (cr_lhs r) = 2%nat /\ heavy (cr_lhs r) = [c] /\ n_e (cr_lhs r) = 1 /\ existsb is_e (cr_lhs r) = true /\ In c (cr_lhs r).
Proof.
  intros (e & He & Hc & H). apply is_e_iff in He. assert (is_e c = false) as Hc' by (apply not_true_iff_false; now rewrite is_e_iff).
  unfold heavy, n_e. destruct H as [-> | ->]; cbn [filter List.length existsb]; rewrite He, Hc'; cbn; auto 12.
Qed.

Lemma electron_case r c t : proper r -> electron_hits r c -> classify r = Ok ("ELECTRON IMPACT COLLISIONS", t) -> electron_categories r c t.
Proof.
  intros Hp Hh Hc. pose proof Hp as (Hlen & _ & Hs & Hi & _).
  destruct (hits_two r c Hh) as (L2 & Hv & Hn & He & Hin).
  assert (sane c) as Sc by (apply Hs, in_or_app; now left).
  assert (n_e (cr_rhs r) <> 1 -> cs_name c <> "M") as NM.
  { intros N EM. apply N. destruct Hh as (e & Ee & _ & Hl). eapply (electron_M r e c); eauto. }
  unfold classify in Hc. rewrite (el_coef_ok r Hi) in Hc. cbn [bind] in Hc. cbv zeta in Hc. rewrite He in Hc.
  destruct (classify_electron r (n_e (cr_rhs r) - n_e (cr_lhs r))) as [x|] eqn:E; cbn [bind] in Hc; [|discriminate].
  assert (x = t) as -> by (now injection Hc as ->). clear Hc.
  unfold classify_electron in E. cbv zeta in E. rewrite Hv, L2, Hn in E.
  cbn [Nat.ltb Nat.leb Nat.eqb List.length] in E.
  unfold electron_categories. cbv zeta. rewrite heavy_state, heavy_stateless, electrons_n_e, heavies_heavy, neutral_q0, positive_q0, negative_q0.
  change (filter is_heavy (cr_rhs r)) with (heavy (cr_rhs r)).
  set (k := n_e (cr_rhs r)) in *. pose proof (n_e_nonneg (cr_rhs r)) as K. fold k in K.
  assert (k <> 1 -> charge_is0 c = (q0 c =? 0) /\ charge_num c = Ok (q0 c)) as QC.
  { intros N. split; [apply charge_is0_iff|apply charge_num_q0]; auto. }
  clear Hp Hh Hlen Hs Hi L2 Hv Hn He Hin Sc NM. clearbody k.
  destruct (heavy (cr_rhs r)) as [|p [|p' l]]; rewrite ?single_one, ?single_nil, ?single_more; cbn [List.length Nat.eqb] in *.
  - (* nothing heavy left *)
    destruct (Z.gtb_spec (k - 1) 0); [injection E as <-; iffs; leaf|].
    destruct (Z.eqb_spec (k - 1) 0) as [K1|K1].
    + destruct (cr_elastic r); injection E as <-; iffs; leaf.
    + injection E as <-; iffs; leaf.
  - destruct (Z.gtb_spec (k - 1) 0).
    { destruct QC as [Q1 Q2]; [lia|]. rewrite Q1, Q2 in E. destruct (Z.eqb_spec (q0 c) 0); [injection E as <-; iffs; leaf|].
      cbn [bind] in E. destruct (Z.ltb_spec (q0 c) 0); injection E as <-; iffs; leaf. }
    destruct (Z.eqb_spec (k - 1) 0) as [K1|K1].
    + change (has_state) with excited. destruct (cr_elastic r); [injection E as <-; iffs; leaf|].
      destruct (excited c), (excited p); cbn [negb andb] in E.
      * destruct (fltb fzero (cr_loss r)); injection E as <-; iffs; leaf.
      * injection E as <-; iffs; leaf.
      * injection E as <-; iffs; leaf.
      * destruct (Nat.eqb_spec (cs_uid c) (cs_uid p)); injection E as <-; iffs; leaf.
    + destruct QC as [Q1 Q2]; [lia|]. rewrite Q1, Q2 in E. destruct (Z.eqb_spec (q0 c) 0); [injection E as <-; iffs; leaf|].
      cbn [bind] in E. destruct (Z.gtb_spec (q0 c) 0); injection E as <-; iffs; leaf.
  - change (Nat.ltb 1 (S (S (List.length l)))) with true in E. cbn iota in E.
    destruct (Z.gtb_spec (k - 1) 0).
    { destruct QC as [Q1 Q2]; [lia|]. rewrite Q1 in E. destruct (Z.eqb_spec (q0 c) 0); injection E as <-; iffs; leaf. }
    destruct (Z.eqb_spec (k - 1) 0) as [K1|K1].
    + destruct (cr_elastic r); [injection E as <-; iffs; leaf|].
      destruct (existsb excited (p :: p' :: l)); injection E as <-; iffs; leaf.
    + destruct QC as [Q1 Q2]; [lia|]. rewrite Q1, Q2 in E. destruct (Z.eqb_spec (q0 c) 0); [injection E as <-; iffs; leaf|].
      cbn [bind] in E. destruct (Z.gtb_spec (q0 c) 0); injection E as <-; iffs; leaf.
Qed.

Lemma sum_cons x l : sum (x :: l) = x + sum l.
Proof. reflexivity. Qed.

Lemma sumq_sum l : sumq l = sum (map charge_of l).
Proof. induction l as [|s l IH]; [reflexivity|]. cbn [map]. rewrite sum_cons, <- IH. unfold sumq, charge_of. cbn. destruct (cs_charge s); lia. Qed.

Lemma three_case r t : proper r -> List.length (cr_lhs r) = 3%nat -> classify r = Ok ("ELECTRON IMPACT COLLISIONS", t) -> three_body_categories r t.
Proof.
  intros Hp L Hc. pose proof Hp as (_ & _ & _ & Hi & _).
  unfold classify in Hc. rewrite (el_coef_ok r Hi) in Hc. cbn [bind] in Hc. cbv zeta in Hc. rewrite L in Hc.
  destruct (existsb is_e (cr_lhs r)); [|cbn [Nat.eqb] in Hc; discriminate].
  unfold classify_electron in Hc. cbv zeta in Hc. rewrite L in Hc. cbn [Nat.ltb Nat.leb Nat.eqb] in Hc.
  destruct (heavy (cr_lhs r)) as [|c l] eqn:E; [discriminate|]. rewrite <- E in Hc. cbn [bind] in Hc. rewrite !sumq_sum in Hc.
  injection Hc as <-. unfold three_body_categories. cbv zeta. change (filter is_heavy) with heavy.
  match goal with |- context [subsetS ?a ?b] => set (sub := subsetS a b) end.
  assert ((forall s, In s (heavy (cr_lhs r)) -> exists p, In p (heavy (cr_rhs r)) /\
             strip_charge (cs_stateless p) = strip_charge (cs_stateless s)) <-> sub = true) as ->.
  { unfold sub. rewrite subsetS_incl. split.
    - intros H x Hx. apply in_map_iff in Hx as (s & <- & Hs). destruct (H s Hs) as (p & Hp' & Ep). apply in_map_iff. eauto.
    - intros H s Hs. specialize (H _ (in_map _ _ _ Hs)). apply in_map_iff in H as (p & Ep & Hp'). eauto. }
  destruct sub; [|iffs; leaf].
  match goal with |- context [?a >? ?b] => destruct (Z.gtb_spec a b) end; [|iffs; leaf].
  match goal with |- context [?a >? ?b] => destruct (Z.gtb_spec a b) end; [iffs; leaf|].
  match goal with |- context [?a <? ?b] => destruct (Z.ltb_spec a b) end; iffs; leaf.
Qed.

Lemma no_e_lhs r : existsb is_e (cr_lhs r) = false -> n_e (cr_lhs r) = 0.
Proof. intros H. apply n_e_0. now apply existsb_false. Qed.

Lemma neutral_case r t : proper r -> classify r = Ok ("NEUTRAL - NEUTRAL COLLISIONS", t) -> neutral_categories r t.
Proof.
  intros Hp Hc. destruct (classify_type r _ _ Hp Hc) as (_ & _ & _ & (H & _) & _). specialize (H eq_refl).
  destruct H as (Ne & a & b & Hl & Hab).
  assert (existsb is_e (cr_lhs r) = false) as He.
  { apply not_true_iff_false. intros X. apply Ne. apply existsb_exists in X as (s & H1 & H2). exists s. split; [exact H1|now apply is_e_iff]. }
  assert (t = classify_neutral r (n_e (cr_rhs r))) as ->.
  { destruct (classify_two r a b Hp Hl He) as [(_ & _ & E)|[(H1 & H2 & H3 & E)|[(H1 & H2 & H3 & E)|(H1 & E)]]]; rewrite E in Hc.
    - injection Hc as <-. reflexivity.
    - destruct (classify_positive r); cbn [bind] in Hc; discriminate.
    - destruct (classify_negative r _); cbn [bind] in Hc; discriminate.
    - destruct (forallb _ _); discriminate. }
  pose proof Hp as (_ & Hr1 & _).
  unfold neutral_categories, classify_neutral. cbv zeta.
  assert (Z.of_nat (List.length (cr_lhs r)) = 2) as -> by now rewrite Hl.
  assert ((List.length (cr_rhs r) = 1)%nat <-> electrons (cr_rhs r) + heavies (cr_rhs r) = 1) as -> by (pose proof (length_split (cr_rhs r)); lia).
  assert (1 <= electrons (cr_rhs r) + heavies (cr_rhs r)) as Hr1' by (pose proof (length_split (cr_rhs r)); lia). clear Hr1.
  rewrite (length_split (cr_rhs r)), (states_n (cr_lhs r)), (states_n (cr_rhs r)). change (n_e (cr_rhs r)) with (electrons (cr_rhs r)).
  set (k := electrons (cr_rhs r)) in *. set (h := heavies (cr_rhs r)) in *.
  assert (0 <= k) by (apply Zle_0_nat). assert (0 <= h) by (apply Zle_0_nat).
  set (sr := n_excited (cr_lhs r)). set (sp := n_excited (cr_rhs r)).
  set (shared := existsb (fun s => memS (cs_name s) (map cs_name (cr_rhs r))) (cr_lhs r)).
  assert ((exists s p, In s (cr_lhs r) /\ In p (cr_rhs r) /\ cs_name s = cs_name p) <-> shared = true) as ->.
  { unfold shared. rewrite existsb_exists. split.
    - intros (s & p & H1 & H2 & H3). exists s. split; [exact H1|]. apply memS_In. rewrite H3. now apply in_map.
    - intros (s & H1 & H2). apply memS_In, in_map_iff in H2 as (p & H2 & H3). exists s, p. auto. }
  set (allq := forallb (fun s => q0 s =? 0) (cr_rhs r)).
  assert ((forall p, In p (cr_rhs r) -> neutral p) <-> allq = true) as ->.
  { unfold allq. rewrite forallb_forall. split; intros Hx p Hpp.
    - apply Z.eqb_eq. apply neutral_q0. auto.
    - apply neutral_q0. apply Z.eqb_eq. auto. }
  set (seq := set_eqb (map cs_stateless (cr_lhs r)) (map cs_stateless (cr_rhs r))).
  assert ((forall x, In x (map cs_stateless (cr_lhs r)) <-> In x (map cs_stateless (cr_rhs r))) <-> seq = true) as ->.
  { unfold seq, set_eqb. rewrite andb_true_iff, !subsetS_incl. unfold incl. firstorder. }
  assert (subsetS (map cs_stateless (cr_lhs r)) (map cs_stateless (cr_lhs r)) = true) as ->.
  { apply subsetS_incl. apply incl_refl. }
  clearbody k h sr sp shared allq seq. clear Hp Hc Ne Hl Hab He a b.
  generalize (cr_elastic r). clear r. intros el.
  destruct el; [iffs; leaf|].
  destruct (Z.gtb_spec 2 (k + h)); [iffs; leaf|].
  destruct (Z.gtb_spec k 0).
  { destruct (Z.eqb_spec 2 (k + h - k)).
    - destruct (Nat.ltb_spec 0 sr), (Nat.eqb_spec sp 0); cbn [andb]; [iffs; leaf| | |].
      all: destruct (Nat.eqb_spec sr sp); cbn [andb]; iffs; leaf.
    - destruct (Z.ltb_spec 2 (k + h - k)); iffs; leaf. }
  destruct (Z.eqb_spec k 0); [|lia]. cbn [andb].
  destruct (Z.ltb_spec 2 (k + h)).
  { destruct shared; [|iffs; leaf]. destruct allq; [|iffs; leaf].
    destruct (Nat.eqb_spec sr sp); [iffs; leaf|]. destruct (Nat.ltb_spec sr sp); iffs; leaf. }
  destruct (Z.eqb_spec 2 (k + h)); [|lia].
  destruct (Nat.ltb_spec sr sp); [iffs; leaf|]. destruct (Nat.ltb_spec sp sr); [iffs; leaf|].
  destruct (Nat.eqb_spec sr sp); [|lia]. cbn [andb]. destruct (Nat.ltb_spec 0 sr); [|iffs; leaf].
  destruct seq; iffs; leaf.
Qed.

(** ** Ions and neutrals *)
Definition splits (l : list cs) (i n : cs) : Prop := l = [i; n] \/ l = [n; i].

Lemma first_two (p : Z -> bool) l i n : p 0 = false -> List.length l = 2%nat ->
  first_where p l = Ok i -> first_where (Z.eqb 0) l = Ok n ->
  splits l i n /\ p (q0 i) = true /\ q0 n = 0.
Proof.
  intros P0 L. unfold first_where. destruct l as [|x [|y [|z l]]]; try discriminate L. cbn [find].
  destruct (p (q0 x)) eqn:Px.
  - intros H. injection H as <-. destruct (Z.eqb_spec 0 (q0 x)) as [Ez|Ez]; [congruence|].
    destruct (Z.eqb_spec 0 (q0 y)) as [Ey|Ey]; [|discriminate]. intros H. injection H as <-. split; [left; reflexivity|]. auto.
  - destruct (p (q0 y)) eqn:Py; [|discriminate]. intros H. injection H as <-.
    destruct (Z.eqb_spec 0 (q0 x)) as [Ez|Ez].
    + intros H. injection H as <-. split; [right; reflexivity|]. auto.
    + destruct (Z.eqb_spec 0 (q0 y)) as [Ey|Ey]; [congruence|discriminate].
Qed.

Lemma splits_unique (p : Z -> bool) l i n i' n' : p 0 = false -> splits l i n -> splits l i' n' ->
  p (q0 i) = true -> q0 n = 0 -> p (q0 i') = true -> q0 n' = 0 -> i = i' /\ n = n'.
Proof.
  intros P0 [-> | ->] [H|H] A B C D; apply two_lists in H as [-> ->]; auto; congruence.
Qed.

Section Transfer.
  Variables (sg : ascii) (p : Z -> bool) (ion : cs -> Prop) (un : string) (r : cr).
  Hypothesis P0 : p 0 = false.
  Hypothesis Pion : forall s, ion s <-> p (q0 s) = true.

  Lemma transfers_iff i n i' n' b : splits (cr_lhs r) i n -> ion i -> neutral n -> splits (cr_rhs r) i' n' -> ion i' -> neutral n' ->
    transfers r sg ion b <-> bare sg i = cs_name n' /\ bare sg i' = cs_name n /\
      (if b then cs_name n = cs_name n' /\ cs_name i = cs_name i' else cs_name n <> cs_name n' \/ cs_name i <> cs_name i').
  Proof using P0 Pion.
    intros S1 A B S2 C D. unfold transfers. split.
    - intros (i1 & n1 & i2 & n2 & H1 & H2 & H3 & H4 & H5 & H6 & H).
      rewrite Pion in *. rewrite neutral_q0 in *.
      destruct (splits_unique p (cr_lhs r) i n i1 n1) as [-> ->]; auto.
      destruct (splits_unique p (cr_rhs r) i' n' i2 n2) as [-> ->]; auto.
    - intros H. exists i, n, i', n'. tauto.
  Qed.

  Lemma transfer_len b : transfers r sg ion b -> List.length (cr_rhs r) = 2%nat.
  Proof using. intros (i & n & i' & n' & _ & _ & _ & H & _). destruct H as [-> | ->]; reflexivity. Qed.

  Lemma transfer_case i n t : un <> "resonant charge transfer" -> un <> "charge transfer" ->
    splits (cr_lhs r) i n -> ion i -> neutral n -> List.length (cr_rhs r) = 2%nat ->
    charge_transfer sg p un r i n = Ok t ->
    (t = "charge transfer" <-> transfers r sg ion false) /\ (t = "resonant charge transfer" <-> transfers r sg ion true) /\
    (t = un \/ t = "charge transfer" \/ t = "resonant charge transfer").
  Proof using P0 Pion.
    intros U1 U2 S1 A B L. unfold charge_transfer.
    destruct (first_where p (cr_rhs r)) as [i'|] eqn:E1; cbn [bind]; [|discriminate].
    destruct (first_where (Z.eqb 0) (cr_rhs r)) as [n'|] eqn:E2; cbn [bind]; [|discriminate].
    destruct (first_two p (cr_rhs r) i' n' P0 L E1 E2) as (S2 & C & D).
    rewrite <- Pion in C. rewrite <- neutral_q0 in D.
    rewrite !(transfers_iff i n i' n') by assumption. intros H. injection H as <-.
    fold (bare sg i). fold (bare sg i').
    destruct (String.eqb_spec (bare sg i) (cs_name n')) as [N1|N1]; cbn [andb].
    2: { split; [|split]; [| |auto]; split; intros X; try congruence; destruct X; contradiction. }
    destruct (String.eqb_spec (cs_name n) (bare sg i')) as [N2|N2].
    2: { split; [|split]; [| |auto]; split; intros X; try congruence; destruct X as (_ & X & _); congruence. }
    destruct (String.eqb_spec (cs_name n) (cs_name n')) as [N3|N3]; cbn [andb].
    - destruct (String.eqb_spec (cs_name i) (cs_name i')) as [N4|N4].
      + split; [|split]; [| |auto]; split; intros X; try discriminate X; auto.
        destruct X as (_ & _ & [X|X]); contradiction.
      + split; [|split]; [| |auto]; split; intros X; try discriminate X; auto.
        destruct X as (_ & _ & _ & X); contradiction.
    - split; [|split]; [| |auto]; split; intros X; try discriminate X; auto.
      destruct X as (_ & _ & X & _); contradiction.
  Qed.
End Transfer.

Lemma type_two r (t : string) (p q : cs -> Prop) : 
  (exists a b, cr_lhs r = [a; b] /\ ((p a /\ q b) \/ (q a /\ p b))) -> t = t -> exists i n, splits (cr_lhs r) i n /\ p i /\ q n.
Proof. intros (a & b & Hl & [[A B]|[A B]]) _; rewrite Hl; [exists a, b|exists b, a]; unfold splits; auto. Qed.

Lemma first_splits (p : Z -> bool) l i n : p 0 = false -> splits l i n -> p (q0 i) = true -> q0 n = 0 ->
  first_where p l = Ok i /\ first_where (Z.eqb 0) l = Ok n.
Proof.
  intros P0 S A B. assert (q0 i <> 0) as Hi by congruence. apply Z.eqb_neq in Hi. rewrite Z.eqb_sym in Hi.
  unfold first_where. destruct S as [-> | ->]; cbn [find]; rewrite ?A, ?B, ?P0, ?Hi; cbn; auto.
Qed.

Lemma not_el r : ~ (exists s, In s (cr_lhs r) /\ electron s) -> existsb is_e (cr_lhs r) = false.
Proof.
  intros Ne. apply not_true_iff_false. intros X. apply Ne. apply existsb_exists in X as (s & H1 & H2). exists s.
  split; [exact H1|now apply is_e_iff].
Qed.

Lemma splits_two l i n : splits l i n -> exists a b, l = [a; b].
Proof. intros [H|H]; eauto. Qed.

Lemma positive_case r t : proper r -> classify r = Ok ("POSITIVE ION - NEUTRAL COLLISIONS", t) -> positive_categories r t.
Proof.
  intros Hp Hc. destruct (classify_type r _ _ Hp Hc) as (_ & _ & _ & _ & (H & _) & _). specialize (H eq_refl).
  destruct H as (Ne & H). destruct (type_two r t _ _ H eq_refl) as (i & n & S & A & B). clear H.
  destruct (splits_two _ _ _ S) as (a & b & Hl).
  assert (classify_positive r = Ok t) as Hc'.
  { destruct (classify_two r a b Hp Hl (not_el r Ne)) as [(_ & _ & E)|[(H1 & H2 & H3 & E)|[(H1 & H2 & H3 & E)|(H1 & E)]]]; rewrite E in Hc.
    - discriminate.
    - destruct (classify_positive r); cbn [bind] in Hc; [|discriminate]. injection Hc as ->. reflexivity.
    - destruct (classify_negative r _); cbn [bind] in Hc; discriminate.
    - destruct (forallb _ _); discriminate. }
  clear Hc. unfold classify_positive in Hc'. cbv zeta in Hc'.
  assert (forall s, positive s <-> (q0 s >? 0) = true) as Pion by (intros s; rewrite positive_q0, Z.gtb_lt; reflexivity).
  destruct (first_splits (fun q => q >? 0) (cr_lhs r) i n eq_refl S) as [E1 E2]; [now apply Pion|now apply neutral_q0|].
  rewrite E1, E2 in Hc'. cbn [bind] in Hc'. rewrite Hl in Hc'. cbn [List.length] in Hc'.
  unfold positive_categories.
  assert ((exists i0 n0 p, collide r i0 n0 /\ positive i0 /\ neutral n0 /\ In p (cr_rhs r) /\ cs_name p = (cs_name n0 ++ "+")%string) <->
          memS (cs_name n ++ "+")%string (map cs_name (cr_rhs r)) = true) as ->.
  { rewrite memS_In, in_map_iff. split.
    - intros (i0 & n0 & p & H1 & H2 & H3 & H4 & H5). exists p. split; [|exact H4].
      destruct (splits_unique (fun q => q >? 0) (cr_lhs r) i n i0 n0) as [-> ->]; auto; try (now apply Pion); now apply neutral_q0.
    - intros (p & H1 & H2). exists i, n, p. auto. }
  destruct (Nat.eqb_spec (List.length (cr_rhs r)) 2) as [L|L].
  - destruct (transfer_case "+" (fun q => q >? 0) positive "unclassified positive ion - neutral collisions" r eq_refl Pion i n t)
      as (T1 & T2 & T3); auto; try discriminate.
    split; [exact T1|]. split; [exact T2|]. rewrite L. split; [intros ->|lia].
    destruct T3 as [T3|[T3|T3]]; discriminate.
  - assert (forall b, ~ transfers r "+" positive b) as NT by (intros b' X; apply L; eapply transfer_len; exact X).
    destruct (Nat.ltb_spec 2 (List.length (cr_rhs r))) as [L2|L2].
    + destruct (memS _ _); injection Hc' as <-; iffs; intros X; try discriminate X; try reflexivity; try (exfalso; eapply NT; exact X); auto.
      destruct X; discriminate.
    + injection Hc' as <-. iffs; intros X; try discriminate X; try (exfalso; eapply NT; exact X). lia.
Qed.

Lemma negative_case r t : proper r -> classify r = Ok ("NEGATIVE ION - NEUTRAL COLLISIONS", t) -> negative_categories r t.
Proof.
  intros Hp Hc. destruct (classify_type r _ _ Hp Hc) as (_ & _ & _ & _ & _ & (H & _) & _). specialize (H eq_refl).
  destruct H as (Ne & H). destruct (type_two r t _ _ H eq_refl) as (i & n & S & A & B). clear H.
  destruct (splits_two _ _ _ S) as (a & b & Hl).
  assert (classify_negative r (n_e (cr_rhs r)) = Ok t) as Hc'.
  { destruct (classify_two r a b Hp Hl (not_el r Ne)) as [(_ & _ & E)|[(H1 & H2 & H3 & E)|[(H1 & H2 & H3 & E)|(H1 & E)]]]; rewrite E in Hc.
    - discriminate.
    - destruct (classify_positive r); cbn [bind] in Hc; discriminate.
    - destruct (classify_negative r _); cbn [bind] in Hc; [|discriminate]. injection Hc as ->. reflexivity.
    - destruct (forallb _ _); discriminate. }
  clear Hc. unfold classify_negative in Hc'. cbv zeta in Hc'.
  assert (forall s, negative s <-> (q0 s <? 0) = true) as Pion by (intros s; rewrite negative_q0, Z.ltb_lt; reflexivity).
  destruct (first_splits (fun q => q <? 0) (cr_lhs r) i n eq_refl S) as [E1 E2]; [now apply Pion|now apply neutral_q0|].
  rewrite E1, E2 in Hc'. cbn [bind] in Hc'.
  assert (Z.of_nat (List.length (cr_lhs r)) = 2) as L2 by now rewrite Hl. rewrite L2, (length_split (cr_rhs r)) in Hc'.
  unfold negative_categories. cbv zeta. change (n_e (cr_rhs r)) with (electrons (cr_rhs r)) in Hc'.
  pose proof (length_split (cr_rhs r)) as LS.
  set (k := electrons (cr_rhs r)) in *. set (h := heavies (cr_rhs r)) in *.
  assert (0 <= k) as K0 by (apply Zle_0_nat). clearbody k h.
  destruct (Z.gtb_spec k 0).
  - destruct (Z.eqb_spec 2 (k + h - k)); [|destruct (Z.gtb_spec 2 (k + h - k))]; injection Hc' as <-; iffs; leaf.
  - assert (k = 0) as -> by lia. destruct (Z.eqb_spec (0 + h) 2) as [L|L].
    + destruct (transfer_case "-" (fun q => q <? 0) negative "unclassified negative ion - neutral collisions" r eq_refl Pion i n t)
        as (T1 & T2 & T3); auto; try discriminate; [lia|].
      assert (t <> "detachment" /\ t <> "associative detachment") as [D1 D2] by (destruct T3 as [->|[->| ->]]; split; discriminate).
      split; [split; [contradiction|lia]|]. split; [split; [contradiction|lia]|]. rewrite T1, T2. tauto.
    + assert (forall b, ~ transfers r "-" negative b) as NT by (intros b' X; apply L; apply transfer_len in X; lia).
      injection Hc' as <-. iffs; intros X; try discriminate X; destruct X as [X Y]; try lia; exfalso; eapply NT; exact Y.
Qed.

Lemma ion_case r t : proper r -> classify r = Ok ("ION - ION COLLISIONS", t) -> ion_categories r t.
Proof.
  intros Hp Hc. destruct (classify_type r _ _ Hp Hc) as (_ & _ & _ & _ & _ & _ & (H & _) & _). specialize (H eq_refl).
  destruct H as (Ne & (a & b & Hl & _) & _). pose proof Hp as (_ & Hr & _).
  destruct (classify_two r a b Hp Hl (not_el r Ne)) as [(_ & _ & E)|[(H1 & H2 & H3 & E)|[(H1 & H2 & H3 & E)|(H1 & E)]]]; rewrite E in Hc.
  - discriminate.
  - destruct (classify_positive r); cbn [bind] in Hc; discriminate.
  - destruct (classify_negative r _); cbn [bind] in Hc; discriminate.
  - destruct (forallb _ _); [|discriminate]. injection Hc as <-. unfold ion_categories. clear - Hr.
    destruct (cr_rhs r) as [|x [|y [|z l]]]; cbn [List.length] in *; [lia| | |]; cbn; iffs; leaf.
Qed.

Lemma categories r t c : proper r -> classify r = Ok (t, c) -> category_spec r t c.
Proof.
  intros Hp Hc. unfold category_spec.
  split; [intros -> p Hh; now apply electron_case|]. split; [intros -> L; now apply three_case|].
  split; [intros ->; now apply neutral_case|]. split; [intros ->; now apply positive_case|].
  split; [intros ->; now apply negative_case|]. intros ->; now apply ion_case.
Qed.

Lemma electron_charges l : (forall s, In s l -> sane s) -> sum (map charge_of l) = sum (map charge_of (filter is_heavy l)) - electrons l.
Proof.
  unfold electrons, number. induction l as [|s l IH]; intros H; [reflexivity|]. cbn [map filter]. rewrite sum_cons, IH by (intros; apply H; now right).
  unfold is_heavy. destruct (is_electron s) eqn:E; cbn [negb].
  - cbn [List.length]. assert (charge_of s = -1); [|lia]. apply String.eqb_eq in E. destruct (H s (or_introl eq_refl)) as (_ & S & _).
    destruct (S E) as [Q _]. unfold charge_of. now rewrite Q.
  - cbn [map]. rewrite sum_cons. lia.
Qed.

Lemma account r c : proper r -> electron_hits r c -> charge_account r c.
Proof.
  intros (_ & _ & Hs & _ & Hq & _) Hh. unfold charge_account.
  rewrite (electron_charges (cr_lhs r)), (electron_charges (cr_rhs r)) in Hq by (intros; apply Hs, in_or_app; auto).
  destruct (hits_two r c Hh) as (_ & Hv & Hn & _). change (filter is_heavy (cr_lhs r)) with (heavy (cr_lhs r)) in Hq. rewrite Hv in Hq.
  change (electrons (cr_lhs r)) with (n_e (cr_lhs r)) in Hq. rewrite Hn in Hq. cbn [map] in Hq. rewrite sum_cons in Hq.
  change (sum []) with 0 in Hq. lia.
Qed.
