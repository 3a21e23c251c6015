(** The exact domain of the classifier, the meaning of the types, the order
    of sorted species. *)
From Coq Require Import Sorted Permutation.
From Verif Require Import Base BaseLemmas Species Reactions SortLemmas ChemDisable Classification ClassSpec ClassProofs.

(** ** Electron coefficient *)
Definition n_e (l : list cs) : Z := Z.of_nat (List.length (filter is_e l)).

Lemma is_e_iff s : is_e s = true <-> electron s.
Proof. unfold is_e, electron. apply String.eqb_eq. Qed.

Lemma cnt_e x l m :
  ids_ok m -> incl l m -> In x m -> electron x -> cnt (cs_id x) (map cs_id l) = n_e l.
Proof.
  intros Hi Hl Hx He. unfold n_e. induction l as [|s l IH]; [reflexivity|].
  cbn [map filter]. rewrite cnt_cons. rewrite IH by (intros y Hy; apply Hl; now right).
  pose proof (Hi x s Hx (Hl s (or_introl eq_refl))) as H.
  destruct (is_e s) eqn:E.
  - apply is_e_iff in E. unfold electron in *.
    replace (cs_id x =? cs_id s) with true by (symmetry; apply Z.eqb_eq, H; congruence). cbn [List.length]. lia.
  - replace (cs_id x =? cs_id s) with false; [lia|]. symmetry. apply Z.eqb_neq. intros A. apply H in A.
    assert (is_e s = true) by (apply is_e_iff; unfold electron in *; congruence). congruence.
Qed.

Lemma n_e_0 l : (forall s, In s l -> is_e s = false) -> n_e l = 0.
Proof.
  intros H. unfold n_e. replace (filter is_e l) with (@nil cs); [reflexivity|]. symmetry. now apply filter_nil.
Qed.

Lemma el_coef_ok r : ids_ok (cr_lhs r ++ cr_rhs r) -> el_coef r = Ok (n_e (cr_rhs r) - n_e (cr_lhs r)).
Proof.
  intros Hi. unfold el_coef. destruct (find is_e _) as [s|] eqn:E.
  - apply find_some in E. destruct E as [E1 E2]. apply is_e_iff in E2.
    unfold stoich_coefs. rewrite fold_zadd, fold_zadd, zget_zeros, memZ_odedup.
    replace (memZ _ _) with true.
    + cbn [option_map]. rewrite !(cnt_e s _ (cr_lhs r ++ cr_rhs r)); auto using incl_appl, incl_appr, incl_refl.
      f_equal. lia.
    + symmetry. apply memZ_In. rewrite <- map_app. now apply in_map.
  - pose proof (find_none _ _ E) as H.
    rewrite !n_e_0; [reflexivity| |]; intros s Hs; apply H, in_or_app; auto.
Qed.

(** ** Sums *)
Lemma sum_app l m : sum (l ++ m) = sum l + sum m.
Proof. unfold sum. induction l; cbn; lia. Qed.

Lemma sum_nonneg l : (forall x, In x l -> 0 <= x) -> 0 <= sum l.
Proof.
  induction l as [|x l IH]; intros H; [cbn; lia|]. change (0 <= x + sum l).
  pose proof (H x (or_introl eq_refl)). assert (0 <= sum l) by (apply IH; intros; apply H; now right). lia.
Qed.

Lemma sum_ge l x : (forall x, In x l -> 0 <= x) -> In x l -> x <= sum l.
Proof.
  induction l as [|y l IH]; [easy|]. change (sum (y :: l)) with (y + sum l).
  intros H []; pose proof (H y (or_introl eq_refl)).
  - subst. assert (0 <= sum l) by (apply sum_nonneg; intros; apply H; now right). lia.
  - assert (x <= sum l) by (apply IH; [intros; apply H; now right|assumption]). lia.
Qed.

Lemma atoms_nonneg X s : sane s -> 0 <= atoms_of X s.
Proof.
  intros (_ & _ & _ & _ & H). unfold atoms_of. destruct (sget X _) as [n|] eqn:E; [|lia].
  apply (aget_In String.eqb Seqb_spec) in E. apply H in E. lia.
Qed.

Lemma sane_dec s : sane s -> (cs_name s = "M" /\ cs_charge s = None /\ cs_atoms s = [("M", 1)]) \/
  (cs_name s = "e" /\ cs_charge s = Some (-1) /\ cs_atoms s = []) \/
  (cs_name s <> "M" /\ cs_name s <> "e" /\ (exists q, cs_charge s = Some q) /\
   (exists X n, In (X, n) (cs_atoms s) /\ X <> "M" /\ 0 < n /\ sget X (cs_atoms s) = Some n)).
Proof.
  intros (H1 & H2 & H3 & H4 & H5).
  destruct (string_dec (cs_name s) "M") as [E|E]; [left; auto|].
  destruct (string_dec (cs_name s) "e") as [E2|E2]; [right; left; auto|].
  right; right. destruct (H3 E E2) as (A & B & C). split; [exact E|]. split; [exact E2|].
  split; [destruct (cs_charge s); [eauto|easy]|].
  destruct (cs_atoms s) as [|[X n] l] eqn:Ea; [easy|]. exists X, n.
  split; [now left|]. split; [|split].
  - intros ->. apply C. now left.
  - apply (H5 X n). now left.
  - cbn. now rewrite String.eqb_refl.
Qed.

(** If the reactants consist of an electron and M, so do the products. *)
Lemma electron_M r a b :
  proper r -> (cr_lhs r = [a; b] \/ cr_lhs r = [b; a]) -> cs_name a = "e" -> cs_name b = "M" ->
  n_e (cr_rhs r) = 1.
Proof.
  intros (_ & _ & Hs & Hi & Hq & Ha) Hl Ea Eb.
  assert (forall s, In s (cr_rhs r) -> sane s) as Hr by (intros; apply Hs, in_or_app; auto).
  assert (sane a /\ sane b) as [Sa Sb].
  { split; apply Hs, in_or_app; left; destruct Hl as [-> | ->]; cbn; auto. }
  destruct Sa as (_ & Sa & _). destruct (Sa Ea) as [Qa Aa].
  destruct Sb as (Sb & _). destruct (Sb Eb) as [Qb Ab]. clear Sa Sb.
  assert (sum (map charge_of (cr_lhs r)) = -1) as Q.
  { unfold charge_of. destruct Hl as [-> | ->]; cbn; rewrite Qa, Qb; reflexivity. }
  assert (forall X, X <> "M" -> sum (map (atoms_of X) (cr_lhs r)) = 0) as AX.
  { intros X HX. unfold atoms_of. destruct Hl as [-> | ->]; cbn [map sum fold_right]; rewrite Aa, Ab; cbn;
    destruct (String.eqb X "M") eqn:E; try (apply String.eqb_eq in E; easy); reflexivity. }
  assert (forall s, In s (cr_rhs r) -> is_e s = true \/ cs_name s = "M") as K.
  { intros s Hin. destruct (sane_dec s (Hr s Hin)) as [H|[H|(H1 & H2 & _ & X & n & _ & HX & Hn & Hg)]].
    - right. tauto.
    - left. apply is_e_iff. unfold electron. tauto.
    - exfalso. pose proof (AX X HX) as Z0. rewrite Ha in Z0.
      assert (atoms_of X s <= sum (map (atoms_of X) (cr_rhs r))).
      { apply sum_ge; [|now apply in_map]. intros x Hx. apply in_map_iff in Hx as (t & <- & Ht).
        apply atoms_nonneg, Hr, Ht. }
      unfold atoms_of in H at 1. rewrite Hg in H. lia. }
  assert (sum (map charge_of (cr_rhs r)) = - n_e (cr_rhs r)) as S.
  { clear - K Hr. unfold n_e. induction (cr_rhs r) as [|s l IH]; [reflexivity|].
    cbn [map sum fold_right filter]. fold (sum (map charge_of l)).
    rewrite IH; [|intros t Ht; apply Hr; now right|intros t Ht; apply K; now right].
    destruct (Hr s (or_introl eq_refl)) as (S1 & S2 & _).
    unfold charge_of. destruct (K s (or_introl eq_refl)) as [E|E].
    - rewrite E. apply is_e_iff in E. destruct (S2 E) as [-> _]. cbn [List.length]. lia.
    - destruct (S1 E) as [-> _]. replace (is_e s) with false; [lia|]. unfold is_e. now rewrite E. }
  rewrite Q in Hq. rewrite S in Hq. lia.
Qed.

(** ** Electron processes *)
Lemma heavy_In s l : In s (heavy l) <-> In s l /\ ~ electron s.
Proof.
  unfold heavy. rewrite filter_In, negb_true_iff. rewrite <- is_e_iff.
  destruct (is_e s); intuition congruence.
Qed.

Lemma heavy_nil l : heavy l = [] <-> forall s, In s l -> electron s.
Proof.
  split; intros H.
  - intros s Hs. apply is_e_iff. destruct (is_e s) eqn:E; [reflexivity|].
    assert (In s (heavy l)) as Hh by (apply filter_In; now rewrite E). now rewrite H in Hh.
  - destruct (heavy l) as [|s m] eqn:E; [reflexivity|]. exfalso.
    assert (In s (heavy l)) as Hh by (rewrite E; now left). apply heavy_In in Hh. destruct Hh. auto.
Qed.

Lemma n_e_heavy l : n_e l = Z.of_nat (List.length l) - Z.of_nat (List.length (heavy l)).
Proof.
  unfold n_e, heavy. induction l as [|s l IH]; [reflexivity|]. cbn [filter]. destruct (is_e s); cbn [negb List.length]; lia.
Qed.

Lemma charge_num_ok s : sane s -> cs_name s <> "M" -> exists q, charge_num s = Ok q.
Proof.
  intros Hs Hm. unfold charge_num. destruct (sane_dec s Hs) as [H|[(A & -> & _)|(A & B & (q & ->) & _)]]; [tauto|eauto|eauto].
Qed.

Lemma classify_electron_total r el c l :
  proper r -> existsb is_e (cr_lhs r) = true -> el_coef r = Ok el -> heavy (cr_lhs r) = c :: l ->
  exists x, classify_electron r el = Ok x.
Proof.
  intros Hp He Hel Hh. pose proof Hp as (Hlen & _ & Hs & Hi & _).
  rewrite (el_coef_ok r Hi) in Hel. injection Hel as <-.
  unfold classify_electron. cbv zeta. rewrite Hh.
  destruct (Nat.ltb _ 2) eqn:E2; [eauto|]. destruct (Nat.ltb 3 _) eqn:E3; [eauto|].
  destruct (Nat.eqb _ 3) eqn:E4; [eauto|].
  apply Nat.ltb_ge in E2, E3. apply Nat.eqb_neq in E4.
  assert (In c (cr_lhs r) /\ ~ electron c) as [Hc1 Hc2] by (apply heavy_In; rewrite Hh; now left).
  assert (sane c) as Sc by (apply Hs, in_or_app; auto).
  (* two reactants: one electron and c *)
  destruct (string_dec (cs_name c) "M") as [EM|EM].
  - assert (exists a, (cr_lhs r = [a; c] \/ cr_lhs r = [c; a]) /\ cs_name a = "e") as (a & Hac & Ea).
    { apply existsb_exists in He as (x & Hx & Ex). apply is_e_iff in Ex.
      destruct (cr_lhs r) as [|u [|v [|w m]]]; cbn in E2, E3, E4; try lia.
      assert (x <> c) by (intros ->; auto).
      destruct Hx as [->|[->|[]]], Hc1 as [->|[->|[]]]; try easy; exists x; auto. }
    pose proof (electron_M r a c Hp Hac Ea EM) as N.
    assert (n_e (cr_lhs r) = 1) as N2.
    { unfold n_e. assert (is_e a = true) as X1 by (now apply is_e_iff).
      assert (is_e c = false) as X2 by (unfold is_e; now rewrite EM).
      destruct Hac as [-> | ->]; cbn; rewrite X1, X2; reflexivity. }
    rewrite N, N2. cbn [Z.sub Z.gtb Z.eqb Z.compare Z.add Z.opp Z.pos_sub].
    change (1 - 1 >? 0) with false. change (1 - 1 =? 0) with true. cbv iota.
    destruct (cr_elastic r); [eauto|].
    destruct (Nat.eqb _ _) eqn:E; [|destruct (Nat.ltb _ _); eauto].
    destruct (heavy (cr_rhs r)); [discriminate E|eauto].
  - destruct (charge_num_ok c Sc EM) as [q Hq]. rewrite Hq. cbn [bind].
    repeat match goal with |- context[if ?b then _ else _] => destruct b eqn:? end; eauto;
    destruct (heavy (cr_rhs r)); eauto; discriminate.
Qed.

(** ** Heavy particle collisions *)
Lemma q0_charge s : q0 s = charge_of s.
Proof. reflexivity. Qed.

Lemma neutral_q0 s : neutral s <-> q0 s = 0.
Proof.
  unfold neutral, q0. destruct (cs_charge s) as [q|]; split; intros H; auto.
  - destruct H as [H|H]; [discriminate|now injection H].
  - subst. auto.
Qed.
Lemma positive_q0 s : positive s <-> 0 < q0 s.
Proof.
  unfold positive, q0. destruct (cs_charge s) as [q|]; split; intros H; try lia.
  - destruct H as (z & E & H). now injection E as ->.
  - eauto.
  - destruct H as (z & E & H). discriminate.
Qed.
Lemma negative_q0 s : negative s <-> q0 s < 0.
Proof.
  unfold negative, q0. destruct (cs_charge s) as [q|]; split; intros H; try lia.
  - destruct H as (z & E & H). now injection E as ->.
  - eauto.
  - destruct H as (z & E & H). discriminate.
Qed.

Lemma first_where_ok p l : (exists s, In s l /\ p (q0 s) = true) <-> exists s, first_where p l = Ok s.
Proof.
  unfold first_where. split.
  - intros (s & Hs & Hp). destruct (find _ l) eqn:E; [eauto|].
    apply find_none with (x := s) in E; [congruence|exact Hs].
  - intros (s & H). destruct (find _ l) as [x|] eqn:E; [|discriminate].
    apply find_some in E. eauto.
Qed.

Lemma first_where_err p l e : first_where p l = Err e -> e = EIndex /\ forall s, In s l -> p (q0 s) = false.
Proof.
  unfold first_where. destruct (find _ l) eqn:E; [discriminate|]. intros H. injection H as <-.
  split; [reflexivity|]. intros s Hs. now apply find_none with (x := s) in E.
Qed.

Lemma sum_pos_ex l : 0 < sum (map charge_of l) -> exists s, In s l /\ 0 < q0 s.
Proof.
  induction l as [|s l IH]; [cbn; lia|]. cbn [map]. change (sum (charge_of s :: map charge_of l)) with (charge_of s + sum (map charge_of l)).
  intros H. destruct (Z_lt_dec 0 (charge_of s)).
  - exists s. split; [now left|assumption].
  - destruct IH as (t & A & B); [lia|]. exists t. split; [now right|exact B].
Qed.
Lemma sum_neg_ex l : sum (map charge_of l) < 0 -> exists s, In s l /\ q0 s < 0.
Proof.
  induction l as [|s l IH]; [cbn; lia|]. cbn [map]. change (sum (charge_of s :: map charge_of l)) with (charge_of s + sum (map charge_of l)).
  intros H. destruct (Z_lt_dec (charge_of s) 0).
  - exists s. split; [now left|assumption].
  - destruct IH as (t & A & B); [lia|]. exists t. split; [now right|exact B].
Qed.

Lemma charge_transfer_ok sg p un r a b :
  (exists s, In s (cr_rhs r) /\ p (q0 s) = true) ->
  (exists s, In s (cr_rhs r) /\ neutral s) ->
  exists x, charge_transfer sg p un r a b = Ok x.
Proof.
  intros H1 (s & Hs & Hn). unfold charge_transfer.
  apply first_where_ok in H1 as (x & ->). cbn [bind].
  assert (exists y, first_where (Z.eqb 0) (cr_rhs r) = Ok y) as (y & ->).
  { apply first_where_ok. exists s. split; [exact Hs|]. apply neutral_q0 in Hn. now rewrite Hn. }
  cbn [bind]. eauto.
Qed.

Lemma charge_transfer_err sg p un r a b :
  (forall s, In s (cr_rhs r) -> ~ neutral s) -> charge_transfer sg p un r a b = Err EIndex.
Proof.
  intros H. unfold charge_transfer. destruct (first_where p _) eqn:E1; cbn [bind].
  2: { apply first_where_err in E1 as [-> _]. reflexivity. }
  destruct (first_where (Z.eqb 0) (cr_rhs r)) as [y|e] eqn:E2; cbn [bind].
  - assert (exists y, first_where (Z.eqb 0) (cr_rhs r) = Ok y) as A by (exists y; exact E2).
    apply first_where_ok in A as (x & E3 & E4). exfalso. apply (H x E3), neutral_q0. apply Z.eqb_eq in E4. lia.
  - apply first_where_err in E2 as [-> _]. reflexivity.
Qed.

Lemma two_products_dec r :
  List.length (cr_rhs r) = 2%nat ->
  (exists s, In s (cr_rhs r) /\ neutral s) \/ two_charged_products r.
Proof.
  unfold two_charged_products. destruct (cr_rhs r) as [|a [|b [|c l]]]; cbn; try discriminate. intros _.
  destruct (Z.eq_dec (q0 a) 0) as [Ha|Ha]; [left; exists a; split; [auto|now apply neutral_q0]|].
  destruct (Z.eq_dec (q0 b) 0) as [Hb|Hb]; [left; exists b; split; [auto|now apply neutral_q0]|].
  right. exists a, b. rewrite !neutral_q0. auto.
Qed.

Ltac zb := rewrite ?andb_true_iff, ?orb_true_iff, ?Z.eqb_eq, ?Z.gtb_lt, ?Z.ltb_lt,
  ?andb_false_iff, ?orb_false_iff, ?Z.eqb_neq, ?Z.gtb_ltb, ?Z.ltb_ge in *.

(** What the two-reactant branch does, by the charges of the reactants. *)
Lemma classify_two r a b :
  proper r -> cr_lhs r = [a; b] -> existsb is_e (cr_lhs r) = false ->
  let el := n_e (cr_rhs r) in
  (q0 a = 0 /\ q0 b = 0 /\ classify r = Ok (t_nn, classify_neutral r el)) \/
  (0 <= q0 a /\ 0 <= q0 b /\ q0 a + q0 b <> 0 /\ classify r = let* c := classify_positive r in Ok (t_pn, c)) \/
  (q0 a <= 0 /\ q0 b <= 0 /\ q0 a + q0 b <> 0 /\ classify r = let* c := classify_negative r el in Ok (t_an, c)) \/
  (q0 a * q0 b < 0 /\
   classify r = Ok (if forallb (fun s => 0 =? q0 s) (cr_rhs r)
                    then (t_ii, if Nat.eqb 2 (List.length (cr_rhs r)) then "neutralization"
                           else if Nat.ltb 2 (List.length (cr_rhs r)) then "dissociative neutralization"
                           else "unclassified ion - ion collisions")
                    else (t_un, "None"))).
Proof.
  intros (_ & _ & _ & Hi & _) Hl He el.
  unfold classify. rewrite (el_coef_ok r Hi). cbn [bind]. rewrite He. cbv zeta.
  assert (n_e (cr_lhs r) = 0) as N.
  { apply n_e_0. now apply existsb_false. }
  rewrite N, Z.sub_0_r. fold el.
  replace (List.length (cr_lhs r)) with 2%nat by now rewrite Hl.
  cbn [Nat.eqb].
  assert (forall p, forallb (fun s => p (q0 s)) (cr_lhs r) = p (q0 a) && p (q0 b)) as F.
  { intros p. rewrite Hl. cbn. now rewrite andb_true_r. }
  rewrite (F (fun q => (q >? 0) || (q =? 0))), (F (fun q => (q <? 0) || (q =? 0))),
    (F (fun q => (q <? 0) || (q >? 0))), (F (Z.eqb 0)).
  set (N0 := forallb _ (cr_rhs r)).
  destruct (q0 a) as [|x|x], (q0 b) as [|y|y]; cbn [Z.eqb Z.gtb Z.ltb Z.compare andb orb].
  - left. auto.
  - right; left. repeat split; try lia.
  - right; right; left. repeat split; try lia.
  - right; left. repeat split; try lia.
  - right; left. repeat split; try lia.
  - right; right; right. split; [lia|]. now destruct N0.
  - right; right; left. repeat split; try lia.
  - right; right; right. split; [lia|]. now destruct N0.
  - right; right; left. repeat split; try lia.
Qed.

Lemma like_charges_err p r a b :
  cr_lhs r = [a; b] -> q0 a <> 0 -> q0 b <> 0 ->
  (exists s, first_where p (cr_lhs r) = Ok s) -> first_where (Z.eqb 0) (cr_lhs r) = Err EIndex.
Proof.
  intros Hl Ha Hb _. destruct (first_where (Z.eqb 0) (cr_lhs r)) as [y|e] eqn:E.
  - assert (exists y, first_where (Z.eqb 0) (cr_lhs r) = Ok y) as A by (exists y; exact E).
    apply first_where_ok in A as (x & E3 & E4). rewrite Hl in E3. apply Z.eqb_eq in E4.
    destruct E3 as [<-|[<-|[]]]; congruence.
  - now apply first_where_err in E as [-> _].
Qed.

Lemma balance_two r a b :
  proper r -> cr_lhs r = [a; b] -> sum (map charge_of (cr_rhs r)) = q0 a + q0 b.
Proof.
  intros (_ & _ & _ & _ & H & _) Hl. rewrite <- H, Hl. cbn. unfold q0, charge_of. lia.
Qed.

Lemma first_where_in p l : (exists s, In s l /\ p (q0 s) = true) -> exists s, first_where p l = Ok s.
Proof. apply first_where_ok. Qed.

Lemma n_e_nonneg l : 0 <= n_e l.
Proof. unfold n_e. lia. Qed.

Lemma n_e_pos l : 0 < n_e l <-> exists s, In s l /\ electron s.
Proof.
  unfold n_e. split.
  - intros H. destruct (filter is_e l) as [|s m] eqn:E; [cbn in H; lia|].
    assert (In s (filter is_e l)) as Hs by (rewrite E; now left). apply filter_In in Hs. destruct Hs as [A B].
    exists s. split; [exact A|now apply is_e_iff].
  - intros (s & Hs & He). assert (In s (filter is_e l)) as H by (apply filter_In; split; [exact Hs|now apply is_e_iff]).
    destruct (filter is_e l); [easy|cbn [List.length]; lia].
Qed.

(** Positive ion branch. *)
Lemma positive_branch r a b :
  proper r -> cr_lhs r = [a; b] -> 0 <= q0 a -> 0 <= q0 b -> q0 a + q0 b <> 0 ->
  (exists x, classify_positive r = Ok x /\ ((0 < q0 a /\ q0 b = 0) \/ (0 < q0 b /\ q0 a = 0)) /\ ~ two_charged_products r) \/
  (classify_positive r = Err EIndex /\
   ((0 < q0 a /\ 0 < q0 b) \/ (((0 < q0 a /\ q0 b = 0) \/ (0 < q0 b /\ q0 a = 0)) /\ two_charged_products r))).
Proof.
  intros Hp Hl Ha Hb Hn. unfold classify_positive. cbv zeta.
  assert (exists s, first_where (fun q => q >? 0) (cr_lhs r) = Ok s) as (i & Hi).
  { apply first_where_in. rewrite Hl. destruct (Z_lt_dec 0 (q0 a)).
    - exists a. split; [now left|]. apply Z.gtb_lt. lia.
    - exists b. split; [right; now left|]. apply Z.gtb_lt. lia. }
  rewrite Hi. cbn [bind].
  destruct (Z.eq_dec (q0 a) 0) as [Ea|Ea], (Z.eq_dec (q0 b) 0) as [Eb|Eb]; try lia.
  3: { right. rewrite (like_charges_err (fun q => q >? 0) r a b Hl Ea Eb) by eauto. cbn [bind]. split; [reflexivity|]. lia. }
  all: assert (exists s, first_where (Z.eqb 0) (cr_lhs r) = Ok s) as (j & Hj)
    by (apply first_where_in; rewrite Hl; first [exists a; split; [now left|now rewrite Ea]|exists b; split; [right; now left|now rewrite Eb]]);
    rewrite Hj; cbn [bind];
    assert ((0 < q0 a /\ q0 b = 0) \/ (0 < q0 b /\ q0 a = 0)) as S by lia;
    (destruct (Nat.eqb (List.length (cr_rhs r)) (List.length (cr_lhs r))) eqn:E;
     [|left; assert (~ two_charged_products r) as T by
        (intros (u & v & H & _); rewrite H, Hl in E; discriminate E);
       destruct (Nat.ltb _ _); eauto]);
    apply Nat.eqb_eq in E; rewrite Hl in E;
    (destruct (two_products_dec r E) as [D|D];
     [left|right; split; [apply charge_transfer_err; destruct D as (u & v & -> & Hu & Hv); intros s [<-|[<-|[]]]; assumption|auto]]);
    assert (~ two_charged_products r) as T by
      (intros (u & v & H & Hu & Hv); destruct D as (s & Hs & Hns); rewrite H in Hs; destruct Hs as [<-|[<-|[]]]; auto);
    (destruct (charge_transfer_ok "+" (fun q => q >? 0) "unclassified positive ion - neutral collisions" r i j) as (x & Hx);
     [|exact D|exists x; auto]);
    destruct (sum_pos_ex (cr_rhs r)) as (s & Hs & Hq);
     [rewrite (balance_two r a b Hp Hl); lia|exists s; split; [exact Hs|apply Z.gtb_lt; lia]].
Qed.

Lemma negative_branch r a b :
  proper r -> cr_lhs r = [a; b] -> q0 a <= 0 -> q0 b <= 0 -> q0 a + q0 b <> 0 ->
  (exists x, classify_negative r (n_e (cr_rhs r)) = Ok x /\ ((q0 a < 0 /\ q0 b = 0) \/ (q0 b < 0 /\ q0 a = 0)) /\
     ~ (two_charged_products r /\ n_e (cr_rhs r) = 0)) \/
  (classify_negative r (n_e (cr_rhs r)) = Err EIndex /\
   ((q0 a < 0 /\ q0 b < 0) \/
    (((q0 a < 0 /\ q0 b = 0) \/ (q0 b < 0 /\ q0 a = 0)) /\ two_charged_products r /\ n_e (cr_rhs r) = 0))).
Proof.
  intros Hp Hl Ha Hb Hn. unfold classify_negative. cbv zeta.
  assert (exists s, first_where (fun q => q <? 0) (cr_lhs r) = Ok s) as (i & Hi).
  { apply first_where_in. rewrite Hl. destruct (Z_lt_dec (q0 a) 0).
    - exists a. split; [now left|]. apply Z.ltb_lt. lia.
    - exists b. split; [right; now left|]. apply Z.ltb_lt. lia. }
  rewrite Hi. cbn [bind].
  destruct (Z.eq_dec (q0 a) 0) as [Ea|Ea], (Z.eq_dec (q0 b) 0) as [Eb|Eb]; try lia.
  3: { right. rewrite (like_charges_err (fun q => q <? 0) r a b Hl Ea Eb) by eauto. cbn [bind]. split; [reflexivity|]. lia. }
  all: assert (exists s, first_where (Z.eqb 0) (cr_lhs r) = Ok s) as (j & Hj)
    by (apply first_where_in; rewrite Hl; first [exists a; split; [now left|now rewrite Ea]|exists b; split; [right; now left|now rewrite Eb]]);
    rewrite Hj; cbn [bind];
    assert ((q0 a < 0 /\ q0 b = 0) \/ (q0 b < 0 /\ q0 a = 0)) as S by lia;
    pose proof (n_e_nonneg (cr_rhs r)) as Nn;
    (destruct (n_e (cr_rhs r) >? 0) eqn:Ne;
     [left; apply Z.gtb_lt in Ne; eexists; split; [reflexivity|]; split; [exact S|intros []; lia]|]);
    (assert (n_e (cr_rhs r) = 0) as Nz by (rewrite Z.gtb_ltb in Ne; apply Z.ltb_ge in Ne; lia));
    (destruct (Z.of_nat (List.length (cr_rhs r)) =? Z.of_nat (List.length (cr_lhs r))) eqn:E;
     [|left; assert (~ two_charged_products r) as T by
        (intros (u & v & H & _); rewrite H, Hl in E; discriminate E);
       eexists; split; [reflexivity|]; tauto]);
    apply Z.eqb_eq, Nat2Z.inj in E; rewrite Hl in E;
    (destruct (two_products_dec r E) as [D|D];
     [left|right; split; [apply charge_transfer_err; destruct D as (u & v & -> & Hu & Hv); intros s [<-|[<-|[]]]; assumption|auto]]);
    assert (~ two_charged_products r) as T by
      (intros (u & v & H & Hu & Hv); destruct D as (s & Hs & Hns); rewrite H in Hs; destruct Hs as [<-|[<-|[]]]; auto);
    (destruct (charge_transfer_ok "-" (fun q => q <? 0) "unclassified negative ion - neutral collisions" r i j) as (x & Hx);
     [|exact D|exists x; tauto]);
    destruct (sum_neg_ex (cr_rhs r)) as (s & Hs & Hq);
     [rewrite (balance_two r a b Hp Hl); lia|exists s; split; [exact Hs|apply Z.ltb_lt; lia]].
Qed.

Lemma not_e_lhs r : existsb is_e (cr_lhs r) = false -> forall s, In s (cr_lhs r) -> ~ electron s.
Proof.
  intros H s Hs He. apply is_e_iff in He. rewrite existsb_false in H. rewrite (H s Hs) in He. discriminate.
Qed.

Lemma two_lists {A} (a b c d : A) : [a; b] = [c; d] -> a = c /\ b = d.
Proof. intros H. injection H as -> ->. auto. Qed.

(** C26: the exact set of consistent reactions on which the classifier raises. *)
Lemma classify_raises_iff r :
  proper r ->
  (unsupported r -> classify r = Err EIndex) /\
  (~ unsupported r -> exists tc, classify r = Ok tc).
Proof.
  intros Hp. pose proof Hp as (Hlen & _ & Hs & Hi & _).
  destruct (existsb is_e (cr_lhs r)) eqn:He.
  - (* electron process *)
    assert (exists s, In s (cr_lhs r) /\ electron s) as Hel.
    { apply existsb_exists in He as (x & A & B). exists x. split; [exact A|now apply is_e_iff]. }
    assert (unsupported r <-> electrons_only r) as U.
    { split; [|now left]. intros [H|[(a & b & H & Ha & Hb & _)|[[(a & b & H & Ha & Hb & _) _]|[(a & b & H & Ha & Hb & _) _]]]];
      [exact H| | |]; destruct Hel as (s & Hin & Hse); rewrite H in Hin; destruct Hin as [<-|[<-|[]]]; contradiction. }
    rewrite U. unfold classify. rewrite (el_coef_ok r Hi). cbn [bind]. cbv zeta. rewrite He.
    destruct (heavy (cr_lhs r)) as [|c l] eqn:Hh.
    + split; [|intros H; exfalso; apply H; exact (proj1 (heavy_nil _) Hh)]. intros _.
      unfold classify_electron. cbv zeta. now rewrite Hh.
    + split.
      * intros H. apply heavy_nil in H. congruence.
      * intros _. destruct (classify_electron_total r _ c l Hp He (el_coef_ok r Hi) Hh) as (x & ->).
        cbn [bind]. eauto.
  - assert (~ electrons_only r) as Ne.
    { intros H. destruct (cr_lhs r) as [|s l] eqn:El; [cbn in Hlen; lia|].
      apply (not_e_lhs r) with (s := s); [now rewrite El|rewrite El; now left|apply H; rewrite El; now left]. }
    destruct (Nat.eq_dec (List.length (cr_lhs r)) 2) as [L2|L2].
    2: { assert (~ unsupported r) as U.
      { intros [H|[(a & b & H & _)|[[(a & b & H & _) _]|[(a & b & H & _) _]]]]; [auto| | |]; rewrite H in L2; now apply L2. }
      split; [contradiction|]. intros _. unfold classify. rewrite (el_coef_ok r Hi). cbn [bind]. cbv zeta. rewrite He.
      assert (List.length (cr_lhs r) = 1 \/ List.length (cr_lhs r) = 3)%nat as [-> | ->] by lia; cbn [Nat.eqb]; eauto. }
    destruct (cr_lhs r) as [|a [|b [|c l]]] eqn:Hl; cbn in L2; try lia. clear L2.
    assert (~ electron a /\ ~ electron b) as [Ea Eb].
    { rewrite <- Hl in He. split; apply (not_e_lhs r He); rewrite Hl; cbn; auto. }
    assert (existsb is_e (cr_lhs r) = false) as He' by now rewrite Hl.
    assert (forall P : cs -> Prop, ion_neutral P r <-> ((P a /\ neutral b) \/ (P b /\ neutral a))) as IN.
    { intros P. split.
      - intros (x & y & H & _ & _ & D). rewrite Hl in H. apply two_lists in H as [-> ->]. exact D.
      - intros D. exists a, b. auto. }
    assert (like_charges r <-> ((positive a /\ positive b) \/ (negative a /\ negative b))) as LC.
    { split.
      - intros (x & y & H & _ & _ & D). rewrite Hl in H. apply two_lists in H as [-> ->]. exact D.
      - intros D. exists a, b. auto. }
    assert (n_e (cr_rhs r) = 0 <-> forall s, In s (cr_rhs r) -> ~ electron s) as NE.
    { split.
      - intros H s Hin Hse. assert (0 < n_e (cr_rhs r)) by (apply n_e_pos; eauto). lia.
      - intros H. apply n_e_0. intros s Hin. destruct (is_e s) eqn:X; [|reflexivity].
        apply is_e_iff in X. exfalso. now apply (H s). }
    unfold unsupported. rewrite !IN, LC, <- NE, !positive_q0, !negative_q0, !neutral_q0.
    destruct (classify_two r a b Hp Hl He') as [(A & B & ->)|[(A & B & C & ->)|[(A & B & C & ->)|(A & ->)]]].
    + split; [|eauto]. intros [H|[H|[H|H]]]; [contradiction|lia..].
    + destruct (positive_branch r a b Hp Hl A B C) as [(x & -> & S & T)|(-> & S)]; cbn [bind].
      * split; [|eauto]. intros [H|[H|[H|H]]]; [contradiction|lia|tauto|lia].
      * split; [reflexivity|]. intros H. exfalso. apply H. destruct S as [S|S]; [right; left; lia|right; right; left; tauto].
    + destruct (negative_branch r a b Hp Hl A B C) as [(x & -> & S & T)|(-> & S)]; cbn [bind].
      * split; [|eauto]. intros [H|[H|[H|H]]]; [contradiction|lia|lia|tauto].
      * split; [reflexivity|]. intros H. exfalso. apply H. destruct S as [S|S]; [right; left; lia|right; right; right; tauto].
    + split; [|eauto]. intros [H|[H|[H|H]]]; [contradiction| | |]; apply Z.lt_mul_0 in A; lia.
Qed.

(** ** Types *)
Lemma opposite x y : x * y < 0 -> (0 < x /\ y < 0) \/ (x < 0 /\ 0 < y).
Proof. destruct x, y; cbn; lia. Qed.

Ltac types_neq := unfold t_el, t_nn, t_pn, t_an, t_ii, t_3b, t_rd, t_un in *; discriminate.

Lemma classify_type r t c : proper r -> classify r = Ok (t, c) -> type_spec r t.
Proof.
  intros Hp Hc. pose proof Hp as (Hlen & _ & Hs & Hi & _).
  unfold type_spec. cbv zeta.
  set (el := exists s, In s (cr_lhs r) /\ electron s).
  fold t_el t_3b t_rd t_nn t_pn t_an t_ii t_un.
  destruct (existsb is_e (cr_lhs r)) eqn:He.
  - assert (el) as Hel.
    { apply existsb_exists in He as (x & A & B). exists x. split; [exact A|now apply is_e_iff]. }
    assert (t = t_el) as ->.
    { unfold classify in Hc. rewrite (el_coef_ok r Hi) in Hc. cbn [bind] in Hc. cbv zeta in Hc. rewrite He in Hc.
      destruct (classify_electron _ _); cbn [bind] in Hc; [|discriminate]. now injection Hc as <- _. }
    split; [tauto|].
    repeat (split; [split; [intros X; types_neq|intros X; tauto]|]).
    split; [intros X; types_neq|intros X; tauto].
  - assert (~ el) as Nel.
    { intros (s & A & B). now apply (not_e_lhs r He s). }
    destruct (Nat.eq_dec (List.length (cr_lhs r)) 2) as [L2|L2].
    2: { assert (forall p q : cs -> Prop, ~ (exists a b, cr_lhs r = [a; b] /\ ((p a /\ q b) \/ (q a /\ p b)))) as N2.
      { intros p q (a & b & H & _). rewrite H in L2. now apply L2. }
      unfold classify in Hc. rewrite (el_coef_ok r Hi) in Hc. cbn [bind] in Hc. cbv zeta in Hc. rewrite He in Hc.
      assert (List.length (cr_lhs r) = 1 \/ List.length (cr_lhs r) = 3)%nat as [L|L] by lia; rewrite L in *; cbn [Nat.eqb] in Hc.
      - injection Hc as Hc _. 
        destruct (Nat.eqb (List.length (cr_rhs r)) 1) eqn:E.
        + apply Nat.eqb_eq in E. subst t. rewrite E.
          split; [split; [intros X; types_neq|tauto]|].
          split; [split; [intros X; types_neq|intros [_ X]; discriminate]|].
          split; [tauto|].
          split; [split; [intros X; types_neq|intros [_ X]; now apply N2 in X]|].
          split; [split; [intros X; types_neq|intros [_ X]; now apply N2 in X]|].
          split; [split; [intros X; types_neq|intros [_ X]; now apply N2 in X]|].
          split; [split; [intros X; types_neq|intros [_ [X _]]; now apply N2 in X]|].
          split; [intros X; types_neq|intros [_ [[_ X]|[X _]]]; [congruence|now apply N2 in X]].
        + apply Nat.eqb_neq in E. subst t.
          split; [split; [intros X; types_neq|tauto]|].
          split; [split; [intros X; types_neq|intros [_ X]; discriminate]|].
          split; [split; [intros X; types_neq|intros [_ [_ X]]; congruence]|].
          split; [split; [intros X; types_neq|intros [_ X]; now apply N2 in X]|].
          split; [split; [intros X; types_neq|intros [_ X]; now apply N2 in X]|].
          split; [split; [intros X; types_neq|intros [_ X]; now apply N2 in X]|].
          split; [split; [intros X; types_neq|intros [_ [X _]]; now apply N2 in X]|].
          split; [intros X; tauto|reflexivity].
      - injection Hc as <- _.
        split; [split; [intros X; types_neq|tauto]|].
        split; [tauto|].
        split; [split; [intros X; types_neq|intros [_ [X _]]; discriminate]|].
        split; [split; [intros X; types_neq|intros [_ X]; now apply N2 in X]|].
        split; [split; [intros X; types_neq|intros [_ X]; now apply N2 in X]|].
        split; [split; [intros X; types_neq|intros [_ X]; now apply N2 in X]|].
        split; [split; [intros X; types_neq|intros [_ [X _]]; now apply N2 in X]|].
        split; [intros X; types_neq|intros [_ [[X _]|[X _]]]; [discriminate|now apply N2 in X]]. }
    destruct (cr_lhs r) as [|a [|b [|c0 l]]] eqn:Hl; cbn in L2; try lia. clear L2.
    assert (existsb is_e (cr_lhs r) = false) as He' by now rewrite Hl.
    assert (forall p q : cs -> Prop, (exists x y, [a; b] = [x; y] /\ ((p x /\ q y) \/ (q x /\ p y))) <->
              ((p a /\ q b) \/ (q a /\ p b))) as TW.
    { intros p q. split.
      - intros (x & y & H & D). apply two_lists in H as [-> ->]. exact D.
      - intros D. exists a, b. auto. }
    rewrite !TW, !positive_q0, !negative_q0, !neutral_q0.
    change (List.length [a; b]) with 2%nat.
    destruct (classify_two r a b Hp Hl He') as [(A & B & H)|[(A & B & C & H)|[(A & B & C & H)|(A & H)]]];
      rewrite H in Hc; clear H.
    + injection Hc as <- _.
      split; [split; [intros X; types_neq|tauto]|].
      split; [split; [intros X; types_neq|intros [_ X]; discriminate]|].
      split; [split; [intros X; types_neq|intros [_ [X _]]; discriminate]|].
      split; [split; [intros _; split; [exact Nel|lia]|reflexivity]|].
      split; [split; [intros X; types_neq|intros [_ X]; lia]|].
      split; [split; [intros X; types_neq|intros [_ X]; lia]|].
      split; [split; [intros X; types_neq|intros [_ [X _]]; lia]|].
      split; [intros X; types_neq|intros [_ [[X _]|[X _]]]; [discriminate|lia]].
    + destruct (positive_branch r a b Hp Hl A B C) as [(x & H & S & T)|(H & S)]; rewrite H in Hc; cbn [bind] in Hc; [|discriminate].
      injection Hc as <- _.
      split; [split; [intros X; types_neq|tauto]|].
      split; [split; [intros X; types_neq|intros [_ X]; discriminate]|].
      split; [split; [intros X; types_neq|intros [_ [X _]]; discriminate]|].
      split; [split; [intros X; types_neq|intros [_ X]; lia]|].
      split; [split; [intros _; split; [exact Nel|lia]|reflexivity]|].
      split; [split; [intros X; types_neq|intros [_ X]; lia]|].
      split; [split; [intros X; types_neq|intros [_ [X _]]; lia]|].
      split; [intros X; types_neq|intros [_ [[X _]|[X _]]]; [discriminate|lia]].
    + destruct (negative_branch r a b Hp Hl A B C) as [(x & H & S & T)|(H & S)]; rewrite H in Hc; cbn [bind] in Hc; [|discriminate].
      injection Hc as <- _.
      split; [split; [intros X; types_neq|tauto]|].
      split; [split; [intros X; types_neq|intros [_ X]; discriminate]|].
      split; [split; [intros X; types_neq|intros [_ [X _]]; discriminate]|].
      split; [split; [intros X; types_neq|intros [_ X]; lia]|].
      split; [split; [intros X; types_neq|intros [_ X]; lia]|].
      split; [split; [intros _; split; [exact Nel|lia]|reflexivity]|].
      split; [split; [intros X; types_neq|intros [_ [X _]]; lia]|].
      split; [intros X; types_neq|intros [_ [[X _]|[X _]]]; [discriminate|lia]].
    + assert ((0 < q0 a /\ q0 b < 0) \/ (q0 a < 0 /\ 0 < q0 b)) as S by now apply opposite.
      destruct (forallb (fun s => 0 =? q0 s) (cr_rhs r)) eqn:F; injection Hc as <- _.
      * assert (forall s, In s (cr_rhs r) -> neutral s) as AN.
        { intros s Hin. rewrite forallb_forall in F. apply F in Hin. apply Z.eqb_eq in Hin. now apply neutral_q0. }
        split; [split; [intros X; types_neq|tauto]|].
        split; [split; [intros X; types_neq|intros [_ X]; discriminate]|].
        split; [split; [intros X; types_neq|intros [_ [X _]]; discriminate]|].
        split; [split; [intros X; types_neq|intros [_ X]; lia]|].
        split; [split; [intros X; types_neq|intros [_ X]; lia]|].
        split; [split; [intros X; types_neq|intros [_ X]; lia]|].
        split; [split; [intros _; split; [exact Nel|split; [tauto|exact AN]]|reflexivity]|].
        split; [intros X; types_neq|intros [_ [[X _]|[_ (s & X & Y)]]]; [discriminate|exfalso; auto]].
      * assert (exists s, In s (cr_rhs r) /\ ~ neutral s) as EX.
        { apply not_true_iff_false in F. rewrite forallb_forall in F.
          clear - F. induction (cr_rhs r) as [|s l IH]; [exfalso; apply F; easy|].
          destruct (Z.eq_dec (q0 s) 0) as [Z0|Z0].
          - destruct IH as (x & X & Y).
            + intros H. apply F. intros x [<-|Hx]; [now rewrite Z0|auto].
            + exists x. split; [now right|exact Y].
          - exists s. split; [now left|]. now rewrite neutral_q0. }
        split; [split; [intros X; types_neq|tauto]|].
        split; [split; [intros X; types_neq|intros [_ X]; discriminate]|].
        split; [split; [intros X; types_neq|intros [_ [X _]]; discriminate]|].
        split; [split; [intros X; types_neq|intros [_ X]; lia]|].
        split; [split; [intros X; types_neq|intros [_ X]; lia]|].
        split; [split; [intros X; types_neq|intros [_ X]; lia]|].
        split; [split; [intros X; types_neq|intros [_ [_ X]]; destruct EX as (s & Y & Z); exfalso; auto]|].
        split; [intros _; split; [exact Nel|right; split; [tauto|exact EX]]|reflexivity].
Qed.
