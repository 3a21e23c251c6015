(** Sorting of species: the digit-encoded key is the documented order. *)
From Coq Require Import Sorted Permutation Lqa.
From Verif Require Import Base BaseLemmas Species Reactions SortLemmas Classification ClassSpec ClassProofs.

Lemma index_of_bound {A} (eqb : A -> A -> bool) x l i :
  index_of eqb x l = Ok i -> 0 <= i < Z.of_nat (List.length l).
Proof.
  revert i. induction l as [|y l IH]; cbn [index_of]; intros i H; [discriminate|].
  cbn [List.length]. destruct (eqb x y).
  - injection H as <-. lia.
  - destruct (index_of eqb x l) as [j|]; cbn [bind] in H; [|discriminate]. injection H as <-.
    specialize (IH j eq_refl). lia.
Qed.

Lemma element_bits_ok X c n tc sc tn sn :
  element_number X n -> element_bits tc sc tn sn (X, c) = Ok (tc - 1 - sc * c + (tn - 1 - sn * n)) /\ 1 <= n <= 99.
Proof.
  intros (i & E & ->). unfold element_bits. cbn [fst snd]. rewrite E. cbn [bind]. unfold bit. split; [reflexivity|].
  apply index_of_bound in E. change (Z.of_nat (List.length elements_order)) with 99 in E. lia.
Qed.

Inductive shape : list Z -> Z -> Prop :=
| shape0 x g p : 0 <= x <= 1 -> 0 <= g <= 9 -> 0 <= p <= 9 ->
    shape [0; x; g; p] (9 - p + (99 - 10 * g) + (999 - 100 * x) + 9999999999999)
| shape1 n1 c1 x g p : 0 <= x <= 1 -> 0 <= g <= 9 -> 0 <= p <= 9 -> 1 <= n1 <= 99 -> 1 <= c1 <= 9 ->
    shape [1; n1; c1; x; g; p]
      (9 - p + (99 - 10 * g) + (999 - 100 * x) + (9999999999 - 1000000000 * c1 + (999999999999 - 10000000000 * n1))
       + 8999999999999)
| shape2 n1 c1 n2 c2 x g p : 0 <= x <= 1 -> 0 <= g <= 9 -> 0 <= p <= 9 -> 1 <= n1 <= 99 -> 1 <= c1 <= 9 ->
    1 <= n2 <= 99 -> 1 <= c2 <= 9 ->
    shape [2; n1; c1; n2; c2; x; g; p]
      (9 - p + (99 - 10 * g) + (999 - 100 * x) + (9999999 - 1000000 * c2 + (999999999 - 10000000 * n2))
       + (9999999999 - 1000000000 * c1 + (999999999999 - 10000000000 * n1)) + 7999999999999)
| shape3 n1 c1 n2 c2 n3 c3 x g p : 0 <= x <= 1 -> 0 <= g <= 9 -> 0 <= p <= 9 -> 1 <= n1 <= 99 -> 1 <= c1 <= 9 ->
    1 <= n2 <= 99 -> 1 <= c2 <= 9 -> 1 <= n3 <= 99 -> 1 <= c3 <= 9 ->
    shape [3; n1; c1; n2; c2; n3; c3; x; g; p]
      (9 - p + (99 - 10 * g) + (999 - 100 * x) + (9999 - 1000 * c3 + (999999 - 10000 * n3))
       + (9999999 - 1000000 * c2 + (999999999 - 10000000 * n2))
       + (9999999999 - 1000000000 * c1 + (999999999999 - 10000000000 * n1)) + 6999999999999).

Lemma shape_eq k z z' : z = z' -> shape k z -> shape k z'.
Proof. now intros ->. Qed.

Lemma rank_score s k : rank s k -> exists z, score s = Ok z /\ shape k z.
Proof.
  intros (q & a & Hq & Hb & Hl & Ha & ->). unfold score. rewrite Hq. cbn [bind]. cbv zeta.
  set (x := match cs_state s with Some _ => 1 | None => 0 end).
  assert (0 <= x <= 1) as Hx by (unfold x; destruct (cs_state s); lia).
  replace (if q >? 0 then q else 0) with (Z.max 0 q).
  2: { destruct (q >? 0) eqn:E; rewrite Z.gtb_ltb in E; [apply Z.ltb_lt in E|apply Z.ltb_ge in E]; lia. }
  replace (if q <? 0 then - q else 0) with (Z.max 0 (- q)).
  2: { destruct (q <? 0) eqn:E; [apply Z.ltb_lt in E|apply Z.ltb_ge in E]; lia. }
  set (p := Z.max 0 q). set (g := Z.max 0 (- q)).
  assert (0 <= p <= 9) as Hp by lia. assert (0 <= g <= 9) as Hg by lia. clearbody x p g.
  destruct Ha as [|X1 c1 n1 l r H1 C1 Ha].
  { eexists. split; [reflexivity|]. eapply shape_eq; [|now apply shape0]. unfold bit. cbn -[Z.mul Z.add Z.sub]. lia. }
  destruct Ha as [|X2 c2 n2 l r H2 C2 Ha].
  { destruct (element_bits_ok X1 c1 n1 (10^10) (10^9) (10^12) (10^10) H1) as [-> N1]. cbn [bind].
    eexists. split; [reflexivity|]. eapply shape_eq; [|now apply shape1]. unfold bit. cbn -[Z.mul Z.add Z.sub]. lia. }
  destruct Ha as [|X3 c3 n3 l r H3 C3 Ha].
  { destruct (element_bits_ok X1 c1 n1 (10^10) (10^9) (10^12) (10^10) H1) as [-> N1].
    destruct (element_bits_ok X2 c2 n2 (10^7) (10^6) (10^9) (10^7) H2) as [-> N2]. cbn [bind].
    eexists. split; [reflexivity|]. eapply shape_eq; [|now apply shape2]. unfold bit. cbn -[Z.mul Z.add Z.sub]. lia. }
  destruct Ha as [|X4 c4 n4 l r H4 C4 Ha].
  2: { cbn in Hl. lia. }
  destruct (element_bits_ok X1 c1 n1 (10^10) (10^9) (10^12) (10^10) H1) as [-> N1].
  destruct (element_bits_ok X2 c2 n2 (10^7) (10^6) (10^9) (10^7) H2) as [-> N2].
  destruct (element_bits_ok X3 c3 n3 (10^4) (10^3) (10^6) (10^4) H3) as [-> N3]. cbn [bind].
  eexists. split; [reflexivity|]. eapply shape_eq; [|now apply shape3]. unfold bit. cbn -[Z.mul Z.add Z.sub]. lia.
Qed.

Lemma shape_lex k1 z1 k2 z2 : shape k1 z1 -> shape k2 z2 -> lex_lt k1 k2 -> z2 < z1.
Proof.
  intros S1 S2. destruct S1, S2; cbn [lex_lt]; intros L;
    repeat match goal with
    | H : _ \/ _ |- _ => destruct H as [H|H]; [lia|]
    | H : _ /\ _ |- _ => let A := fresh in destruct H as [A H]; subst
    end; try lia; try contradiction.
Qed.

Lemma shape_pos k z : shape k z -> 0 < z.
Proof. intros []; lia. Qed.

Lemma shape_fun k z z' : shape k z -> shape k z' -> z = z'.
Proof. intros S1 S2. inversion S1; subst; inversion S2; subst; reflexivity. Qed.

Lemma lex_trichotomy a b : lex_lt a b \/ a = b \/ lex_lt b a.
Proof.
  revert b. induction a as [|x a IH]; intros [|y b]; cbn; auto.
  destruct (Z.lt_trichotomy x y) as [H|[H|H]]; auto. subst.
  destruct (IH b) as [H|[->|H]]; auto.
Qed.

Lemma shape_lex_iff k1 z1 k2 z2 : shape k1 z1 -> shape k2 z2 -> (lex_lt k1 k2 <-> z2 < z1).
Proof.
  intros S1 S2. split; [now apply shape_lex|]. intros H.
  destruct (lex_trichotomy k1 k2) as [L|[L|L]]; [exact L| |].
  - subst. rewrite (shape_fun _ _ _ S1 S2) in H. lia.
  - apply (shape_lex _ _ _ _ S2 S1) in L. lia.
Qed.

Lemma rank_not_M s k : rank s k -> cs_name s = "M" \/ cs_name s <> "M".
Proof. intros _. destruct (string_dec (cs_name s) "M"); auto. Qed.

Definition keyed (s : cs) (q : Q) : Prop :=
  (cs_name s = "M" /\ q = (10 # 1)) \/
  (cs_name s <> "M" /\ exists k z, rank s k /\ score s = Ok z /\ shape k z /\ q = (/ inject_Z z)%Q).

Lemma sort_key_ok s : sortable s -> exists q, sort_key s = Ok q /\ keyed s q.
Proof.
  intros H. unfold sort_key. destruct (String.eqb (cs_name s) "M") eqn:E.
  - apply String.eqb_eq in E. eexists. split; [reflexivity|]. now left.
  - apply String.eqb_neq in E. destruct H as [H|(k & Hk)]; [contradiction|].
    destruct (rank_score s k Hk) as (z & Hz & S). rewrite Hz. cbn [bind].
    pose proof (shape_pos _ _ S). destruct (z =? 0) eqn:Ez; [apply Z.eqb_eq in Ez; lia|].
    eexists. split; [reflexivity|]. right. split; [exact E|]. exists k, z. auto.
Qed.

Lemma Qinv_lt_inject a b : 0 < a -> 0 < b -> ((/ inject_Z a < / inject_Z b)%Q <-> b < a).
Proof.
  intros Ha Hb. destruct a as [|a|a], b as [|b|b]; try lia.
  unfold Qlt, Qinv, inject_Z. cbn. lia.
Qed.

Lemma Qinv_le_1 a : 0 < a -> (/ inject_Z a <= 1)%Q.
Proof. intros Ha. destruct a as [|a|a]; try lia. unfold Qle, Qinv, inject_Z. cbn. lia. Qed.

Lemma rank_fun_z s k k' z z' : rank s k -> rank s k' -> score s = Ok z -> score s = Ok z' -> z = z'.
Proof. congruence. Qed.

(** The key orders species exactly as documented. *)
Lemma key_order a b qa qb :
  sortable a -> sortable b -> sort_key a = Ok qa -> sort_key b = Ok qb ->
  ((qa < qb)%Q <-> before a b).
Proof.
  intros Sa Sb Ka Kb.
  destruct (sort_key_ok a Sa) as (qa' & E & Ha). rewrite Ka in E. injection E as <-.
  destruct (sort_key_ok b Sb) as (qb' & E & Hb). rewrite Kb in E. injection E as <-.
  unfold before.
  destruct Ha as [[Na ->]|(Na & ka & za & Ra & Za & Sha & ->)], Hb as [[Nb ->]|(Nb & kb & zb & Rb & Zb & Shb & ->)].
  - split; [intros H; exfalso; revert H; apply Qlt_irrefl|tauto].
  - split; [|tauto]. intros H. pose proof (Qinv_le_1 zb (shape_pos _ _ Shb)). exfalso. lra.
  - split; [intros _; split; [exact Na|auto]|]. intros _. pose proof (Qinv_le_1 za (shape_pos _ _ Sha)). lra.
  - rewrite Qinv_lt_inject by (eapply shape_pos; eassumption). split.
    + intros H. split; [exact Na|]. right. exists ka, kb. split; [exact Ra|]. split; [exact Rb|].
      now apply (shape_lex_iff _ _ _ _ Sha Shb).
    + intros (_ & [H|(ka' & kb' & Ra' & Rb' & L)]); [contradiction|].
      destruct (rank_score a ka' Ra') as (za' & Za' & Sa'). destruct (rank_score b kb' Rb') as (zb' & Zb' & Sb').
      rewrite Za in Za'. rewrite Zb in Zb'. injection Za' as <-. injection Zb' as <-.
      eapply shape_lex; eassumption.
Qed.

Lemma mapM_keys_ok {A K} (f : A -> res K) l :
  (forall a, In a l -> exists k, f a = Ok k) -> exists ks, mapM (fun a => let* k := f a in Ok (k, a)) l = Ok ks.
Proof.
  induction l as [|a l IH]; intros H; [now exists []|]. cbn [mapM].
  destruct (H a (or_introl eq_refl)) as [k ->]. cbn [bind].
  destruct IH as [ks ->]; [intros; apply H; now right|]. cbn [bind]. eauto.
Qed.

Lemma StronglySorted_map {A B} (f : A -> B) (R : B -> B -> Prop) l :
  StronglySorted (fun x y => R (f x) (f y)) l -> StronglySorted R (map f l).
Proof.
  induction 1 as [|a l Hs IH Hf]; cbn; constructor; [exact IH|].
  rewrite Forall_forall in *. intros y Hy. apply in_map_iff in Hy as (x & <- & Hx). auto.
Qed.

Lemma StronglySorted_impl {A} (R S : A -> A -> Prop) l :
  (forall x y, In x l -> In y l -> R x y -> S x y) -> StronglySorted R l -> StronglySorted S l.
Proof.
  intros H Hl. induction Hl as [|a l Hs IH Hf]; constructor.
  - apply IH. intros x y Hx Hy. apply H; now right.
  - rewrite Forall_forall in *. intros y Hy. apply H; [now left|now right|auto].
Qed.

Lemma filter_map_snd {A B} (p : B -> bool) (l : list (A * B)) :
  filter p (map snd l) = map snd (filter (fun x => p (snd x)) l).
Proof. induction l as [|[a b] l IH]; cbn; [reflexivity|]. destruct (p b); cbn; now rewrite IH. Qed.

(** C27 *)
Lemma sort_species_spec k :
  (forall s, In s (k_species k) -> sortable s) ->
  exists k', sort_species k = (k', Ok tt) /\
    Permutation (k_species k') (k_species k) /\
    StronglySorted (fun a b => ~ before b a) (k_species k') /\
    (forall p : cs -> bool,
       (forall a b, In a (k_species k) -> In b (k_species k) -> p a = true -> p b = true -> ~ before b a) ->
       filter p (k_species k') = filter p (k_species k)) /\
    k_reactions k' = k_reactions k.
Proof.
  intros Hs. unfold sort_species, sort_by.
  destruct (mapM_keys_ok sort_key (k_species k)) as [ks Hks].
  { intros a Ha. destruct (sort_key_ok a (Hs a Ha)) as (q & E & _). eauto. }
  rewrite Hks. cbn [bind]. eexists. split; [reflexivity|]. cbn [k_species k_reactions].
  destruct (mapM_key_snd _ _ _ Hks) as [Hm Hk].
  set (leb := fun x y : Q * cs => Qle_bool (fst x) (fst y)).
  assert (forall x, In x ks -> sort_key (snd x) = Ok (fst x) /\ sortable (snd x)) as Hin.
  { intros [q a] Hx. split; [now apply Hk|]. apply Hs. rewrite <- Hm. change a with (snd (q, a)). now apply in_map. }
  assert (forall x y, In x ks -> In y ks -> (leb x y = true <-> ~ before (snd y) (snd x))) as Hleb.
  { intros x y Hx Hy. destruct (Hin x Hx) as [A B], (Hin y Hy) as [C D]. unfold leb. rewrite Qle_bool_iff.
    rewrite <- (key_order _ _ _ _ D B C A). split; [apply Qle_not_lt|apply Qnot_lt_le]. }
  assert (forall a b, leb a b = true \/ leb b a = true) as Tot.
  { intros a b. unfold leb. rewrite !Qle_bool_iff. destruct (Qlt_le_dec (fst a) (fst b)) as [H|H]; [left; now apply Qlt_le_weak|now right]. }
  assert (forall a b c, leb a b = true -> leb b c = true -> leb a c = true) as Tr.
  { intros a b c. unfold leb. rewrite !Qle_bool_iff. apply Qle_trans. }
  split; [|split; [|split; [|reflexivity]]].
  - rewrite <- Hm. apply Permutation_map. symmetry. apply isort_perm.
  - apply StronglySorted_map. eapply StronglySorted_impl; [|apply (isort_sorted leb Tot Tr)].
    intros x y Hx Hy H. apply isort_In in Hx, Hy. now apply Hleb.
  - intros p Hp. rewrite filter_map_snd.
    assert (filter (fun x => p (snd x)) (isort leb ks) = filter (fun x => p (snd x)) ks) as ->.
    2: { rewrite <- filter_map_snd. now rewrite Hm. }
    (* stability, restricted to the elements of the list *)
    assert (forall l, incl l ks -> filter (fun x => p (snd x)) (isort leb l) = filter (fun x => p (snd x)) l) as G.
    { induction l as [|x l IH]; intros Hl; [reflexivity|]. cbn [isort].
      assert (forall m, incl m ks -> filter (fun x => p (snd x)) (insert leb x m) = filter (fun x => p (snd x)) (x :: m)) as I.
      { induction m as [|y m IHm]; intros Hmm; [reflexivity|]. cbn [insert]. destruct (leb x y) eqn:E; [reflexivity|].
        cbn [filter]. rewrite IHm by (intros z Hz; apply Hmm; now right). cbn [filter].
        destruct (p (snd x)) eqn:Ex, (p (snd y)) eqn:Ey; try reflexivity.
        assert (leb x y = true); [|congruence].
        assert (In x ks) as Hx by (apply Hl; now left). assert (In y ks) as Hy by (apply Hmm; now left).
        apply (Hleb x y Hx Hy). apply Hp; auto; rewrite <- Hm; now apply in_map. }
      rewrite I; [|intros z Hz; apply Hl; right; now apply (isort_In leb)].
      cbn [filter]. rewrite IH; [reflexivity|]. intros z Hz. apply Hl. now right. }
    apply G, incl_refl.
Qed.

(** The order is total and strict on sortable species. *)
Lemma before_strict a b : sortable a -> sortable b -> before a b -> ~ before b a.
Proof.
  intros Sa Sb. destruct (sort_key_ok a Sa) as (qa & Ka & _). destruct (sort_key_ok b Sb) as (qb & Kb & _).
  rewrite <- (key_order _ _ _ _ Sa Sb Ka Kb), <- (key_order _ _ _ _ Sb Sa Kb Ka). intros; lra.
Qed.
