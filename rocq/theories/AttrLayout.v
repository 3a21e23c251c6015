(** The layout of classified reactions, and their aligned texts. *)
From Coq Require Import Permutation Sorted.
From Verif Require Import Base BaseLemmas Species Reactions SortLemmas Chemistry Classification ClassSpec ClassProofs ClassOrder
  AttrTable AttrSpec AttrSpecies.

Lemma label_eqb_spec a b : label_eqb a b = true <-> a = b.
Proof.
  destruct a as [x|i|i j], b as [y|i'|i' j']; cbn; try (split; discriminate).
  - rewrite Z.eqb_eq. split; congruence.
  - rewrite Nat.eqb_eq. split; congruence.
  - rewrite andb_true_iff, !Nat.eqb_eq. split; [intros [-> ->]; reflexivity|intros H; injection H as -> ->; auto].
Qed.
Lemma col_eqb_spec a b : col_eqb a b = true <-> a = b.
Proof.
  destruct a, b; cbn; try (split; discriminate); try rewrite String.eqb_eq; split; congruence.
Qed.

(** ** Widths *)
Fixpoint covers (ws : list nat) (ns : list string) : Prop :=
  match ns, ws with
  | [], _ => True
  | _ :: _, [] => False
  | n :: ns', w :: ws' => (String.length n <= w)%nat /\ covers ws' ns'
  end.

Lemma widen_covers ns : forall ws, covers (widen ws ns) ns.
Proof. induction ns as [|n ns IH]; intros [|w ws]; cbn; auto; split; auto; lia. Qed.
Lemma widen_keeps ns : forall ws ms, covers ws ms -> covers (widen ws ns) ms.
Proof.
  induction ns as [|n ns IH]; intros [|w ws] [|m ms]; cbn; try tauto.
  intros [H1 H2]. split; [lia|auto].
Qed.

Lemma length_spaces n : String.length (spaces n) = n.
Proof. induction n; cbn; auto. Qed.
Lemma length_append a b : String.length (a ++ b) = (String.length a + String.length b)%nat.
Proof. induction a; cbn; auto. Qed.
Lemma length_ljust s w : (String.length s <= w)%nat -> String.length (ljust s w) = w.
Proof. intros H. unfold ljust. rewrite length_append, length_spaces. lia. Qed.
Lemma padded_ljust s w : padded s (ljust s w).
Proof. now exists (w - String.length s)%nat. Qed.

Lemma fields_blank ws : Forall (padded "") (fields [] ws) /\ map String.length (fields [] ws) = ws.
Proof.
  induction ws as [|w ws [IH1 IH2]]; [split; [constructor|reflexivity]|]. cbn [fields map]. rewrite IH2. split.
  - constructor; [apply padded_ljust|exact IH1].
  - rewrite length_ljust; [reflexivity|cbn; lia].
Qed.

Lemma fields_spec ns : forall ws, covers ws ns ->
  exists fs bs, fields ns ws = fs ++ bs /\ Forall2 padded ns fs /\ Forall (padded "") bs /\
    map String.length (fs ++ bs) = ws.
Proof.
  induction ns as [|n ns IH]; intros ws H.
  - exists [], (fields [] ws). destruct (fields_blank ws). auto.
  - destruct ws as [|w ws]; [destruct H|]. destruct H as [H1 H2]. destruct (IH ws H2) as (fs & bs & E1 & F & B & L).
    exists (ljust n w :: fs), bs. cbn [fields app map]. rewrite E1, L, (length_ljust _ _ H1). split; [reflexivity|].
    split; [constructor; [apply padded_ljust|exact F]|]. auto.
Qed.

Lemma side_spec species side order ps ws : in_order species side order ps -> covers ws (map cs_name order) ->
  aligned_side species side ws (str_join " + " (fields (map cs_name order) ws)).
Proof.
  intros P H. destruct (fields_spec _ ws H) as (fs & bs & E1 & F & B & L).
  exists order, ps, fs, bs. rewrite E1. auto.
Qed.

(** ** The names kept by the classifier *)
Section Names.
  Variables (sps : list cs) (rs : list cr).
  Hypothesis ND : NoDup (map cr_id rs).
  Hypothesis KN : species_known sps rs.

  Definition named (species side : list cs) (a : list string) : Prop :=
    exists x p, in_order species side x p /\ a = map cs_name x.
  Definition names_ok (k : clf) : Prop := idx sps k /\
    forall r a b, In r rs -> zget (cr_id r) (k_names k) = Some (a, b) ->
      named (k_species k) (cr_lhs r) a /\ named (k_species k) (cr_rhs r) b.

  Lemma same_id r s : In r rs -> In s rs -> cr_id r = cr_id s -> r = s.
  Proof using ND. apply (NoDup_map_inj cr_id rs). exact ND. Qed.

  Lemma names_set k r a b : In r rs -> names_ok k ->
    named (k_species k) (cr_lhs r) a -> named (k_species k) (cr_rhs r) b ->
    names_ok (set_names k (cr_id r) (a, b)).
  Proof using ND.
    intros Hr [X N] Pa Pb. split; [exact X|]. intros s a' b' Hs H. cbn in H |- *. destruct (Z.eq_dec (cr_id s) (cr_id r)) as [Q|Q].
    - rewrite Q, (aget_aset_same Z.eqb Zeqb_spec) in H. injection H as <- <-.
      now rewrite (same_id s r Hs Hr Q).
    - rewrite (aget_aset_other Z.eqb Zeqb_spec) in H by exact Q. exact (N s a' b' Hs H).
  Qed.

  Lemma names_frame k k' : idx sps k' -> k_names k' = k_names k -> k_species k' = k_species k -> names_ok k -> names_ok k'.
  Proof using. intros X Q S [_ N]. split; [exact X|]. intros r a b. rewrite Q, S. apply N. Qed.

  Lemma side_names k l k' r : in_order (k_species k) l (map snd r) (map fst r) -> k_species k' = k_species k ->
    named (k_species k') l (map (fun p : Z * cs => cs_name (snd p)) r).
  Proof using. intros H ->. exists (map snd r), (map fst r). split; [exact H|]. now rewrite map_map. Qed.

  (** Both sides of a reaction, sorted. *)
  Lemma both_sides k r : In r rs -> names_ok k ->
    exists k1 a k2 b, sorted_side k (cr_lhs r) = (k1, Ok a) /\ sorted_side k1 (cr_rhs r) = (k2, Ok b) /\
      names_ok k2 /\ k_names k2 = k_names k /\ k_species k2 = k_species k /\
      named (k_species k2) (cr_lhs r) (map (fun p => cs_name (snd p)) a) /\
      named (k_species k2) (cr_rhs r) (map (fun p => cs_name (snd p)) b).
  Proof using KN.
    intros Hr N. pose proof N as [X _]. destruct KN as (_ & _ & K).
    destruct (sorted_side_spec sps rs KN k (cr_lhs r) X) as (k1 & a & E1 & X1 & S1 & O1).
    { intros s Hs. apply (K r); [exact Hr|]. apply in_or_app. now left. }
    destruct (sorted_side_spec sps rs KN k1 (cr_rhs r) X1) as (k2 & b & E2 & X2 & S2 & O2).
    { intros s Hs. apply (K r); [exact Hr|]. apply in_or_app. now right. }
    pose proof (sorted_side_frame _ _ _ _ E1) as (_ & _ & _ & _ & _ & N1 & _).
    pose proof (sorted_side_frame _ _ _ _ E2) as (_ & _ & _ & _ & _ & N2 & _).
    exists k1, a, k2, b. split; [exact E1|]. split; [exact E2|].
    split; [apply (names_frame k); congruence || assumption|]. split; [congruence|]. split; [congruence|].
    split; [now apply (side_names k); [|congruence]|now apply (side_names k1)].
  Qed.

  Lemma sort_key_names k r k' o : In r rs -> names_ok k -> reaction_sort_key k r = (k', o) ->
    names_ok k' /\ k_species k' = k_species k.
  Proof using ND KN.
    intros Hr N H. unfold reaction_sort_key in H.
    destruct (both_sides k r Hr N) as (k1 & a & k2 & b & E1 & E2 & N2 & _ & S2 & Na & Nb). rewrite E1, E2 in H.
    injection H as <- <-. split; [now apply names_set|exact S2].
  Qed.

  Lemma keys_names l : forall k k' o, incl l rs -> names_ok k -> reaction_keys k l = (k', o) -> names_ok k'.
  Proof using ND KN.
    induction l as [|r l IH]; intros k k' o I N H; cbn [reaction_keys] in H.
    - now injection H as <- <-.
    - destruct (reaction_sort_key k r) as [k1 [x|e]] eqn:E1; pose proof (sort_key_names k r _ _ (I r (or_introl eq_refl)) N E1) as [N1 _].
      2: { now injection H as <- <-. }
      destruct (reaction_keys k1 l) as [k2 [y|e]] eqn:E2; injection H as <- <-;
        (eapply IH; [|exact N1|exact E2]); intros z Hz; apply I; now right.
  Qed.

  Lemma sorted_names_ok k r k' o : In r rs -> names_ok k -> sorted_names k r = (k', o) ->
    names_ok k' /\ k_species k' = k_species k /\ (exists p, o = Ok p) /\
    (forall p, o = Ok p -> zget (cr_id r) (k_names k') = Some p) /\
    (forall i p, zget i (k_names k) = Some p -> zget i (k_names k') = Some p).
  Proof using ND KN.
    intros Hr N H. unfold sorted_names in H. destruct (zget (cr_id r) (k_names k)) as [p|] eqn:Ep.
    { injection H as <- <-. split; [exact N|]. split; [reflexivity|]. split; [eauto|]. split; [|auto]. intros q Q. now injection Q as <-. }
    destruct (both_sides k r Hr N) as (k1 & a & k2 & b & E1 & E2 & N2 & Q2 & S2 & Na & Nb). rewrite E1, E2 in H.
    injection H as <- <-. split; [now apply names_set|]. split; [exact S2|]. split; [eauto|].
    cbn [set_names k_names]. split.
    - intros q Q. injection Q as <-. apply (aget_aset_same Z.eqb Zeqb_spec).
    - intros i q Q. rewrite (aget_aset_other Z.eqb Zeqb_spec); [now rewrite Q2|]. intros ->. congruence.
  Qed.

  Lemma widths_ok l : forall k acc k' o, incl l rs -> names_ok k -> widths k l acc = (k', o) ->
    names_ok k' /\ k_species k' = k_species k /\ (exists w, o = Ok w) /\
    (forall i p, zget i (k_names k) = Some p -> zget i (k_names k') = Some p) /\
    forall w, o = Ok w ->
      (forall ns, covers (fst acc) ns -> covers (fst w) ns) /\ (forall ns, covers (snd acc) ns -> covers (snd w) ns) /\
      forall r, In r l -> exists a b, zget (cr_id r) (k_names k') = Some (a, b) /\ covers (fst w) a /\ covers (snd w) b.
  Proof using ND KN.
    induction l as [|r l IH]; intros k acc k' o I N H; cbn [widths] in H.
    - injection H as <- <-. split; [exact N|]. split; [reflexivity|]. split; [eauto|]. split; [auto|]. intros w Q. injection Q as <-. split; [auto|]. split; [auto|]. intros r [].
    - destruct (sorted_names k r) as [k1 o1] eqn:E1.
      destruct (sorted_names_ok k r k1 o1 (I r (or_introl eq_refl)) N E1) as (N1 & Sp1 & ([a b] & ->) & S1 & M1).
      destruct (IH k1 _ k' o (fun z Hz => I z (or_intror Hz)) N1 H) as (N2 & Sp2 & Ex & M2 & R2).
      split; [exact N2|]. split; [congruence|]. split; [exact Ex|]. split; [auto|]. intros w Q. destruct (R2 w Q) as (R3 & R4 & R5). cbn [fst snd] in R3, R4.
      split; [intros ns C; now apply R3, widen_keeps|]. split; [intros ns C; now apply R4, widen_keeps|].
      intros s [<-|Hs]; [|auto]. exists a, b. split; [apply M2; now apply S1|]. split; [apply R3, widen_covers|apply R4, widen_covers].
  Qed.

  (** Widths kept for a class suit all reactions of that class. *)
  Definition align_ok (k : clf) : Prop :=
    forall tc w r, aget pair_eqb tc (k_align k) = Some w -> In r rs -> classify r = Ok tc ->
      exists a b, zget (cr_id r) (k_names k) = Some (a, b) /\ covers (fst w) a /\ covers (snd w) b.
  (** The classification kept contains the reactions of each class. *)
  Definition table_ok (k : clf) : Prop :=
    forall t c cats l, sget t (k_classified k) = Some cats -> sget c cats = Some l ->
      incl l rs /\ forall r, In r rs -> classify r = Ok (t, c) -> In r l.

  Lemma pair_spec p q : pair_eqb p q = true <-> p = q.
  Proof using. apply pair_eqb_spec. Qed.

  (** Each class has an entry in the classification. *)
  Definition table_full (k : clf) : Prop :=
    forall r t c, In r rs -> classify r = Ok (t, c) ->
      exists cats l, sget t (k_classified k) = Some cats /\ sget c cats = Some l.

  Lemma aligned_ok k r k' o : In r rs -> memo_ok rs k -> names_ok k -> align_ok k -> table_ok k -> table_full k ->
    get_aligned k r = (k', o) ->
    memo_ok rs k' /\ names_ok k' /\ align_ok k' /\ table_ok k' /\ table_full k' /\ k_species k' = k_species k /\
    (forall tc w, aget pair_eqb tc (k_align k) = Some w -> aget pair_eqb tc (k_align k') = Some w) /\
    match classify r with
    | Err e => o = Err e
    | Ok tc => exists s w left right, o = Ok s /\ aget pair_eqb tc (k_align k') = Some w /\
        s = (left ++ " > " ++ right)%string /\
        aligned_side (k_species k) (cr_lhs r) (fst w) left /\ aligned_side (k_species k) (cr_rhs r) (snd w) right
    end.
  Proof using ND KN.
    intros Hr M N A T TF H. pose proof (get_aligned_frame rs k r k' o ND M Hr H) as (M' & Sp & _ & Cl).
    split; [exact M'|]. assert (T' : table_ok k') by (unfold table_ok; rewrite Cl; exact T).
    assert (TF' : table_full k') by (unfold table_full; rewrite Cl; exact TF).
    unfold get_aligned in H. destruct (classify_m k r) as [k1 o1] eqn:E1.
    destruct (classify_m_ok rs k r k1 o1 ND M Hr E1) as (Ho & M1 & S1 & R1 & C1 & A1 & I1 & N1).
    assert (NK1 : names_ok k1).
    { apply (names_frame k); auto. destruct N as [X _]. now apply (idx_frame sps k). }
    assert (AK1 : align_ok k1) by (intros tc w s; rewrite A1, N1; apply A).
    rewrite <- Ho. destruct o1 as [[t c]|e].
    2: { injection H as <- <-. split; [exact NK1|]. split; [exact AK1|]. split; [exact T'|]. split; [exact TF'|]. split; [exact Sp|].
         split; [now rewrite A1|reflexivity]. }
    cbv zeta in H. match type of H with (match ?x with _ => _ end) = _ => destruct x as [k2 o2] eqn:E2 end.
    assert (B : names_ok k2 /\ align_ok k2 /\ k_species k2 = k_species k /\
                (forall tc w, aget pair_eqb tc (k_align k) = Some w -> aget pair_eqb tc (k_align k2) = Some w) /\
                exists w, o2 = Ok w /\ aget pair_eqb (t, c) (k_align k2) = Some w).
    { rewrite <- A1. destruct (aget pair_eqb (t, c) (k_align k1)) as [w|] eqn:Ew.
      { injection E2 as <- <-. split; [exact NK1|]. split; [exact AK1|]. split; [exact S1|]. split; [auto|eauto]. }
      destruct (TF r t c Hr (eq_sym Ho)) as (cats & l & Et & Ec). rewrite C1, Et, Ec in E2.
      destruct (T t c cats l Et Ec) as [Il Cm].
      destruct (widths k1 l ([], [])) as [k3 o3] eqn:E3.
      pose proof (widths_frame _ _ _ _ _ E3) as (_ & _ & _ & A3 & _).
      destruct (widths_ok l k1 ([], []) k3 o3 Il NK1 E3) as (N3 & S3 & (w & ->) & M3 & W3).
      assert (AK3 : align_ok k3).
      { intros tc w' s Hw Hs Hc. rewrite A3 in Hw. destruct (AK1 tc w' s Hw Hs Hc) as (a & b & Hn & Ca & Cb).
        exists a, b. auto. }
      injection E2 as <- <-. split; [exact N3|]. cbn [k_align k_species]. split; [|split; [congruence|split]].
      - intros tc w' s Hw Hs Hc. cbn [k_align k_names] in Hw |- *. destruct (pair_eqb tc (t, c)) eqn:Q.
        + apply pair_spec in Q. subst tc. rewrite (aget_aset_same pair_eqb pair_spec) in Hw. injection Hw as <-.
          destruct (W3 w eq_refl) as (_ & _ & W). apply W. now apply Cm.
        + assert (tc <> (t, c)) by (intros K; apply pair_spec in K; congruence).
          rewrite (aget_aset_other pair_eqb pair_spec) in Hw by assumption. now apply (AK3 tc w' s).
      - intros tc w' Hw. destruct (pair_eqb tc (t, c)) eqn:Q.
        + apply pair_spec in Q. subst tc. congruence.
        + assert (tc <> (t, c)) by (intros K; apply pair_spec in K; congruence).
          rewrite (aget_aset_other pair_eqb pair_spec) by assumption. now rewrite A3.
      - exists w. split; [reflexivity|]. apply (aget_aset_same pair_eqb pair_spec). }
    destruct B as (N2 & AK2 & S2 & M2 & [wl wr] & -> & Hw).
    destruct (AK2 _ _ _ Hw Hr (eq_sym Ho)) as (a & b & En & Ca & Cb). rewrite En in H. injection H as <- <-.
    split; [exact N2|]. split; [exact AK2|]. split; [exact T'|]. split; [exact TF'|]. split; [exact S2|]. split; [exact M2|].
    destruct (proj2 N2 r a b Hr En) as [(x & px & Ox & ->) (y & py & Oy & ->)]. rewrite S2 in Ox, Oy.
    eexists _, (wl, wr), (str_join " + " (fields (map cs_name x) wl)), (str_join " + " (fields (map cs_name y) wr)).
    split; [reflexivity|]. split; [exact Hw|]. split; [reflexivity|].
    split; [now apply (side_spec _ _ _ px)|now apply (side_spec _ _ _ py)].
  Qed.
End Names.

(** ** Frames *)
Notation lget := (aget label_eqb).

Lemma lget_set_same l row f : lget l (set_row l row f) = Some row.
Proof. apply (aget_aset_same label_eqb label_eqb_spec). Qed.
Lemma lget_set_other l l' row f : l <> l' -> lget l (set_row l' row f) = lget l f.
Proof. apply (aget_aset_other label_eqb label_eqb_spec). Qed.
Lemma lget_text_same cols l s f row : lget l f = Some row ->
  lget l (set_text cols l s f) = Some (aset col_eqb CString (CText s) row).
Proof. intros H. unfold set_text. rewrite H. apply (aget_aset_same label_eqb label_eqb_spec). Qed.
Lemma lget_text_other cols l l' s f : l <> l' -> lget l (set_text cols l' s f) = lget l f.
Proof. intros H. unfold set_text. destruct (lget l' f); now apply (aget_aset_other label_eqb label_eqb_spec). Qed.

Definition ids_of_cats (cats : list (string * list cr)) : list (string * list Z) :=
  map (fun cl => (fst cl, map cr_id (snd cl))) cats.

Lemma numbered_cons {A} n (x : A) l : numbered n (x :: l) = (n, x) :: numbered (S n) l.
Proof. reflexivity. Qed.

Lemma add_categories_spec cols i : forall cats j f o w f' o' w',
  add_categories cols i j cats (f, o, w) = (f', o', w') ->
  o' = o ++ flat_map (category_rows i) (numbered j (ids_of_cats cats)) /\
  (forall l, (forall j', (j <= j')%nat -> l <> LCat i j') -> lget l f' = lget l f) /\
  (forall n cat rs, nth_error cats n = Some (cat, rs) -> cat <> "None" -> lget (LCat i (j + n)) f' = Some (heading cols cat)).
Proof.
  induction cats as [|[cat rs] cats IH]; intros j f o w f' o' w' H; cbn [add_categories] in H.
  - injection H as <- <- <-. cbn. rewrite app_nil_r. split; [reflexivity|]. split; [auto|]. intros [|n] ? ?; discriminate.
  - cbn [ids_of_cats map fst snd]. rewrite numbered_cons. cbn [flat_map category_rows]. fold (ids_of_cats cats).
    rewrite map_map. destruct (String.eqb_spec cat "None") as [->|Hc]; cbn [negb] in H; apply IH in H; destruct H as (-> & H2 & H3).
    + split; [now rewrite <- app_assoc|]. split.
      * intros l Hl. apply H2. intros j' Hj. apply Hl. lia.
      * intros [|n] c rs' Hn Hc; [cbn in Hn; injection Hn as <- <-; contradiction|].
        replace (j + S n)%nat with (S j + n)%nat by lia. now apply (H3 n c rs').
    + split; [cbn [app]; rewrite <- !app_assoc; reflexivity|]. split.
      * intros l Hl. rewrite H2; [|intros j' Hj; apply Hl; lia]. apply lget_set_other. apply Hl. lia.
      * intros [|n] c rs' Hn Hc'.
        -- cbn in Hn. injection Hn as <- <-. rewrite Nat.add_0_r. rewrite H2; [apply lget_set_same|].
           intros j' Hj K. injection K as K. lia.
        -- replace (j + S n)%nat with (S j + n)%nat by lia. now apply (H3 n c rs').
Qed.

Lemma add_types_spec cols : forall t i f o w f' o' w',
  add_types cols i t (f, o, w) = (f', o', w') ->
  o' = o ++ flat_map type_rows (numbered i (ids_of t)) /\
  (forall l, (forall i' j', (i <= i')%nat -> l <> LType i' /\ l <> LCat i' j') -> lget l f' = lget l f) /\
  (forall n ty cats, nth_error t n = Some (ty, cats) -> lget (LType (i + n)) f' = Some (heading cols ty)) /\
  (forall n ty cats m cat rs, nth_error t n = Some (ty, cats) -> nth_error cats m = Some (cat, rs) -> cat <> "None" ->
     lget (LCat (i + n) (1 + m)) f' = Some (heading cols cat)).
Proof.
  induction t as [|[ty cats] t IH]; intros i f o w f' o' w' H; cbn [add_types] in H.
  - injection H as <- <- <-. cbn. rewrite app_nil_r. split; [reflexivity|]. split; [auto|].
    split; [intros [|n] ? ?; discriminate|intros [|n]; discriminate].
  - destruct (add_categories _ _ _ _ _) as [[f1 o1] w1] eqn:E1. apply add_categories_spec in E1. destruct E1 as (-> & A2 & A3).
    apply IH in H. destruct H as (-> & H2 & H3 & H4). cbn [ids_of map fst snd]. rewrite numbered_cons.
    cbn [flat_map type_rows]. fold (ids_of t). fold (ids_of_cats cats).
    split; [cbn [app]; rewrite <- !app_assoc; reflexivity|]. split; [|split].
    + intros l Hl. rewrite H2; [|intros i' j' Hi; apply Hl; lia].
      rewrite A2; [|intros j' Hj; now apply (Hl i j')]. apply lget_set_other. now apply (Hl i O).
    + intros [|n] ty' cats' Hn.
      * cbn in Hn. injection Hn as <- <-. rewrite Nat.add_0_r. rewrite H2; [|intros i' j' Hi; split; intros K; [injection K as K; lia|discriminate]].
        rewrite A2; [apply lget_set_same|]. intros j' _. discriminate.
      * replace (i + S n)%nat with (S i + n)%nat by lia. now apply (H3 n ty' cats').
    + intros [|n] ty' cats' m cat rs Hn Hm Hc.
      * cbn in Hn. injection Hn as <- <-. rewrite Nat.add_0_r. rewrite H2; [now apply (A3 m cat rs)|].
        intros i' j' Hi. split; intros K; [discriminate|injection K as K _; lia].
      * replace (i + S n)%nat with (S i + n)%nat by lia. now apply (H4 n ty' cats' m cat rs).
Qed.

Lemma pad_categories_spec cols i w : forall cats j f,
  (forall l, (forall j', (j <= j')%nat -> l <> LCat i j') -> lget l (pad_categories cols i j cats w f) = lget l f) /\
  (forall n cat rs row, nth_error cats n = Some (cat, rs) -> lget (LCat i (j + n)) f = Some row ->
     lget (LCat i (j + n)) (pad_categories cols i j cats w f) = Some (aset col_eqb CString (CText (ljust cat w)) row)).
Proof.
  induction cats as [|[cat rs] cats IH]; intros j f; cbn [pad_categories].
  - split; [auto|]. intros [|n]; discriminate.
  - destruct (IH (S j) (set_text cols (LCat i j) (ljust cat w) f)) as [H1 H2]. split.
    + intros l Hl. rewrite H1; [|intros j' Hj; apply Hl; lia]. apply lget_text_other. apply Hl. lia.
    + intros [|n] c rs' row Hn Hf.
      * cbn in Hn. injection Hn as <- <-. rewrite Nat.add_0_r in *. rewrite H1; [|intros j' Hj K; injection K as K; lia].
        now apply lget_text_same.
      * replace (j + S n)%nat with (S j + n)%nat in * by lia. apply (H2 n c rs' row Hn).
        rewrite lget_text_other; [exact Hf|]. intros K. injection K as K. lia.
Qed.

Lemma pad_types_spec cols w : forall t i f,
  (forall l, (forall i' j', (i <= i')%nat -> l <> LCat i' j') -> lget l (pad_types cols i t w f) = lget l f) /\
  (forall n ty cats m cat rs row, nth_error t n = Some (ty, cats) -> nth_error cats m = Some (cat, rs) ->
     lget (LCat (i + n) (1 + m)) f = Some row ->
     lget (LCat (i + n) (1 + m)) (pad_types cols i t w f) = Some (aset col_eqb CString (CText (ljust cat w)) row)).
Proof.
  induction t as [|[ty cats] t IH]; intros i f; cbn [pad_types].
  - split; [auto|]. intros [|n]; discriminate.
  - destruct (pad_categories_spec cols i w cats 1 f) as [P1 P2].
    destruct (IH (S i) (pad_categories cols i 1 cats w f)) as [H1 H2]. split.
    + intros l Hl. rewrite H1; [|intros i' j' Hi; apply Hl; lia]. apply P1. intros j' _. now apply Hl.
    + intros [|n] ty' cats' m cat rs row Hn Hm Hf.
      * cbn in Hn. injection Hn as <- <-. rewrite Nat.add_0_r in *.
        rewrite H1; [|intros i' j' Hi K; injection K as K _; lia]. now apply (P2 m cat rs row).
      * replace (i + S n)%nat with (S i + n)%nat in * by lia. apply (H2 n ty' cats' m cat rs row Hn Hm).
        rewrite P1; [exact Hf|]. intros j' _ K. injection K as K _. lia.
Qed.

Section Align.
  Variables (sps : list cs) (rs : list cr).
  Hypothesis ND : NoDup (map cr_id rs).
  Hypothesis KN : species_known sps rs.

  Lemma append_assoc a b c : ((a ++ b) ++ c = a ++ (b ++ c))%string.
  Proof using. induction a; cbn; congruence. Qed.

  Lemma align_all_spec cols : forall l k f w,
    incl l rs -> NoDup (map cr_id l) -> memo_ok rs k -> names_ok sps rs k -> align_ok rs k -> table_ok rs k -> table_full rs k ->
    (forall r, In r rs -> exists tc, classify r = Ok tc) ->
    (forall r, In r l -> exists row, lget (LRx (cr_id r)) f = Some row) ->
    exists f' w' W, align_all cols k l f w = Ok (f', w') /\
      (forall tc v, aget pair_eqb tc (k_align k) = Some v -> W tc = Some v) /\
      (forall x, (forall r, In r l -> x <> LRx (cr_id r)) -> lget x f' = lget x f) /\
      (forall r, In r l -> exists row s, lget (LRx (cr_id r)) f = Some row /\ text_ok (k_species k) W r s /\
         lget (LRx (cr_id r)) f' = Some (aset col_eqb CString (CText s) row)).
  Proof using ND KN.
    induction l as [|r l IH]; intros k f w I NL M N A T TF CL F; cbn [align_all].
    - exists f, w, (fun tc => aget pair_eqb tc (k_align k)). split; [reflexivity|]. split; [auto|]. split; [auto|easy].
    - destruct (get_aligned k r) as [k' o] eqn:E1.
      cbn in NL. inversion NL as [|? ? Hn NL']; subst.
      destruct (aligned_ok sps rs ND KN k r k' o (I r (or_introl eq_refl)) M N A T TF E1) as (M' & N' & A' & T' & TF' & S' & K' & O').
      destruct (CL r (I r (or_introl eq_refl))) as (tc & Hc). rewrite Hc in O'.
      destruct O' as (s & v & left & right & -> & Hv & -> & Sl & Sr).
      assert (D : forall q, In q l -> LRx (cr_id q) <> LRx (cr_id r)).
      { intros q Hq K. injection K as K. apply Hn. rewrite <- K. now apply in_map. }
      destruct (F r (or_introl eq_refl)) as (row & Hrow).
      match goal with |- context [align_all _ _ _ ?f1 ?w1] => set (g := f1) in *; set (w2 := w1) in * end.
      assert (F' : forall q, In q l -> exists row', lget (LRx (cr_id q)) g = Some row').
      { intros q Hq. destruct (F q (or_intror Hq)) as (row' & Hr'). exists row'. unfold g. rewrite lget_text_other; [exact Hr'|now apply D]. }
      destruct (IH k' g w2 (fun z Hz => I z (or_intror Hz)) NL' M' N' A' T' TF' CL F') as (f' & w' & W & EA & W1 & W2 & W3).
      unfold g in *. clear g F'. rewrite S' in W3.
      exists f', w', W. split; [exact EA|]. split; [auto|]. split.
      + intros x Hx. rewrite W2; [|intros q Hq; apply Hx; now right]. apply lget_text_other. apply Hx. now left.
      + intros q [<-|Hq].
        * eexists row, _. split; [exact Hrow|]. split; [|rewrite W2; [now apply lget_text_same|]].
          2: { intros q Hq K. now apply (D q Hq). }
          exists tc, v, left, right. eexists. split; [exact Hc|]. split; [now apply W1|]. split; [|split; assumption].
          unfold ljust. rewrite !append_assoc. reflexivity.
        * destruct (W3 q Hq) as (row' & s' & R1 & R2 & R3). exists row', s'.
          rewrite lget_text_other in R1 by now apply D. auto.
  Qed.
End Align.

Lemma in_numbered {A} (l : list A) : forall n i x, In (i, x) (numbered n l) -> exists m, i = (n + m)%nat /\ nth_error l m = Some x.
Proof.
  induction l as [|y l IH]; intros n i x; [easy|]. rewrite numbered_cons. intros [H|H].
  - injection H as <- <-. exists O. split; [lia|reflexivity].
  - apply IH in H. destruct H as (m & -> & H). exists (S m). split; [lia|exact H].
Qed.

Lemma nth_map_inv {A B} (f : A -> B) l n y : nth_error (map f l) n = Some y -> exists x, nth_error l n = Some x /\ y = f x.
Proof.
  revert n. induction l as [|a l IH]; intros [|n]; cbn; try discriminate.
  - intros H. injection H as <-. eauto.
  - apply IH.
Qed.

Lemma in_layout x d : In x (layout (ids_of d)) ->
  exists n ty cats, nth_error d n = Some (ty, cats) /\
    (x = LType (1 + n) \/
     exists m cat rs, nth_error cats m = Some (cat, rs) /\
       ((x = LCat (1 + n) (1 + m) /\ cat <> "None") \/ exists r, In r rs /\ x = LRx (cr_id r))).
Proof.
  unfold layout. intros H. apply in_flat_map in H. destruct H as ([i [ty ids]] & Hi & H).
  apply in_numbered in Hi. destruct Hi as (n & -> & Hn). unfold ids_of in Hn. apply nth_map_inv in Hn.
  destruct Hn as ([ty' cats] & Hn & K). cbn [fst snd] in K. injection K as -> ->. exists n, ty', cats. split; [exact Hn|].
  cbn [type_rows] in H. destruct H as [H|H]; [left; now symmetry|right].
  apply in_flat_map in H. destruct H as ([j [cat l]] & Hj & H). apply in_numbered in Hj. destruct Hj as (m & -> & Hm).
  apply nth_map_inv in Hm. destruct Hm as ([cat' rs] & Hm & K). cbn [fst snd] in K. injection K as -> ->.
  exists m, cat', rs. split; [exact Hm|]. cbn [category_rows] in H. apply in_app_or in H. destruct H as [H|H].
  - left. destruct (String.eqb_spec cat' "None") as [_|Hc]; [destruct H|]. destruct H as [H|[]]. split; [now symmetry|exact Hc].
  - right. rewrite map_map in H. apply in_map_iff in H. destruct H as (r & <- & Hr). eauto.
Qed.

Lemma prune_class rs t c cats l :
  In (t, cats) (prune (classes rs)) -> In (c, l) cats -> l = filter (in_class (t, c)) rs.
Proof.
  unfold prune. intros H Hl. apply filter_In in H. destruct H as [H _]. apply in_map_iff in H.
  destruct H as ([t' cats'] & K & H). cbn [fst snd] in K. injection K as <- <-. apply filter_In in Hl. destruct Hl as [Hl _].
  unfold classes, tab in H. apply in_map_iff in H. destruct H as ([t2 cs] & K & _). cbn [fst snd] in K. injection K as <- <-.
  apply in_map_iff in Hl. destruct Hl as (c' & K & _). now injection K as <- <-.
Qed.

Lemma prune_full rs r t c : In r rs -> classify r = Ok (t, c) ->
  exists cats l, sget t (prune (classes rs)) = Some cats /\ sget c cats = Some l.
Proof.
  intros Hr Hc. destruct (classify_scheme _ _ _ Hc) as (cs & Hs & Hi & _). destruct scheme_ok as [S1 S2].
  set (l := filter (in_class (t, c)) rs).
  assert (Hl : nonempty l = true).
  { assert (K : In r l) by (apply filter_In; split; [exact Hr|]; unfold in_class; rewrite Hc; now apply pair_eqb_spec).
    now destruct l. }
  set (cats := filter (fun cl => nonempty (snd cl)) (map (fun c => (c, filter (in_class (t, c)) rs)) cs)).
  assert (Hcl : In (c, l) cats).
  { apply filter_In. split; [|exact Hl]. apply in_map_iff. now exists c. }
  exists cats, l. split; apply (In_aget String.eqb Seqb_spec).
  - unfold akeys, prune. apply NoDup_map_filter. rewrite map_map. unfold classes, tab. rewrite map_map. exact S1.
  - unfold prune. apply filter_In. split.
    + apply in_map_iff. exists (t, map (fun c => (c, filter (in_class (t, c)) rs)) cs). split; [reflexivity|].
      unfold classes, tab. apply in_map_iff. now exists (t, cs).
    + cbn [snd]. now destruct cats.
  - unfold akeys, cats. apply NoDup_map_filter. rewrite map_map. cbn [fst]. rewrite map_id. now apply (S2 t).
  - exact Hcl.
Qed.

Section Arrange.
  Variables (cols : list col) (sps : list cs) (rs : list cr) (sort : bool) (f : frame).
  Hypothesis ND : NoDup (map cr_id rs).
  Hypothesis KN : species_known sps rs.
  Hypothesis FK : map fst f = map (fun r => LRx (cr_id r)) rs.

  Lemma f_row r : In r rs -> exists row, lget (LRx (cr_id r)) f = Some row.
  Proof using FK.
    intros H. apply (aget_key label_eqb label_eqb_spec). unfold akeys. rewrite FK.
    apply in_map_iff. now exists r.
  Qed.

  (** The order of species and of reactions, sorted if asked for. *)
  Definition orders (species : list cs) (order : list cr) : Prop :=
    Permutation species sps /\ Permutation order rs /\
    if sort
    then exists k, sort_species (clf_new sps rs) = (k, Ok tt) /\ species = k_species k /\
         StronglySorted (fun a b => ~ earlier species b a) order
    else species = sps /\ order = rs.

  (** The state of the classifier after sorting, if asked for. *)
  Definition sorted_clf : res clf :=
    if sort
    then match sort_species (clf_new sps rs) with
         | (_, Err e) => Err e
         | (k1, Ok _) => match sort_reactions k1 with
                         | (_, Err e) => Err e
                         | (k2, Ok _) => Ok k2
                         end
         end
    else Ok (clf_new sps rs).

  Lemma sorted_state :
    match sorted_clf with
    | Ok k => orders (k_species k) (k_reactions k) /\ memo_ok rs k /\ k_align k = [] /\ names_ok sps rs k
    | Err e => sort = true /\ snd (sort_species (clf_new sps rs)) = Err e
    end.
  Proof using ND KN.
    assert (N0 : names_ok sps rs (clf_new sps rs)).
    { split; [|intros r a b _; discriminate]. split; [intros s i _; discriminate|reflexivity]. }
    assert (M0 : memo_ok rs (clf_new sps rs)) by (intros i tc r; discriminate).
    unfold sorted_clf, orders. destruct sort.
    - destruct (sort_species _) as [k1 [[]|e]] eqn:E1; [|auto].
      pose proof (sort_species_frame _ _ _ E1) as (P1 & R1 & A1 & C1 & N1). cbn [clf_new k_species k_reactions] in P1, R1.
      assert (X1 : idx sps k1).
      { split; [|exact P1]. unfold sort_species in E1. destruct (sort_by _ _ _); [|discriminate]. injection E1 as <-.
        intros s i _; discriminate. }
      destruct (sort_reactions_spec sps rs KN k1 X1) as (k2 & E2 & S2 & P2 & So & _).
      { now rewrite R1. }
      rewrite E2. pose proof (sort_reactions_frame _ _ _ E2) as (_ & _ & A2 & C2). rewrite R1 in P2.
      split.
      { split; [now rewrite S2|]. split; [exact P2|]. exists k1. split; [reflexivity|]. split; [exact S2|]. now rewrite S2. }
      split; [intros i tc r; rewrite C2, C1; apply M0|].
      split; [now rewrite A2, A1|]. unfold sort_reactions in E2.
      destruct (reaction_keys k1 (k_reactions k1)) as [k3 [ks|e]] eqn:E3; [|discriminate]. injection E2 as <-.
      apply (keys_names sps rs ND KN) in E3; [exact E3| |].
      + rewrite R1. apply incl_refl.
      + split; [exact X1|]. intros r a b _. rewrite N1. discriminate.
    - split; [|auto]. auto.
  Qed.

  Lemma arrange_plain g : arrange cols sps rs sort false f = Ok g ->
    (sort = false -> g = f) /\
    (sort = true -> exists species order, orders species order /\ map fst g = map (fun r => LRx (cr_id r)) order) /\
    forall l row, In (l, row) g -> In (l, row) f.
  Proof using ND KN FK.
    unfold arrange. rewrite orb_false_r. pose proof sorted_state as SS. unfold sorted_clf in SS. destruct sort eqn:Es; cbn [negb].
    2: { intros H. injection H as <-. split; [auto|]. split; [discriminate|auto]. }
    intros H. apply bindOk in H. destruct H as (k & Hk & H). rewrite Hk in SS. destruct SS as (O & _).
    apply (locs_spec label_eqb label_eqb_spec) in H. destruct H as [H1 H2].
    split; [discriminate|]. split.
    - intros _. exists (k_species k), (k_reactions k). auto.
    - intros l row Hin. apply H2 in Hin. now apply (aget_In label_eqb label_eqb_spec).
  Qed.

  Theorem arrange_classified g : arrange cols sps rs sort true f = Ok g ->
    exists d species order W,
      orders species order /\
      (forall r, In r rs -> exists tc, classify r = Ok tc) /\ d = prune (classes order) /\
      map fst g = layout (ids_of d) /\
      (forall i row, In (LType i, row) g -> exists n ty cats,
         i = (1 + n)%nat /\ nth_error d n = Some (ty, cats) /\ row = heading cols ty) /\
      (forall i j row, In (LCat i j, row) g -> exists n ty cats m cat l w,
         i = (1 + n)%nat /\ j = (1 + m)%nat /\ nth_error d n = Some (ty, cats) /\ nth_error cats m = Some (cat, l) /\ cat <> "None" /\
         row = aset col_eqb CString (CText (ljust cat w)) (heading cols cat)) /\
      (forall i row, In (LRx i, row) g -> exists r row0 s, In r rs /\ i = cr_id r /\ In (LRx i, row0) f /\
         text_ok species W r s /\ row = aset col_eqb CString (CText s) row0).
  Proof using ND KN FK.
    unfold arrange. rewrite orb_true_r. cbn [negb]. intros H. apply bindOk in H. destruct H as (k & Hk & H).
    pose proof sorted_state as SS. unfold sorted_clf in SS. rewrite Hk in SS. destruct SS as (OO & M & A & N).
    pose proof OO as (_ & P & _).
    destruct (get_classified k) as [k1 [t|e]] eqn:Ec; [|discriminate].
    assert (Ic : incl (k_reactions k) rs) by (intros x Hx; now apply (Permutation_in x P)).
    destruct (get_classified_ok rs k k1 _ ND M Ic Ec) as (M1 & Sp1 & _ & A1 & I1 & N1 & All & C1 & Et).
    destruct (add_types cols 1 t (f, [], O%nat)) as [[f1 o] w] eqn:E1.
    apply add_types_spec in E1. destruct E1 as (-> & T2 & T3 & T4). cbn [app] in H.
    apply bindOk in H. destruct H as ([f2 w2] & E2 & H). cbn [fst snd] in H.
    assert (N1' : names_ok sps rs k1).
    { apply (names_frame sps rs k); auto. destruct N as [X _]. now apply (idx_frame sps k). }
    assert (AL : align_ok rs k1) by (intros tc v r; rewrite A1, A; discriminate).
    assert (CL : forall r, In r rs -> exists tc, classify r = Ok tc).
    { intros r Hr; apply All; now apply (Permutation_in r (Permutation_sym P)). }
    assert (TB : table_ok rs k1).
    { intros ty c cats l Ht Hl. rewrite C1, Et in Ht. apply (aget_In String.eqb Seqb_spec) in Ht, Hl.
      pose proof (prune_class _ _ _ _ _ Ht Hl) as ->. split.
      - intros x Hx. apply filter_In in Hx. now apply Ic.
      - intros r Hr Hc. apply filter_In. split; [now apply (Permutation_in r (Permutation_sym P))|].
        unfold in_class. rewrite Hc. now apply pair_eqb_spec. }
    assert (TF : table_full rs k1).
    { intros r ty c Hr Hc. rewrite C1, Et. apply (prune_full (k_reactions k) r); [|exact Hc].
      now apply (Permutation_in r (Permutation_sym P)). }
    assert (FR : forall r, In r rs -> exists row, lget (LRx (cr_id r)) f1 = Some row).
    { intros r Hr. destruct (f_row r Hr) as (row & Hf). exists row. rewrite T2; [exact Hf|]. split; discriminate. }
    destruct (align_all_spec sps rs ND KN cols rs k1 f1 w (incl_refl _) ND M1 N1' AL TB TF CL FR) as (f2' & w2' & W & E2' & _ & W2 & W3).
    rewrite E2 in E2'. injection E2' as <- <-. rewrite Sp1 in W3.
    apply (locs_spec label_eqb label_eqb_spec) in H. destruct H as [G1 G2].
    destruct (pad_types_spec cols w2 t 1 f2) as [P1 P2].
    exists t, (k_species k), (k_reactions k), W. split; [exact OO|]. split; [exact CL|].
    split; [exact Et|]. split; [exact G1|].
    assert (IL : forall x row, In (x, row) g -> In x (layout (ids_of t))).
    { intros x row Hin. unfold layout. rewrite <- G1. apply in_map_iff. now exists (x, row). }
    split; [|split].
    - intros i row Hin. pose proof (in_layout _ _ (IL _ _ Hin)) as (n & ty & cats & Hn & [K|(m & cat & l & _ & [[K _]|(r & _ & K)])]);
        try discriminate K. injection K as ->. exists n, ty, cats. split; [reflexivity|]. split; [exact Hn|].
      apply G2 in Hin. rewrite P1 in Hin by discriminate. rewrite W2 in Hin by discriminate.
      change (S n) with (1 + n)%nat in Hin. rewrite (T3 n ty cats Hn) in Hin. now injection Hin as <-.
    - intros i j row Hin. pose proof (in_layout _ _ (IL _ _ Hin)) as (n & ty & cats & Hn & [K|(m & cat & l & Hm & [[K Hc]|(r & _ & K)])]);
        try discriminate K. injection K as -> ->. exists n, ty, cats, m, cat, l, w2. repeat (split; [reflexivity || assumption|]).
      apply G2 in Hin. change (S n) with (1 + n)%nat in Hin. change (S m) with (1 + m)%nat in Hin.
      rewrite (P2 n ty cats m cat l (heading cols cat) Hn Hm) in Hin; [now injection Hin as <-|].
      rewrite W2 by discriminate. now apply (T4 n ty cats m cat l).
    - intros i row Hin. pose proof (in_layout _ _ (IL _ _ Hin)) as (n & ty & cats & Hn & [K|(m & cat & l & Hm & [[K _]|(r & Hr & K)])]);
        try discriminate K. injection K as ->.
      assert (Hrs : In r rs).
      { apply nth_error_In in Hn, Hm. rewrite Et in Hn. rewrite (prune_class _ _ _ _ _ Hn Hm) in Hr. apply filter_In in Hr. now apply Ic. }
      destruct (W3 r Hrs) as (row0 & s & R1 & R2 & R3). exists r, row0, s. split; [exact Hrs|]. split; [reflexivity|].
      split; [|split; [exact R2|]].
      + apply (aget_In label_eqb label_eqb_spec). rewrite T2 in R1; [exact R1|]. split; discriminate.
      + apply G2 in Hin. rewrite P1 in Hin by discriminate. rewrite R3 in Hin. now injection Hin as <-.
  Qed.
End Arrange.
