(** Proofs about the classifier: partition, exact domain, types. *)
From Coq Require Import Sorted Permutation.
From Verif Require Import Base BaseLemmas Species Reactions SortLemmas ChemDisable Classification ClassSpec.

(** ** Every class is one of the scheme *)

Ltac leaf := match goal with |- In ?x ?l => exact (proj1 (memS_In x l) eq_refl) end.

Ltac break1 :=
  match goal with
  | H : Err _ = Ok _ |- _ => discriminate H
  | H : bind ?m _ = Ok _ |- _ => destruct m eqn:?; cbn [bind] in H
  | H : (if ?b then _ else _) = Ok _ |- _ => destruct b eqn:?
  | H : (match ?x with _ => _ end) = Ok _ |- _ => destruct x eqn:?
  | H : Ok _ = Ok _ |- _ => injection H as H
  end.

Lemma classify_electron_scheme r el c :
  classify_electron r el = Ok c ->
  In c ["elastic and momentum transfer"; "excitation"; "dissociative excitation"; "deexcitation";
     "ionization"; "dissociative ionization"; "attachment"; "dissociative attachment";
     "three body attachment"; "detachment"; "recombination"; "dissociative recombination";
     "three body recombination"; "dissociation"; "other electron energy loss channels";
     "unclassified electron impact collisions"].
Proof.
  unfold classify_electron. cbv zeta. intros H.
  destruct (heavy (cr_lhs r)) as [|c0 l0]; [discriminate H|].
  repeat break1; subst c;
    repeat match goal with |- context[if ?b then _ else _] => destruct b end; leaf.
Qed.

Lemma classify_neutral_scheme r el :
  In (classify_neutral r el) 
    ["elastic scattering"; "association"; "dissociation"; "excitation"; "dissociative excitation";
     "collisional quenching"; "dissociative quenching"; "excitation transfer"; "ionization";
     "dissociative ionization"; "associative ionization"; "penning ionization"; "interchange";
     "unclassified neutral - neutral collisions"].
Proof.
  unfold classify_neutral. cbv zeta.
  repeat match goal with |- context[if ?b then _ else _] => destruct b end; leaf.
Qed.

Lemma charge_transfer_scheme sg p un r a b c :
  charge_transfer sg p un r a b = Ok c -> In c ["resonant charge transfer"; "charge transfer"; un].
Proof.
  unfold charge_transfer. intros H. repeat break1; subst c;
  repeat match goal with |- context[if ?b then _ else _] => destruct b end;
  cbn; tauto.
Qed.

Lemma classify_positive_scheme r c :
  classify_positive r = Ok c ->
  In c ["resonant charge transfer"; "charge transfer"; "dissociative charge transfer";
     "unclassified positive ion - neutral collisions"].
Proof.
  unfold classify_positive. cbv zeta. intros H.
  destruct (first_where _ _); cbn [bind] in H; [|discriminate].
  destruct (first_where _ _); cbn [bind] in H; [|discriminate].
  destruct (Nat.eqb _ _).
  - apply charge_transfer_scheme in H. cbn in H |- *. tauto.
  - repeat break1; subst c;
    repeat match goal with |- context[if ?b then _ else _] => destruct b end; leaf.
Qed.

Lemma classify_negative_scheme r el c :
  classify_negative r el = Ok c ->
  In c ["resonant charge transfer"; "charge transfer"; "detachment"; "associative detachment";
     "unclassified negative ion - neutral collisions"].
Proof.
  unfold classify_negative. cbv zeta. intros H.
  destruct (first_where _ _); cbn [bind] in H; [|discriminate].
  destruct (first_where _ _); cbn [bind] in H; [|discriminate].
  destruct (el >? 0).
  - repeat break1; subst c;
    repeat match goal with |- context[if ?b then _ else _] => destruct b end; leaf.
  - destruct (_ =? _).
    + apply charge_transfer_scheme in H. cbn in H |- *. tauto.
    + injection H as <-. leaf.
Qed.

Lemma classify_scheme r t c :
  classify r = Ok (t, c) -> exists cats, In (t, cats) scheme /\ In c cats /\ c <> "stripping".
Proof.
  unfold classify. intros H.
  destruct (el_coef r) as [el|e]; cbn [bind] in H; [|discriminate].
  cbv zeta in H.
  assert (forall t cats, In (t, cats) scheme -> In c cats -> c <> "stripping" ->
     exists cats, In (t, cats) scheme /\ In c cats /\ c <> "stripping") as D by (intros; eauto).
  destruct (existsb is_e (cr_lhs r)).
  { destruct (classify_electron r el) as [x|] eqn:E; cbn [bind] in H; [|discriminate].
    injection H as <- <-. apply classify_electron_scheme in E.
    eapply D; [now left|exact E|]. intros ->. cbn in E. intuition discriminate. }
  destruct (Nat.eqb _ 3).
  { injection H as <- <-. eapply D; [do 5 right; now left|now left|discriminate]. }
  destruct (Nat.eqb _ 1).
  { injection H as H <-. subst t.
    destruct (Nat.eqb _ 1).
    - eapply D; [do 6 right; now left|now left|discriminate].
    - eapply D; [do 7 right; now left|now left|discriminate]. }
  destruct (Nat.eqb _ 2).
  2: { injection H as <- <-. eapply D; [do 7 right; now left|now left|discriminate]. }
  destruct (forallb _ _).
  { injection H as <- <-. pose proof (classify_neutral_scheme r el) as E.
    eapply D; [do 1 right; now left| |].
    - cbn in E |- *. tauto.
    - intros X. rewrite X in E. cbn in E. intuition discriminate. }
  destruct (forallb _ _).
  { destruct (classify_positive r) as [x|] eqn:E; cbn [bind] in H; [|discriminate].
    injection H as <- <-. apply classify_positive_scheme in E.
    eapply D; [do 2 right; now left|exact E|]. intros ->. cbn in E. intuition discriminate. }
  destruct (forallb _ _).
  { destruct (classify_negative r el) as [x|] eqn:E; cbn [bind] in H; [|discriminate].
    injection H as <- <-. apply classify_negative_scheme in E.
    eapply D; [do 3 right; now left|exact E|]. intros ->. cbn in E. intuition discriminate. }
  destruct (forallb _ _).
  2: { injection H as <- <-. eapply D; [do 7 right; now left|now left|discriminate]. }
  destruct (forallb _ _).
  2: { injection H as <- <-. eapply D; [do 7 right; now left|now left|discriminate]. }
  injection H as <- H. subst c.
  exists ["neutralization"; "dissociative neutralization"; "unclassified ion - ion collisions"].
  split; [do 4 right; now left|].
  split; repeat match goal with |- context[if ?b then _ else _] => destruct b end; try leaf; discriminate.
Qed.

(** ** The table *)

Definition tab (sch : list (string * list string)) (f : string -> string -> list cr) : table :=
  map (fun tc => (fst tc, map (fun c => (c, f (fst tc) c)) (snd tc))) sch.

Definition upd (f : string -> string -> list cr) t c v : string -> string -> list cr :=
  fun t' c' => if pair_eqb (t', c') (t, c) then v else f t' c'.

Lemma pair_eqb_spec p q : pair_eqb p q = true <-> p = q.
Proof.
  destruct p as [a b], q as [c d]. unfold pair_eqb. cbn.
  rewrite andb_true_iff, !String.eqb_eq. split; [intros [-> ->]; reflexivity|intros H; injection H as -> ->; auto].
Qed.

Lemma cats_get c cats (g : string -> list cr) :
  In c cats -> sget c (map (fun c => (c, g c)) cats) = Some (g c).
Proof.
  induction cats as [|x cats IH]; [easy|]. cbn. intros [->|H].
  - now rewrite String.eqb_refl.
  - destruct (String.eqb c x) eqn:E; [apply String.eqb_eq in E; now subst|auto].
Qed.

Lemma cats_set c cats (g : string -> list cr) v :
  NoDup cats -> In c cats ->
  sset c v (map (fun c => (c, g c)) cats) = map (fun c' => (c', if String.eqb c' c then v else g c')) cats.
Proof.
  induction cats as [|x cats IH]; [easy|]. intros Hn. inversion Hn as [|? ? Hx Hn']; subst. cbn. intros [->|H].
  - rewrite String.eqb_refl. f_equal.
    apply map_ext_in. intros a Ha. destruct (String.eqb a c) eqn:E; [|reflexivity].
    apply String.eqb_eq in E. now subst.
  - destruct (String.eqb c x) eqn:E.
    + apply String.eqb_eq in E. now subst.
    + rewrite String.eqb_sym, E. f_equal. auto.
Qed.

Definition sch_ok (sch : list (string * list string)) : Prop :=
  NoDup (map fst sch) /\ forall t cats, In (t, cats) sch -> NoDup cats.

Lemma scheme_ok : sch_ok scheme.
Proof.
  split.
  - apply nodupSb_NoDup. reflexivity.
  - intros t cats H.
    assert (forallb (fun tc => nodupSb (snd tc)) scheme = true) as A by reflexivity.
    rewrite forallb_forall in A. apply A in H. now apply nodupSb_NoDup.
Qed.

Lemma tab_get sch f t cats :
  sch_ok sch -> In (t, cats) sch -> sget t (tab sch f) = Some (map (fun c => (c, f t c)) cats).
Proof.
  intros [Hn _] Hin. unfold tab. apply In_aget; [exact Seqb_spec| |].
  - unfold akeys. now rewrite map_map.
  - apply in_map_iff. now exists (t, cats).
Qed.

Lemma tab_set sch f t cats c v :
  sch_ok sch -> In (t, cats) sch -> In c cats ->
  sset t (sset c v (map (fun c => (c, f t c)) cats)) (tab sch f) = tab sch (upd f t c v).
Proof.
  intros [Hn Hc] Hin Hi. rewrite cats_set; [|now apply Hc with t|exact Hi].
  clear Hc. unfold tab. induction sch as [|[t' cats'] sch IH]; [easy|].
  cbn in Hn. inversion Hn as [|? ? Hx Hn']; subst. cbn [map fst snd aset].
  destruct Hin as [H|Hin].
  - injection H as -> ->. rewrite String.eqb_refl. f_equal.
    + f_equal. apply map_ext. intros c'. unfold upd, pair_eqb. cbn. now rewrite String.eqb_refl.
    + apply map_ext_in. intros [t' cats'] Ha. cbn. f_equal. apply map_ext. intros c'. unfold upd, pair_eqb. cbn.
      destruct (String.eqb t' t) eqn:E; [|reflexivity]. apply String.eqb_eq in E. subst t'.
      exfalso. apply Hx. apply in_map_iff. now exists (t, cats').
  - destruct (String.eqb t t') eqn:E.
    + apply String.eqb_eq in E. subst t'. exfalso. apply Hx. apply in_map_iff. now exists (t, cats).
    + f_equal; [|auto]. f_equal. apply map_ext. intros c'. unfold upd, pair_eqb. cbn.
      now rewrite String.eqb_sym, E.
Qed.

Definition classes (l : list cr) : table :=
  tab scheme (fun t c => filter (in_class (t, c)) l).

Lemma tab_ext sch f g : (forall t c, f t c = g t c) -> tab sch f = tab sch g.
Proof. intros H. apply map_ext. intros tc. f_equal. apply map_ext. intros c. now rewrite H. Qed.

Lemma classes_append l r t c :
  classify r = Ok (t, c) -> tbl_append t c r (classes l) = Ok (classes (l ++ [r])).
Proof.
  intros H. destruct (classify_scheme _ _ _ H) as (cats & Hs & Hc & _).
  unfold tbl_append, classes.
  rewrite (tab_get _ _ _ _ scheme_ok Hs).
  rewrite (cats_get _ _ (fun c => filter (in_class (t, c)) l) Hc).
  f_equal. rewrite (tab_set scheme (fun t c => filter (in_class (t, c)) l) t cats c _ scheme_ok Hs Hc).
  apply tab_ext. intros t' c'. unfold upd. rewrite filter_app. cbn [filter].
  replace (in_class (t', c') r) with (pair_eqb (t, c) (t', c')) by (unfold in_class; now rewrite H).
  destruct (pair_eqb (t', c') (t, c)) eqn:E.
  - apply pair_eqb_spec in E. injection E as -> ->.
    now rewrite (proj2 (pair_eqb_spec (t, c) (t, c)) eq_refl).
  - destruct (pair_eqb (t, c) (t', c')) eqn:E2.
    + apply pair_eqb_spec in E2. injection E2 as -> ->.
      now rewrite (proj2 (pair_eqb_spec (t', c') (t', c')) eq_refl) in E.
    + now rewrite app_nil_r.
Qed.

(** ** The memo of classifications is right *)
Definition memo_ok (rs : list cr) (k : clf) : Prop :=
  forall i tc r, zget i (k_class k) = Some tc -> In r rs -> cr_id r = i -> classify r = Ok tc.

Lemma classify_m_ok rs k r k' o :
  NoDup (map cr_id rs) -> memo_ok rs k -> In r rs -> classify_m k r = (k', o) ->
  o = classify r /\ memo_ok rs k' /\ k_species k' = k_species k /\ k_reactions k' = k_reactions k /\
  k_classified k' = k_classified k /\ k_align k' = k_align k /\ k_index k' = k_index k /\ k_names k' = k_names k.
Proof.
  intros Hn Hm Hr H. unfold classify_m in H.
  destruct (zget (cr_id r) (k_class k)) as [tc|] eqn:E.
  - injection H as <- <-. rewrite (Hm _ _ r E Hr eq_refl). auto 10.
  - destruct (classify r) as [tc|e] eqn:Ec; injection H as <- <-; [|auto 10].
    split; [reflexivity|]. split; [|auto 10].
    intros i tc' r' Hz Hr' Hi. cbn in Hz.
    destruct (Z.eq_dec i (cr_id r)) as [->|Hne].
    + rewrite (aget_aset_same Z.eqb Zeqb_spec) in Hz. injection Hz as <-.
      replace r' with r; [exact Ec|]. symmetry. now apply (NoDup_map_inj cr_id rs).
    + rewrite (aget_aset_other Z.eqb Zeqb_spec) in Hz by exact Hne. now apply (Hm i).
Qed.

Lemma populate_ok rs l done k k' o :
  NoDup (map cr_id rs) -> memo_ok rs k -> incl l rs -> k_classified k = classes done ->
  populate k l = (k', o) ->
  memo_ok rs k' /\ k_species k' = k_species k /\ k_reactions k' = k_reactions k /\ k_align k' = k_align k /\
  k_index k' = k_index k /\ k_names k' = k_names k /\
  match o with
  | Ok _ => (forall r, In r l -> exists tc, classify r = Ok tc) /\ k_classified k' = classes (done ++ l)
  | Err e => exists r, In r l /\ classify r = Err e
  end.
Proof.
  intros Hn. revert done k. induction l as [|r l IH]; intros done k Hm Hi Hd H; cbn [populate] in H.
  - injection H as <- <-. rewrite app_nil_r. split; [exact Hm|]. repeat (split; [reflexivity|]). split; [easy|exact Hd].
  - destruct (classify_m k r) as [k1 o1] eqn:E.
    destruct (classify_m_ok rs k r k1 o1 Hn Hm (Hi r (or_introl eq_refl)) E)
      as (Ho & Hm1 & Hs1 & Hr1 & Hc1 & Ha1 & Hi1 & Hn1).
    destruct o1 as [[t c]|e].
    + rewrite Hc1, Hd, (classes_append done r t c (eq_sym Ho)) in H.
      apply (IH (done ++ [r])) in H; [|exact Hm1|intros x Hx; apply Hi; now right|reflexivity].
      destruct H as (H1 & H2 & H3 & H4 & H5 & H6 & H7). cbn in H2, H3, H4, H5, H6.
      split; [exact H1|]. repeat (split; [congruence|]).
      destruct o as [[]|e].
      * destruct H7 as [Ha Hb]. split; [|now rewrite <- app_assoc in Hb].
        intros x [<-|Hx]; [exists (t, c); now symmetry|auto].
      * destruct H7 as (x & Hx & He). exists x. split; [now right|exact He].
    + injection H as <- <-. split; [exact Hm1|]. repeat (split; [assumption|]).
      exists r. split; [now left|now symmetry].
Qed.

Lemma empty_is_classes : empty_table = classes [].
Proof. reflexivity. Qed.

(** ** Buckets *)
Lemma buckets_tab sch f :
  buckets (tab sch f) =
  map (fun tc => (tc, f (fst tc) (snd tc))) (flat_map (fun tc => map (fun c => (fst tc, c)) (snd tc)) sch).
Proof.
  unfold buckets, tab. induction sch as [|[t cats] sch IH]; [reflexivity|].
  cbn [map flat_map fst snd]. rewrite map_app, IH. f_equal.
  rewrite !map_map. reflexivity.
Qed.

Lemma buckets_prune d : buckets (prune d) = filter (fun b => nonempty (snd b)) (buckets d).
Proof.
  unfold buckets, prune. induction d as [|[t cats] d IH]; [reflexivity|].
  cbn [map flat_map filter fst snd].
  rewrite filter_app, <- IH. clear IH.
  assert (filter (fun b => nonempty (snd b)) (map (fun cl => ((t, fst cl), snd cl)) cats) =
          map (fun cl : string * list cr => ((t, fst cl), snd cl)) (filter (fun cl => nonempty (snd cl)) cats)) as A.
  { induction cats as [|[c l] cats IH]; [reflexivity|]. cbn. destruct (nonempty l); cbn; now rewrite IH. }
  rewrite A. destruct (filter (fun cl => nonempty (snd cl)) cats); reflexivity.
Qed.

Definition expected (rs : list cr) : list ((string * string) * list cr) :=
  filter (fun b => nonempty (snd b)) (map (fun tc => (tc, filter (in_class tc) rs)) scheme_pairs).

Lemma buckets_classes rs : buckets (prune (classes rs)) = expected rs.
Proof.
  rewrite buckets_prune. unfold classes. rewrite buckets_tab. unfold expected, scheme_pairs.
  apply (f_equal (filter _)). apply map_ext. intros [t c]. reflexivity.
Qed.

Lemma prune_tab_no_empty d tc : In tc (prune d) -> snd tc <> [].
Proof.
  unfold prune. rewrite filter_In. intros [_ H] E. now rewrite E in H.
Qed.

Lemma get_classified_ok rs k k' o :
  NoDup (map cr_id rs) -> memo_ok rs k -> incl (k_reactions k) rs ->
  get_classified k = (k', o) ->
  memo_ok rs k' /\ k_species k' = k_species k /\ k_reactions k' = k_reactions k /\ k_align k' = k_align k /\
  k_index k' = k_index k /\ k_names k' = k_names k /\
  match o with
  | Ok d => (forall r, In r (k_reactions k) -> exists tc, classify r = Ok tc) /\
            k_classified k' = d /\ d = prune (classes (k_reactions k))
  | Err e => exists r, In r (k_reactions k) /\ classify r = Err e
  end.
Proof.
  intros Hn Hm Hi H. unfold get_classified in H.
  destruct (populate _ _) as [k1 o1] eqn:E.
  apply (populate_ok rs _ [] _ _ _ Hn) in E; [|exact Hm|exact Hi|reflexivity].
  destruct E as (H1 & H2 & H3 & H4 & H5 & H6 & H7). cbn in H2, H3, H4, H5, H6.
  destruct o1 as [[]|e]; injection H as <- <-;
    cbn [set_classified k_species k_reactions k_classified k_align k_index k_class k_names].
  - destruct H7 as [Ha Hb]. split; [exact H1|]. repeat (split; [assumption|]).
    split; [reflexivity|]. now rewrite Hb.
  - split; [exact H1|]. repeat (split; [assumption|]). exact H7.
Qed.

(** ** Other operations keep the invariant *)

Lemma species_index_frame k s k' o :
  species_index k s = (k', o) ->
  k_species k' = k_species k /\ k_reactions k' = k_reactions k /\ k_classified k' = k_classified k /\
  k_align k' = k_align k /\ k_class k' = k_class k /\ k_names k' = k_names k.
Proof.
  unfold species_index. intros H. destruct (zget _ _); [injection H as <- <-; auto 10|].
  destruct (index_of _ _ _); injection H as <- <-; auto 10.
Qed.

Lemma indices_frame l k k' o :
  indices k l = (k', o) ->
  k_species k' = k_species k /\ k_reactions k' = k_reactions k /\ k_classified k' = k_classified k /\
  k_align k' = k_align k /\ k_class k' = k_class k /\ k_names k' = k_names k /\
  (forall r, o = Ok r -> map snd r = l).
Proof.
  revert k k' o. induction l as [|s l IH]; intros k k' o H; cbn [indices] in H.
  - injection H as <- <-. repeat (split; [reflexivity|]). intros r Hr. now injection Hr as <-.
  - destruct (species_index k s) as [k1 o1] eqn:E. apply species_index_frame in E.
    destruct E as (A1 & A2 & A3 & A4 & A5 & A6). destruct o1 as [i|e].
    + destruct (indices k1 l) as [k2 o2] eqn:E. apply IH in E.
      destruct E as (B1 & B2 & B3 & B4 & B5 & B6 & B7).
      destruct o2 as [r|e]; injection H as <- <-; repeat (split; [congruence|]).
      * intros r' Hr. injection Hr as <-. cbn. now rewrite (B7 r eq_refl).
      * discriminate.
    + injection H as <- <-. repeat (split; [congruence|]). discriminate.
Qed.

Lemma sorted_side_frame l k k' o :
  sorted_side k l = (k', o) ->
  k_species k' = k_species k /\ k_reactions k' = k_reactions k /\ k_classified k' = k_classified k /\
  k_align k' = k_align k /\ k_class k' = k_class k /\ k_names k' = k_names k /\
  (forall r, o = Ok r -> Permutation (map snd r) l).
Proof.
  unfold sorted_side. destruct (indices k l) as [k1 o1] eqn:E. apply indices_frame in E.
  destruct E as (A1 & A2 & A3 & A4 & A5 & A6 & A7). intros H.
  destruct o1 as [r|e]; injection H as <- <-; repeat (split; [assumption|]); [|discriminate].
  intros r' Hr. injection Hr as <-. rewrite <- (A7 r eq_refl). apply Permutation_map. symmetry. apply isort_perm.
Qed.

Lemma reaction_keys_frame l k k' o :
  reaction_keys k l = (k', o) ->
  k_species k' = k_species k /\ k_reactions k' = k_reactions k /\ k_classified k' = k_classified k /\
  k_align k' = k_align k /\ k_class k' = k_class k /\
  (forall r, o = Ok r -> map snd r = l).
Proof.
  revert k k' o. induction l as [|s l IH]; intros k k' o H; cbn [reaction_keys] in H.
  - injection H as <- <-. repeat (split; [reflexivity|]). intros r Hr. now injection Hr as <-.
  - destruct (reaction_sort_key k s) as [k1 o1] eqn:E. unfold reaction_sort_key in E.
    destruct (sorted_side k (cr_lhs s)) as [ka oa] eqn:Ea. apply sorted_side_frame in Ea.
    destruct Ea as (A1 & A2 & A3 & A4 & A5 & A6 & A7).
    destruct oa as [a|e].
    2: { injection E as <- <-. injection H as <- <-. repeat (split; [congruence|]). discriminate. }
    destruct (sorted_side ka (cr_rhs s)) as [kb ob] eqn:Eb. apply sorted_side_frame in Eb.
    destruct Eb as (B1 & B2 & B3 & B4 & B5 & B6 & B7).
    destruct ob as [b|e].
    2: { injection E as <- <-. injection H as <- <-. repeat (split; [congruence|]). discriminate. }
    injection E as <- <-.
    destruct (reaction_keys _ l) as [k2 o2] eqn:E. apply IH in E.
    destruct E as (C1 & C2 & C3 & C4 & C5 & C6). cbn in C1, C2, C3, C4, C5.
    destruct o2 as [r|e]; injection H as <- <-; repeat (split; [congruence|]); [|discriminate].
    intros r' Hr. injection Hr as <-. cbn. now rewrite (C6 r eq_refl).
Qed.

Lemma sort_reactions_frame k k' o :
  sort_reactions k = (k', o) ->
  k_species k' = k_species k /\ Permutation (k_reactions k') (k_reactions k) /\ k_align k' = k_align k /\
  k_class k' = k_class k.
Proof.
  unfold sort_reactions. intros H.
  destruct (reaction_keys k (k_reactions k)) as [k1 o1] eqn:E. apply reaction_keys_frame in E.
  destruct E as (A1 & A2 & A3 & A4 & A5 & A6).
  destruct o1 as [ks|e]; injection H as <- <-; cbn.
  - repeat (split; [assumption|]). split; [|auto].
    rewrite <- (A6 ks eq_refl). apply Permutation_map. symmetry. apply isort_perm.
  - split; [assumption|]. split; [now rewrite A2|auto].
Qed.

Lemma sorted_names_frame k r k' o :
  sorted_names k r = (k', o) ->
  k_species k' = k_species k /\ k_reactions k' = k_reactions k /\ k_classified k' = k_classified k /\
  k_align k' = k_align k /\ k_class k' = k_class k.
Proof.
  unfold sorted_names. intros H. destruct (zget _ _); [injection H as <- <-; auto 10|].
  destruct (sorted_side k (cr_lhs r)) as [ka oa] eqn:Ea. apply sorted_side_frame in Ea.
  destruct Ea as (A1 & A2 & A3 & A4 & A5 & A6 & A7).
  destruct oa as [a|e]; [|injection H as <- <-; auto 10].
  destruct (sorted_side ka (cr_rhs r)) as [kb ob] eqn:Eb. apply sorted_side_frame in Eb.
  destruct Eb as (B1 & B2 & B3 & B4 & B5 & B6 & B7).
  destruct ob as [b|e]; injection H as <- <-; cbn; repeat split; congruence.
Qed.

Lemma widths_frame l k acc k' o :
  widths k l acc = (k', o) ->
  k_species k' = k_species k /\ k_reactions k' = k_reactions k /\ k_classified k' = k_classified k /\
  k_align k' = k_align k /\ k_class k' = k_class k.
Proof.
  revert k acc. induction l as [|r l IH]; intros k acc H; cbn [widths] in H.
  - injection H as <- <-; auto 10.
  - destruct (sorted_names k r) as [k1 o1] eqn:E. apply sorted_names_frame in E.
    destruct E as (A1 & A2 & A3 & A4 & A5). destruct o1 as [[a b]|e].
    + apply IH in H. destruct H as (B1 & B2 & B3 & B4 & B5). repeat split; congruence.
    + injection H as <- <-; auto 10.
Qed.

Lemma get_aligned_frame rs k r k' o :
  NoDup (map cr_id rs) -> memo_ok rs k -> In r rs -> get_aligned k r = (k', o) ->
  memo_ok rs k' /\ k_species k' = k_species k /\ k_reactions k' = k_reactions k /\
  k_classified k' = k_classified k.
Proof.
  intros Hn Hm Hr H. unfold get_aligned in H.
  destruct (classify_m k r) as [k1 o1] eqn:E.
  destruct (classify_m_ok _ _ _ _ _ Hn Hm Hr E) as (Ho & Hm1 & A1 & A2 & A3 & _).
  destruct o1 as [[t c]|e].
  2: { injection H as <- <-. auto. }
  cbv zeta in H.
  match type of H with (match ?x with _ => _ end) = _ => destruct x as [k2 o2] eqn:E2 end.
  assert (memo_ok rs k2 /\ k_species k2 = k_species k1 /\ k_reactions k2 = k_reactions k1 /\
          k_classified k2 = k_classified k1) as (B0 & B1 & B2 & B3).
  { destruct (aget pair_eqb (t, c) (k_align k1)); [injection E2 as <- <-; auto|].
    destruct (sget t (k_classified k1)) as [cats|]; [|injection E2 as <- <-; auto].
    destruct (sget c cats) as [l|]; [|injection E2 as <- <-; auto].
    destruct (widths k1 l ([], [])) as [k3 o3] eqn:E3. apply widths_frame in E3.
    destruct E3 as (C1 & C2 & C3 & C4 & C5).
    destruct o3; injection E2 as <- <-; unfold memo_ok; cbn; rewrite C5; auto. }
  assert (k' = k2) as ->.
  { destruct o2 as [[wl wr]|e]; [|injection H as <- <-; reflexivity].
    destruct (zget _ _) as [[a b]|]; injection H as <- <-; reflexivity. }
  split; [exact B0|]. repeat split; congruence.
Qed.

Lemma mapM_key_snd {A K} (f : A -> res K) l ks :
  mapM (fun a => let* k := f a in Ok (k, a)) l = Ok ks ->
  map snd ks = l /\ forall k a, In (k, a) ks -> f a = Ok k.
Proof.
  revert ks. induction l as [|a l IH]; cbn [mapM]; intros ks H.
  - injection H as <-. easy.
  - destruct (f a) as [k|e] eqn:E; cbn [bind] in H; [|discriminate].
    destruct (mapM _ l) as [ks'|e]; cbn [bind] in H; [|discriminate]. injection H as <-.
    destruct (IH ks' eq_refl) as [H1 H2]. split; [cbn; now rewrite H1|].
    intros k' a' [H|H]; [now injection H as <- <-|auto].
Qed.

Lemma sort_species_frame k k' o :
  sort_species k = (k', o) ->
  Permutation (k_species k') (k_species k) /\ k_reactions k' = k_reactions k /\ k_align k' = k_align k /\
  k_class k' = k_class k /\ k_names k' = k_names k.
Proof.
  unfold sort_species. intros H. destruct (sort_by _ _ _) as [l|e] eqn:E; injection H as <- <-; cbn.
  - split; [|auto]. unfold sort_by in E.
    destruct (mapM _ _) as [ks|] eqn:Em; cbn [bind] in E; [|discriminate]. injection E as <-.
    apply mapM_key_snd in Em. destruct Em as [Em _]. rewrite <- Em.
    apply Permutation_map. symmetry. apply isort_perm.
  - auto.
Qed.

Definition good (sps : list cs) (rs : list cr) (k : clf) : Prop :=
  memo_ok rs k /\ Permutation (k_species k) sps /\ Permutation (k_reactions k) rs.

Lemma step_good sps rs k o :
  NoDup (map cr_id rs) -> good sps rs k -> (forall r, o = OAligned r -> In r rs) -> good sps rs (step k o).
Proof.
  intros Hn (H1 & H2 & H3) Ho.
  assert (incl (k_reactions k) rs) as Hi by (intros x Hx; now apply (Permutation_in x H3)).
  destruct o as [| | |r]; cbn [step].
  - destruct (sort_species k) as [k' o] eqn:E. cbn [fst]. apply sort_species_frame in E.
    destruct E as (A & B & _ & C & _). split; [unfold memo_ok; now rewrite C|].
    split; [now rewrite A|now rewrite B].
  - destruct (sort_reactions k) as [k' o] eqn:E. cbn [fst]. apply sort_reactions_frame in E.
    destruct E as (A & B & _ & C). split; [unfold memo_ok; now rewrite C|].
    split; [now rewrite A|now rewrite B].
  - destruct (get_classified k) as [k' o] eqn:E. cbn [fst].
    apply (get_classified_ok rs _ _ _ Hn H1 Hi) in E. destruct E as (A & B & C & _).
    split; [exact A|]. split; [now rewrite B|now rewrite C].
  - destruct (get_aligned k r) as [k' o] eqn:E. cbn [fst].
    apply (get_aligned_frame rs _ _ _ _ Hn H1 (Ho r eq_refl)) in E. destruct E as (A & B & C & _).
    split; [exact A|]. split; [now rewrite B|now rewrite C].
Qed.

Lemma run_good sps rs k h :
  NoDup (map cr_id rs) -> good sps rs k -> ops_of rs h -> good sps rs (run k h).
Proof.
  intros Hn. unfold run. revert k. induction h as [|o h IH]; intros k Hk Ho; [exact Hk|].
  cbn [fold_left]. apply IH.
  - apply step_good; [exact Hn|exact Hk|]. intros r ->. apply Ho. now left.
  - intros r Hr. apply Ho. now right.
Qed.

Lemma new_good sps rs : good sps rs (clf_new sps rs).
Proof. split; [intros i tc r H; discriminate H|]. split; reflexivity. Qed.

(** C25 *)
Lemma classification_partitions sps rs h d k' :
  NoDup (map cr_id rs) -> ops_of rs h ->
  let k := run (clf_new sps rs) h in
  get_classified k = (k', Ok d) ->
  Permutation (k_reactions k) rs /\ Permutation (k_species k) sps /\ k_reactions k' = k_reactions k /\
  (forall r, In r rs -> exists tc, classify r = Ok tc /\ In tc scheme_pairs) /\
  (forall tc, In tc d -> snd tc <> []) /\
  buckets d = filter (fun b => nonempty (snd b))
                     (map (fun tc => (tc, filter (in_class tc) (k_reactions k))) scheme_pairs).
Proof.
  intros Hn Ho k H. destruct (run_good sps rs _ h Hn (new_good sps rs) Ho) as (Hm & Hs & Hr).
  fold k in Hm, Hs, Hr.
  assert (incl (k_reactions k) rs) as Hi by (intros x Hx; now apply (Permutation_in x Hr)).
  apply (get_classified_ok rs _ _ _ Hn Hm Hi) in H.
  destruct H as (_ & _ & Hk & _ & _ & _ & Hc & _ & ->).
  split; [exact Hr|]. split; [exact Hs|]. split; [exact Hk|]. split.
  - intros r H. destruct (Hc r) as [[t c] E]; [now apply (Permutation_in r (Permutation_sym Hr))|].
    exists (t, c). split; [exact E|]. destruct (classify_scheme _ _ _ E) as (cats & A & B & _).
    unfold scheme_pairs. apply in_flat_map. exists (t, cats). split; [exact A|].
    apply in_map_iff. now exists c.
  - split; [intros tc; apply prune_tab_no_empty|].
    generalize (k_reactions k). intros l. rewrite buckets_classes. reflexivity.
Qed.

Lemma classification_total sps rs h :
  NoDup (map cr_id rs) -> ops_of rs h ->
  (exists k' d, get_classified (run (clf_new sps rs) h) = (k', Ok d)) <->
  (forall r, In r rs -> exists tc, classify r = Ok tc).
Proof.
  intros Hn Ho. set (k := run (clf_new sps rs) h).
  destruct (run_good sps rs _ h Hn (new_good sps rs) Ho) as (Hm & Hs & Hr).
  fold k in Hm, Hs, Hr.
  assert (incl (k_reactions k) rs) as Hi by (intros x Hx; now apply (Permutation_in x Hr)).
  destruct (get_classified k) as [k' o] eqn:E.
  apply (get_classified_ok rs _ _ _ Hn Hm Hi) in E.
  destruct E as (_ & _ & _ & _ & _ & _ & Hc). split.
  - intros (k2 & d & H). injection H as <- ->. destruct Hc as [Hc _].
    intros r Hx. apply Hc. now apply (Permutation_in r (Permutation_sym Hr)).
  - intros H. destruct o as [d|e]; [now exists k', d|].
    destruct Hc as (r & Hx & He). apply Hi in Hx. destruct (H r Hx) as [tc Htc]. congruence.
Qed.

Lemma scheme_pairs_nodup : NoDup scheme_pairs.
Proof.
  assert (forall l : list (string * string),
             (fix nd l := match l with [] => true | x :: l' => negb (existsb (pair_eqb x) l') && nd l' end) l = true ->
             NoDup l) as A.
  { induction l as [|x l IH]; [constructor|]. intros H. apply andb_true_iff in H as [H1 H2].
    constructor; [|auto]. intros Hin. apply negb_true_iff in H1.
    assert (existsb (pair_eqb x) l = true) by (apply existsb_exists; exists x; split; [exact Hin|now apply pair_eqb_spec]).
    congruence. }
  apply A. reflexivity.
Qed.

Lemma filter_concat_perm {A} (f : A -> string * string) (ps : list (string * string)) (l : list A) :
  NoDup ps -> (forall a, In a l -> In (f a) ps) ->
  Permutation (List.concat (map (fun p => filter (fun a => pair_eqb (f a) p) l) ps)) l.
Proof.
  intros Hn. induction l as [|a l IH]; intros H.
  - clear. induction ps; cbn; auto.
  - cbn [filter].
    assert (Permutation (a :: List.concat (map (fun p => filter (fun x => pair_eqb (f x) p) l) ps))
      (List.concat (map (fun p => if pair_eqb (f a) p then a :: filter (fun x => pair_eqb (f x) p) l
                                  else filter (fun x => pair_eqb (f x) p) l) ps))) as P.
    { specialize (H a (or_introl eq_refl)). clear IH. revert Hn H.
      induction ps as [|p ps IHp]; intros Hn H; [easy|]. inversion Hn as [|? ? Hp Hn']; subst.
      cbn [map List.concat]. destruct (pair_eqb (f a) p) eqn:E.
      - apply pair_eqb_spec in E. cbn [app]. constructor. apply Permutation_app_head.
        replace (map (fun p0 => if pair_eqb (f a) p0 then a :: filter (fun x => pair_eqb (f x) p0) l
                                else filter (fun x => pair_eqb (f x) p0) l) ps)
          with (map (fun p0 => filter (fun x => pair_eqb (f x) p0) l) ps); [reflexivity|].
        apply map_ext_in. intros q Hq. destruct (pair_eqb (f a) q) eqn:E2; [|reflexivity].
        apply pair_eqb_spec in E2. exfalso. apply Hp. congruence.
      - destruct H as [H|H]; [symmetry in H; apply pair_eqb_spec in H; congruence|].
        rewrite Permutation_middle. apply Permutation_app_head. auto. }
    rewrite <- P. constructor. apply IH. intros b Hb. apply H. now right.
Qed.

Lemma concat_filter_nonempty {A B} (l : list (A * list B)) :
  List.concat (map snd (filter (fun b => nonempty (snd b)) l)) = List.concat (map snd l).
Proof.
  induction l as [|[a b] l IH]; [reflexivity|]. cbn. destruct b; cbn; now rewrite IH.
Qed.

Lemma classification_complete sps rs h d k' :
  NoDup (map cr_id rs) -> ops_of rs h ->
  get_classified (run (clf_new sps rs) h) = (k', Ok d) ->
  NoDup (map fst (buckets d)) /\ Permutation (List.concat (map snd (buckets d))) rs.
Proof.
  intros Hn Ho H. destruct (classification_partitions sps rs h d k' Hn Ho H) as (Hr & _ & _ & Hc & _ & ->).
  split.
  - apply NoDup_map_filter.
    rewrite map_map. cbn [fst]. rewrite map_id. apply scheme_pairs_nodup.
  - rewrite concat_filter_nonempty, map_map. cbn [snd].
    set (l := k_reactions _) in *.
    pose (f := fun r => match classify r with Ok p => p | Err _ => ("", "") end).
    transitivity l; [|exact Hr].
    replace (map (fun tc => filter (in_class tc) l) scheme_pairs)
      with (map (fun p => filter (fun a => pair_eqb (f a) p) l) scheme_pairs).
    + apply (filter_concat_perm f scheme_pairs l scheme_pairs_nodup).
      intros r Hx. destruct (Hc r) as (tc & E & Hp); [now apply (Permutation_in r Hr)|].
      unfold f. now rewrite E.
    + apply map_ext. intros p. apply filter_ext_in. intros r Hx. unfold f, in_class.
      destruct (Hc r) as (tc & E & _); [now apply (Permutation_in r Hr)|]. now rewrite E.
Qed.
