(** Names, datasets and objects of the QDB database. *)
From Coq Require Import Permutation.
From Verif Require Import Base BaseLemmas Species Reactions MolSpec SpeciesProofs ReactionProofs Classification Xml XmlSpec XmlProofs XmlRead XmlReact XmlRound
  XmlMain Qdb QdbSpec.

(** ** Names *)
Lemma ends_with_spec suf l : ends_with suf l = true <-> exists x, l = x ++ suf.
Proof.
  unfold ends_with.
  assert (P : forall p s, prefixb p s = true <-> exists x, s = p ++ x).
  { induction p as [|c p IH]; intros s; cbn [prefixb].
    - split; [intros _; exists s; reflexivity|reflexivity].
    - destruct s as [|d s]; [split; [discriminate|intros (x & H); discriminate]|]. rewrite Bool.andb_true_iff, IH, Ascii.eqb_eq. split.
      + intros [-> (x & ->)]. exists x. reflexivity.
      + intros (x & H). injection H as -> ->. split; [reflexivity|eauto]. }
  rewrite P. split; intros (x & H).
  - exists (rev x). apply (f_equal (@rev _)) in H. rewrite rev_involutive, rev_app_distr, rev_involutive in H. exact H.
  - exists (rev x). rewrite H, rev_app_distr. reflexivity.
Qed.

Lemma str_of_app a b : str_of (a ++ b) = (str_of a ++ str_of b)%string.
Proof. induction a as [|c a IH]; cbn; [reflexivity|]. now rewrite IH. Qed.
Lemma chars_inj a b : chars a = chars b -> a = b.
Proof. intros H. rewrite <- (str_of_chars a), <- (str_of_chars b). now rewrite H. Qed.

Definition endings : list (ascii * (ascii * nat)) := [("+", ("2", 2%nat)); ("+", ("3", 3%nat)); ("-", ("2", 2%nat)); ("-", ("3", 3%nat))]%char.

Lemma spell_none l ps : (forall p, In p ps -> ends_with [fst p; fst (snd p)] l = false) -> fold_left spell_charge ps l = l.
Proof.
  induction ps as [|p ps IH]; intros H; cbn [fold_left]; [reflexivity|]. unfold spell_charge at 2. cbv zeta. rewrite (H p (or_introl eq_refl)).
  apply IH. intros; apply H; now right.
Qed.

Lemma ends_app x c d c' d' : ends_with [c; d] (x ++ [c'; d']) = (Ascii.eqb c c' && Ascii.eqb d d').
Proof.
  unfold ends_with. rewrite rev_app_distr. cbn [rev app prefixb]. rewrite Bool.andb_true_r. apply Bool.andb_comm.
Qed.

Lemma spell_one x p : In p endings -> fold_left spell_charge endings (x ++ [fst p; fst (snd p)]) = x ++ repeat (fst p) (snd (snd p)).
Proof.
  assert (F : forall c d, firstn (List.length (x ++ [c; d]) - List.length [c; d]) (x ++ [c; d]) = x).
  { intros. rewrite app_length, Nat.add_sub, firstn_app, firstn_all, Nat.sub_diag. cbn [firstn]. apply app_nil_r. }
  assert (G : forall c k d, (d = "2" \/ d = "3")%char -> (c = "+" \/ c = "-")%char -> forall c', ends_with [c'; d] (x ++ repeat c (S k)) = false).
  { intros c k d Hd Hc c'. apply Bool.not_true_iff_false. intros H. apply ends_with_spec in H as (y & H).
    apply (f_equal (fun l => last l " "%char)) in H. change (repeat c (S k)) with (c :: repeat c k) in H. rewrite repeat_cons in H.
    change [c'; d] with ([c'] ++ [d]) in H. rewrite !app_assoc, !last_last in H. subst c. destruct Hd, Hc; congruence. }
  assert (S1 : forall c d c' d' k, spell_charge (x ++ [c; d]) (c', (d', k)) = if Ascii.eqb c' c && Ascii.eqb d' d then x ++ repeat c' k else x ++ [c; d]).
  { intros. unfold spell_charge. cbn [fst snd]. cbv zeta. rewrite ends_app. destruct (Ascii.eqb_spec c' c) as [->|]; [|reflexivity]. destruct (Ascii.eqb_spec d' d) as [->|]; [|reflexivity]. cbn [andb]. f_equal. apply F. }
  assert (S2 : forall c k p, (c = "+" \/ c = "-")%char -> In p endings -> spell_charge (x ++ repeat c (S k)) p = x ++ repeat c (S k)).
  { intros c k p' Hc Hp'. unfold spell_charge. cbv zeta. rewrite G; [reflexivity| |exact Hc]. cbn in Hp'.
    repeat (destruct Hp' as [<-|Hp']; [cbn; tauto|]). contradiction. }
  intros Hp. cbn in Hp. unfold endings. cbn [fold_left].
  repeat (destruct Hp as [<-|Hp]; [cbn [fst snd]|]); [| | | |contradiction];
    repeat (rewrite S1; match goal with |- context [if ?t then _ else _] => let v := eval vm_compute in t in change t with v end; cbv iota);
    rewrite ?S2; try reflexivity; try tauto; cbn; tauto.
Qed.

Lemma stateless_eq q n : stateless_name (q_formula q) n <-> n = qdb_stateless q.
Proof.
  unfold qdb_stateless, electron_name. fold endings.
  assert (SP : forall short long, In (short, long) spellings -> exists p, In p endings /\ chars short = [fst p; fst (snd p)] /\ long = str_of (repeat (fst p) (snd (snd p)))).
  { intros short long H. cbn in H. destruct H as [H|[H|[H|[H|[]]]]]; injection H as <- <-.
    - exists ("+", ("2", 2%nat))%char. cbn. repeat split. now left.
    - exists ("+", ("3", 3%nat))%char. cbn. repeat split. now right; left.
    - exists ("-", ("2", 2%nat))%char. cbn. repeat split. now right; right; left.
    - exists ("-", ("3", 3%nat))%char. cbn. repeat split. now right; right; right; left. }
  assert (PS : forall p, In p endings -> In (str_of [fst p; fst (snd p)], str_of (repeat (fst p) (snd (snd p)))) spellings).
  { intros p H. cbn in H. repeat (destruct H as [<-|H]; [cbn; tauto|]). contradiction. }
  split.
  - intros [[-> ->]|[(x & short & long & Hi & Hf & ->)|(N1 & N2 & ->)]].
    + reflexivity.
    + destruct (SP _ _ Hi) as (p & Hp & Hs & ->). assert (String.eqb (q_formula q) "e-" = false) as ->.
      { apply String.eqb_neq. intros He. rewrite Hf in He. apply (f_equal chars) in He. rewrite chars_app, Hs in He.
        apply (f_equal (fun l => last l " "%char)) in He. change [fst p; fst (snd p)] with ([fst p] ++ [fst (snd p)]) in He. rewrite app_assoc, last_last in He.
        cbn in Hp. repeat (destruct Hp as [<-|Hp]; [discriminate He|]). contradiction. }
      rewrite Hf, chars_app, Hs, (spell_one _ _ Hp), str_of_app, str_of_chars. reflexivity.
    + apply String.eqb_neq in N1. rewrite N1, spell_none; [now rewrite str_of_chars|]. intros p Hp. apply Bool.not_true_iff_false. intros H.
      apply ends_with_spec in H as (y & H). apply (N2 (str_of y) _ _ (PS p Hp)). rewrite <- str_of_app, <- H. now rewrite str_of_chars.
  - intros ->. destruct (String.eqb_spec (q_formula q) "e-") as [->|N1]; [left; split; reflexivity|]. right.
    destruct (existsb (fun p => ends_with [fst p; fst (snd p)] (chars (q_formula q))) endings) eqn:Ee.
    + left. apply existsb_exists in Ee as (p & Hp & He). apply ends_with_spec in He as (y & Hy). exists (str_of y), (str_of [fst p; fst (snd p)]), (str_of (repeat (fst p) (snd (snd p)))).
      split; [now apply PS|]. split; [rewrite <- str_of_app, <- Hy; now rewrite str_of_chars|]. rewrite Hy, (spell_one _ _ Hp). apply str_of_app.
    + right. split; [exact N1|]. assert (NE : forall p, In p endings -> ends_with [fst p; fst (snd p)] (chars (q_formula q)) = false).
      { intros p Hp. apply Bool.not_true_iff_false. intros H. apply Bool.not_true_iff_false in Ee. apply Ee. apply existsb_exists. eauto. }
      split; [|rewrite spell_none by exact NE; now rewrite str_of_chars].
      intros x short long Hi Hf. destruct (SP _ _ Hi) as (p & Hp & Hs & _). specialize (NE p Hp). apply Bool.not_true_iff_false in NE. apply NE.
      apply ends_with_spec. exists (chars x). now rewrite Hf, chars_app, Hs.
Qed.

Lemma strip_stars l : rstrip_l is_star (lstrip_l is_star l) = [] <-> forall c, In c l -> c = "*"%char.
Proof.
  assert (L : forall l, (forall c, In c l -> c = "*"%char) -> lstrip_l is_star l = []).
  { induction l0 as [|c l0 IH]; intros H; [reflexivity|]. cbn [lstrip_l]. unfold is_star. rewrite (H c (or_introl eq_refl)). cbn. apply IH. intros; apply H; now right. }
  assert (L' : forall l, lstrip_l is_star l = [] -> forall c, In c l -> c = "*"%char).
  { induction l0 as [|c l0 IH]; intros H d Hd; [destruct Hd|]. cbn [lstrip_l] in H. destruct (is_star c) eqn:Ec; [|discriminate].
    destruct Hd as [<-|Hd]; [now apply Ascii.eqb_eq in Ec|now apply IH]. }
  split.
  - intros H. unfold rstrip_l in H. apply (f_equal (@rev _)) in H. rewrite rev_involutive in H. cbn [rev] in H.
    assert (A : forall c, In c (lstrip_l is_star l) -> c = "*"%char) by (intros c Hc; apply (L' _ H); now apply in_rev in Hc).
    destruct (lstrip_l is_star l) as [|c l'] eqn:El; [now apply L'|]. exfalso. specialize (A c (or_introl eq_refl)). subst c.
    clear -El. induction l as [|d l IH]; [discriminate|]. cbn [lstrip_l] in El. destruct (is_star d) eqn:Ed; [now apply IH|]. injection El as -> _. discriminate Ed.
  - intros H. rewrite (L l H). reflexivity.
Qed.

Lemma state_eq q s : state_text (q_states q) s <-> s = qdb_state q.
Proof.
  unfold state_text, qdb_state. cbv zeta. pose proof (strip_stars (chars (str_join "," (q_states q)))) as S. fold (only_stars (str_join "," (q_states q))) in S.
  destruct (rstrip_l is_star (lstrip_l is_star (chars (str_join "," (q_states q))))) as [|c l].
  - assert (O : only_stars (str_join "," (q_states q))) by (now apply S). intuition.
  - assert (O : ~ only_stars (str_join "," (q_states q))) by (intros O; apply S in O; discriminate). intuition.
Qed.

Lemma qname_eq q n : qname q n <-> n = qdb_name q.
Proof.
  unfold qname, qdb_name. split.
  - intros (a & s & Ha & Hs & ->). apply stateless_eq in Ha. apply state_eq in Hs. now subst.
  - intros ->. exists (qdb_stateless q), (qdb_state q). split; [now apply stateless_eq|]. split; [now apply state_eq|reflexivity].
Qed.

Lemma qnames_eq l ns : Forall2 qname l ns -> ns = map qdb_name l.
Proof. induction 1 as [|q n l ns H F IH]; [reflexivity|]. cbn. apply qname_eq in H. now subst. Qed.
