(** Lines of an HPEM file are taken apart as they were put together. *)
From Verif Require Import Base BaseLemmas Species Reactions MolSpec Xml XmlSpec Hpem HpemSpec.

Notation sp_ok := (fun c => is_space c = true).

Definition spaces (l : list ascii) : Prop := forall c, In c l -> is_space c = true.
Definition no_spaces (l : list ascii) : Prop := forall c, In c l -> is_space c = false.

Lemma chars_app s t : chars (s ++ t) = chars s ++ chars t.
Proof. induction s as [|c s IH]; cbn; [reflexivity|]. now rewrite IH. Qed.
Lemma chars_str_of l : chars (str_of l) = l.
Proof. induction l as [|c l IH]; cbn; [reflexivity|]. now rewrite IH. Qed.
Lemma str_of_chars s : str_of (chars s) = s.
Proof. induction s as [|c s IH]; cbn; [reflexivity|]. now rewrite IH. Qed.

(** ** Stripping *)
Lemma lstrip_spaces a l : spaces a -> lstrip_l is_space (a ++ l) = lstrip_l is_space l.
Proof. induction a as [|c a IH]; intros H; cbn; [reflexivity|]. rewrite (H c (or_introl eq_refl)). apply IH. intros x Hx. apply H. now right. Qed.
Lemma lstrip_incl l : incl (lstrip_l is_space l) l.
Proof. induction l as [|c l IH]; cbn; [apply incl_refl|]. destruct (is_space c); [apply incl_tl, IH|apply incl_refl]. Qed.
Lemma lstrip_stop c l : is_space c = false -> lstrip_l is_space (c :: l) = c :: l.
Proof. intros H. cbn. now rewrite H. Qed.
Lemma lstrip_length l : (List.length (lstrip_l is_space l) <= List.length l)%nat.
Proof. induction l as [|c l IH]; cbn; [lia|]. destruct (is_space c); cbn; lia. Qed.
Lemma lstrip_eq l : List.length (lstrip_l is_space l) = List.length l -> lstrip_l is_space l = l.
Proof. destruct l as [|c l]; cbn; [reflexivity|]. destruct (is_space c); [|reflexivity]. pose proof (lstrip_length l). lia. Qed.
Lemma lstrip_mid c l m : is_space c = false -> lstrip_l is_space (l ++ c :: m) = lstrip_l is_space l ++ c :: m.
Proof.
  intros H. induction l as [|x l IH]; cbn; [now rewrite H|]. destruct (is_space x) eqn:Hx; [exact IH|reflexivity].
Qed.

Lemma rstrip_spaces l b : spaces b -> rstrip_l is_space (l ++ b) = rstrip_l is_space l.
Proof. intros H. unfold rstrip_l. rewrite rev_app_distr, lstrip_spaces; [reflexivity|]. intros c Hc. apply H. now apply in_rev. Qed.
Lemma rstrip_mid l d m : is_space d = false -> rstrip_l is_space (l ++ d :: m) = l ++ d :: rstrip_l is_space m.
Proof.
  intros H. unfold rstrip_l. rewrite rev_app_distr. cbn [rev]. rewrite <- app_assoc. cbn [app]. rewrite lstrip_mid by exact H.
  rewrite rev_app_distr. cbn [rev]. rewrite rev_involutive, <- app_assoc. reflexivity.
Qed.
Lemma rstrip_incl l : incl (rstrip_l is_space l) l.
Proof. intros c H. unfold rstrip_l in H. apply in_rev in H. apply lstrip_incl in H. now apply in_rev. Qed.

(** Without white space at either end. *)
Definition tight (l : list ascii) : Prop := lstrip_l is_space l = l /\ rstrip_l is_space l = l.
Lemma strip_tight s : str_strip s = s <-> tight (chars s).
Proof.
  unfold str_strip, tight. split.
  - intros H. apply (f_equal chars) in H. rewrite chars_str_of in H. set (l := chars s) in *.
    assert (L : lstrip_l is_space l = l).
    { apply lstrip_eq. pose proof (lstrip_length l). pose proof (lstrip_length (rev (lstrip_l is_space l))) as H1.
      unfold rstrip_l in H. apply (f_equal (@List.length _)) in H. rewrite rev_length in H. rewrite rev_length in H1. lia. }
    rewrite L in H. auto.
  - intros [H1 H2]. rewrite H1, H2. apply str_of_chars.
Qed.
Lemma tight_nil : tight []. Proof. split; reflexivity. Qed.
Lemma tight_ends x l z : is_space x = false -> is_space z = false -> l = [] \/ (exists m, l = m ++ [z]) -> tight (x :: l).
Proof.
  intros Hx Hz H. split; [now apply lstrip_stop|]. destruct H as [->|[m ->]].
  - exact (rstrip_mid [] x [] Hx).
  - exact (rstrip_mid (x :: m) z [] Hz).
Qed.
Lemma tight_inv l : tight l -> l = [] \/ exists x m z, is_space x = false /\ is_space z = false /\ l = x :: m /\ exists n, l = n ++ [z].
Proof.
  intros [H1 H2]. destruct l as [|x m]; [now left|]. right. exists x, m.
  assert (is_space x = false) as Hx.
  { destruct (is_space x) eqn:E; [|reflexivity]. cbn in H1. rewrite E in H1. apply (f_equal (@List.length _)) in H1. pose proof (lstrip_length m). cbn in H1. lia. }
  destruct (exists_last (l := x :: m) ltac:(discriminate)) as (n & z & Hn). exists z. split; [exact Hx|].
  split; [|split; [reflexivity|exists n; exact Hn]].
  rewrite Hn in H2. unfold rstrip_l in H2. rewrite rev_app_distr in H2. cbn in H2. destruct (is_space z); [|reflexivity].
  apply (f_equal (@List.length _)) in H2. rewrite rev_length, app_length in H2. cbn in H2. pose proof (lstrip_length (rev n)) as HL. rewrite rev_length in HL. lia.
Qed.

Definition padded (w f : list ascii) : Prop := exists a b, spaces a /\ spaces b /\ f = a ++ w ++ b.
Lemma spaced_padded w f : spaced w f <-> padded (chars w) (chars f).
Proof.
  split.
  - intros (a & b & Ha & Hb & ->). exists (chars a), (chars b). rewrite !chars_app. auto.
  - intros (a & b & Ha & Hb & H). exists (str_of a), (str_of b). unfold blank. rewrite !chars_str_of. split; [exact Ha|]. split; [exact Hb|].
    rewrite <- (str_of_chars f), H. rewrite <- (str_of_chars (_ ++ _)), !chars_app, !chars_str_of. reflexivity.
Qed.

Lemma all_spaces_strip l : spaces l -> rstrip_l is_space l = [] /\ lstrip_l is_space l = [].
Proof.
  intros H. split; [rewrite <- (app_nil_l l); now rewrite rstrip_spaces|]. rewrite <- (app_nil_r l). now rewrite lstrip_spaces.
Qed.
Lemma strip_padded w f : tight w -> padded w f -> rstrip_l is_space (lstrip_l is_space f) = w.
Proof.
  intros T (a & b & Ha & Hb & ->). rewrite lstrip_spaces by exact Ha. destruct (tight_inv _ T) as [->|(x & m & z & Hx & _ & -> & _)].
  - cbn [app]. rewrite (proj2 (all_spaces_strip b Hb)). reflexivity.
  - cbn [app]. rewrite lstrip_stop by exact Hx. change (x :: m ++ b) with ((x :: m) ++ b). rewrite rstrip_spaces by exact Hb. apply T.
Qed.
Lemma padded_lstrip w f : tight w -> padded w f -> padded w (lstrip_l is_space f).
Proof.
  intros T (a & b & Ha & Hb & ->). rewrite lstrip_spaces by exact Ha. destruct (tight_inv _ T) as [->|(x & m & z & Hx & _ & -> & _)].
  - exists [], []. split; [intros c []|]. split; [intros c []|]. cbn [app]. apply (all_spaces_strip b Hb).
  - exists [], b. split; [intros c []|]. split; [exact Hb|]. cbn [app]. now apply lstrip_stop.
Qed.
Lemma padded_rstrip w f : tight w -> padded w f -> padded w (rstrip_l is_space f).
Proof.
  intros T (a & b & Ha & Hb & ->). rewrite app_assoc, rstrip_spaces by exact Hb.
  destruct (tight_inv _ T) as [->|(x & m & z & Hx & Hz & _ & n & ->)].
  - exists [], []. split; [intros c []|]. split; [intros c []|]. rewrite app_nil_r. apply (all_spaces_strip a Ha).
  - exists a, []. split; [exact Ha|]. split; [intros c []|]. rewrite app_assoc, rstrip_mid by exact Hz. rewrite app_nil_r, <- app_assoc. reflexivity.
Qed.

(** ** Matching *)
Lemma word_none {A} d (k : list ascii -> option A) l : ~ In d l -> word d k l = None.
Proof.
  induction l as [|c l IH]; intros H; cbn; [reflexivity|]. destruct (is_space c); [reflexivity|].
  rewrite IH by (intros X; apply H; now right). destruct (lstrip_l is_space l) as [|e rest] eqn:L; [reflexivity|].
  destruct (Ascii.eqb_spec e d) as [->|]; [|reflexivity]. exfalso. apply H. right. apply lstrip_incl. rewrite L. now left.
Qed.

Lemma word_ok {A} d (k : list ascii -> option A) w b rest x :
  w <> [] -> no_spaces w -> spaces b -> is_space d = false -> ~ In d rest -> k rest = Some x ->
  word d k (w ++ b ++ d :: rest) = Some (w, x).
Proof.
  intros NE NS SB Sd Nd Hk. induction w as [|c w IH]; [congruence|]. cbn [app word]. rewrite (NS c (or_introl eq_refl)).
  destruct w as [|c' w].
  - assert (word d k ([] ++ b ++ d :: rest) = None) as ->.
    { destruct b as [|y b]; cbn [app word].
      - rewrite Sd, word_none by exact Nd. destruct (lstrip_l is_space rest) as [|e r] eqn:L; [reflexivity|].
        destruct (Ascii.eqb_spec e d) as [->|]; [|reflexivity]. exfalso. apply Nd. apply lstrip_incl. rewrite L. now left.
      - now rewrite (SB y (or_introl eq_refl)). }
    cbn [app]. rewrite lstrip_spaces by exact SB. rewrite lstrip_stop by exact Sd. rewrite Ascii.eqb_refl, Hk. reflexivity.
  - rewrite IH; [reflexivity|discriminate|]. intros y Hy. apply NS. now right.
Qed.

Lemma anything_none {A} d (k : list ascii -> option A) l : ~ In d l -> anything d k l = None.
Proof.
  induction l as [|c l IH]; intros H; cbn; [reflexivity|]. rewrite IH by (intros X; apply H; now right).
  destruct (Ascii.eqb_spec c d) as [->|]; [|reflexivity]. exfalso. apply H. now left.
Qed.
Lemma anything_ok {A} d (k : list ascii -> option A) w rest x :
  ~ In d rest -> k rest = Some x -> anything d k (w ++ d :: rest) = Some (w, x).
Proof.
  intros Nd Hk. induction w as [|c w IH]; cbn; [now rewrite anything_none, Ascii.eqb_refl, Hk by exact Nd|]. now rewrite IH.
Qed.

(** Fields with their delimiters. *)
Fixpoint line_of (l : list (list ascii * ascii)) (c : list ascii) : list ascii :=
  match l with [] => c | (f, d) :: l' => f ++ d :: line_of l' c end.

Definition freel (l : list ascii) : Prop := forall c, In c l -> ~ In c reserved.
Lemma free_padded w f : freel w -> padded w f -> freel f.
Proof.
  intros F (a & b & Ha & Hb & ->) c Hc Hr.
  assert (N : is_space c = false).
  { cbn in Hr. repeat (destruct Hr as [<-|Hr]; [reflexivity|]). contradiction. }
  rewrite !in_app_iff in Hc. destruct Hc as [Hc|[Hc|Hc]]; [rewrite (Ha c Hc) in N; discriminate|now apply (F c Hc)|rewrite (Hb c Hc) in N; discriminate].
Qed.
Lemma reserved_no_space d : In d reserved -> is_space d = false.
Proof. intros H. cbn in H. repeat (destruct H as [<-|H]; [reflexivity|]). contradiction. Qed.

Lemma line_of_free l c d : Forall (fun fd => freel (fst fd)) l -> freel c -> In d reserved -> ~ In d (map snd l) -> ~ In d (line_of l c).
Proof.
  intros F C R. induction F as [|[f e] l Ff F IH]; cbn; intros N.
  - intros H. now apply (C d H).
  - rewrite in_app_iff. intros [H|[H|H]].
    + now apply (Ff d H).
    + subst. apply N. now left.
    + apply IH; [|exact H]. intros X. apply N. now right.
Qed.

Definition wordl (w : list ascii) : Prop := w <> [] /\ no_spaces w /\ freel w.

Lemma words_ok ws l c : Forall2 (fun w fd => wordl w /\ padded w (fst fd)) ws l -> NoDup (map snd l) -> incl (map snd l) reserved -> freel c ->
  words (map snd l) (line_of l c) = Some (map str_of ws ++ [str_of c]).
Proof.
  intros F. revert c. induction F as [|w [f d] ws l [[W1 [W2 W3]] P] F IH]; intros c ND R C; [reflexivity|].
  cbn [map snd words line_of] in *. inversion ND as [|? ? N1 N2]; subst. destruct P as (a & b & Ha & Hb & Hf). cbn [fst] in Hf. subst f.
  assert (FF : Forall (fun fd => freel (fst fd)) l).
  { clear -F. induction F as [|w fd ws l [[_ [_ W]] P] F IH]; constructor; [now apply (free_padded w)|exact IH]. }
  rewrite <- !app_assoc, lstrip_spaces by exact Ha.
  assert (lstrip_l is_space (w ++ b ++ d :: line_of l c) = w ++ b ++ d :: line_of l c) as ->.
  { destruct w as [|x w]; [congruence|]. apply lstrip_stop, W2. now left. }
  rewrite (word_ok d (words (map snd l)) w b (line_of l c) (map str_of ws ++ [str_of c])); [reflexivity|..]; auto.
  - apply reserved_no_space, R. now left.
  - apply line_of_free; auto. apply R. now left.
  - apply IH; auto. intros x Hx. apply R. now right.
Qed.

Lemma rstrip_line l c : l <> [] -> incl (map snd l) reserved -> rstrip_l is_space (line_of l c) = line_of l (rstrip_l is_space c).
Proof.
  intros _ R. destruct l as [|[f d] l]; [reflexivity|]. revert f d R. induction l as [|[g e] l IH]; intros f d R; cbn [line_of].
  - apply rstrip_mid, reserved_no_space, R. now left.
  - rewrite rstrip_mid by (apply reserved_no_space, R; now left). f_equal. f_equal. apply IH. intros x Hx. apply R. now right.
Qed.

(** ** Lists of names *)
Lemma split_go w cur rest : no_spaces w -> split_l (chars " + ") 0 cur (w ++ rest) = split_l (chars " + ") 0 (rev w ++ cur) rest.
Proof.
  revert cur. induction w as [|c w IH]; intros cur H; [reflexivity|]. cbn [app split_l].
  assert (prefixb (chars " + ") (c :: w ++ rest) = false) as ->.
  { cbn [chars prefixb]. destruct (Ascii.eqb_spec " " c) as [<-|]; [|reflexivity]. discriminate (H " "%char (or_introl eq_refl)). }
  rewrite IH by (intros x Hx; apply H; now right). cbn [rev]. now rewrite <- app_assoc.
Qed.

Lemma split_names ns : ns <> [] -> (forall n, In n ns -> no_spaces (chars n)) -> str_split " + " (str_join " + " ns) = ns.
Proof.
  intros NE H. unfold str_split.
  assert (split_l (chars " + ") 0 [] (chars (str_join " + " ns)) = map chars ns) as ->.
  { induction ns as [|n ns IH]; [congruence|]. destruct ns as [|m ns].
    - cbn [str_join map]. rewrite <- (app_nil_r (chars n)), split_go by (apply H; now left). cbn [split_l]. now rewrite !app_nil_r, rev_involutive.
    - change (str_join " + " (n :: m :: ns)) with (n ++ " + " ++ str_join " + " (m :: ns))%string.
      rewrite !chars_app, split_go by (apply H; now left). rewrite app_nil_r. change (map chars (n :: m :: ns)) with (chars n :: map chars (m :: ns)).
      rewrite <- IH; [|discriminate|intros x Hx; apply H; now right].
      cbn [chars app split_l prefixb Ascii.eqb Bool.eqb andb pred List.length]. now rewrite rev_involutive. }
  rewrite map_map. rewrite <- (map_id ns) at 2. apply map_ext. exact str_of_chars.
Qed.

Lemma join_tight ns : (forall n, In n ns -> n <> "" /\ no_spaces (chars n)) -> str_strip (str_join " + " ns) = str_join " + " ns.
Proof.
  intros H. apply strip_tight. destruct ns as [|n ns]; [apply tight_nil|].
  assert (exists x l, chars (str_join " + " (n :: ns)) = x :: l /\ is_space x = false) as (x & l & Hl & Hx).
  { destruct (H n (or_introl eq_refl)) as [N S]. destruct n as [|x n]; [congruence|].
    assert (is_space x = false) by (apply S; now left).
    destruct ns; cbn [str_join]; [exists x, (chars n); auto|]. rewrite chars_app. cbn [chars app]. eexists _, _. split; [reflexivity|assumption]. }
  assert (exists z m, chars (str_join " + " (n :: ns)) = m ++ [z] /\ is_space z = false) as (z & m & Hm & Hz).
  { clear Hl x l Hx. revert n H. induction ns as [|n' ns IH]; intros n H.
    - destruct (H n (or_introl eq_refl)) as [N S]. cbn [str_join].
      destruct (exists_last (l := chars n)) as (m & z & Hm); [destruct n; [congruence|discriminate]|].
      exists z, m. split; [exact Hm|]. apply S. rewrite Hm. apply in_app_iff. right. now left.
    - change (str_join " + " (n :: n' :: ns)) with (n ++ " + " ++ str_join " + " (n' :: ns))%string.
      destruct (IH n') as (z & m & Hm & Hz); [intros y Hy; apply H; now right|].
      exists z, (chars n ++ chars " + " ++ m). split; [|exact Hz]. rewrite !chars_app, Hm, <- !app_assoc. reflexivity. }
  rewrite Hl. apply (tight_ends x l z Hx Hz). rewrite Hl in Hm. destruct m as [|y m]; cbn in Hm; injection Hm as -> ->; [now left|]. right. now exists m.
Qed.
