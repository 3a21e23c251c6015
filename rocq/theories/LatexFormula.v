(** Chemical formulas get the LaTeX they should. *)
From Verif Require Import Base BaseLemmas Species Reactions ReactionProofs Latex LatexSpec LatexName.

Definition is_upper (c : ascii) : bool := let n := nat_of_ascii c in Nat.leb 65 n && Nat.leb n 90.
Definition no_upper (l : list ascii) : bool := forallb (fun c => negb (is_upper c)) l.

(** A capital letter and what follows up to the next one. *)
Definition block (l : list ascii) : Prop := exists c t, l = c :: t /\ is_upper c = true /\ no_upper t = true.
Definition starts_upper (l : list ascii) : Prop := l = [] \/ exists c t, l = c :: t /\ is_upper c = true.

(** Replacements that keep the first character and add no capital. *)
Definition pair_ok (p : string * string) : bool :=
  match chars (fst p), chars (snd p) with
  | c :: o, d :: n => Ascii.eqb c d && no_upper o && no_upper n
  | _, _ => false
  end.
Lemma pairs_ok : forallb pair_ok (sup_pairs ++ sub_pairs ++ ion_pairs) = true.
Proof. vm_compute. reflexivity. Qed.

Lemma prefixb_spec p l : prefixb p l = true <-> exists m, l = p ++ m.
Proof. split; [apply prefixb_app_inv|intros [m ->]; apply prefixb_app]. Qed.

Lemma no_straddle old s l2 : s <> [] -> no_upper (tl old) = true -> starts_upper l2 ->
  prefixb old (s ++ l2) = prefixb old s.
Proof.
  intros N U S. destruct (prefixb old s) eqn:E.
  - apply prefixb_spec in E as [m ->]. apply prefixb_spec. exists (m ++ l2). now rewrite app_assoc.
  - destruct (prefixb old (s ++ l2)) eqn:G; [|reflexivity]. exfalso.
    apply prefixb_spec in G as [m G]. symmetry in G. apply app_eq_app in G as (k & [[E1 E2]|[E1 E2]]).
    + (* old = s ++ k *) destruct k as [|c k].
      * rewrite app_nil_r in E1. subst old. rewrite <- (app_nil_r s) in E at 2. rewrite prefixb_app in E. discriminate.
      * destruct S as [->|(d & t & -> & Hd)]; [discriminate|]. injection E2 as -> _.
        destruct s as [|x s]; [congruence|]. subst old. cbn [tl app] in U. unfold no_upper in U.
        rewrite forallb_app in U. cbn in U. rewrite Hd in U. cbn in U. now rewrite Bool.andb_false_r in U.
    + subst s. rewrite prefixb_app in E. discriminate.
Qed.

Lemma replace_app old new l2 : old <> [] -> no_upper (tl old) = true -> starts_upper l2 ->
  forall l1, replace_l old new 0 (l1 ++ l2) = replace_l old new 0 l1 ++ replace_l old new 0 l2.
Proof.
  intros N U S. apply (replace_ind old); [easy|reflexivity| |].
  - intros m IH. rewrite <- app_assoc, !replace_match by easy. now rewrite IH, app_assoc.
  - intros c l H IH. rewrite replace_step by easy. cbn [app]. rewrite replace_step.
    + now rewrite IH.
    + change (c :: l ++ l2) with ((c :: l) ++ l2). rewrite no_straddle; [easy|discriminate|easy|easy].
Qed.

Lemma pair_parts p : pair_ok p = true -> exists c o n,
  chars (fst p) = c :: o /\ chars (snd p) = c :: n /\ no_upper o = true /\ no_upper n = true.
Proof.
  unfold pair_ok. destruct (chars (fst p)) as [|c o]; [discriminate|]. destruct (chars (snd p)) as [|d n]; [discriminate|].
  intros H. apply Bool.andb_true_iff in H as [H H3]. apply Bool.andb_true_iff in H as [H1 H2].
  apply Ascii.eqb_eq in H1. subst d. now exists c, o, n.
Qed.

Lemma replace_no_upper c o n : no_upper n = true -> forall l, no_upper l = true ->
  no_upper (replace_l (c :: o) (c :: n) 0 l) = true.
Proof.
  intros Hn. apply (replace_ind (c :: o) (fun l => no_upper l = true -> no_upper (replace_l (c :: o) (c :: n) 0 l) = true));
    [discriminate|easy| |].
  - intros m IH H. rewrite replace_match by discriminate. unfold no_upper in *. rewrite forallb_app in *.
    cbn [forallb] in *. apply Bool.andb_true_iff in H as [H1 H2]. apply Bool.andb_true_iff in H1 as [H1 H3].
    now rewrite H1, Hn, IH.
  - intros d l K IH H. rewrite replace_step by easy. unfold no_upper in *. cbn [forallb] in *.
    apply Bool.andb_true_iff in H as [H1 H2]. now rewrite H1, IH.
Qed.

Lemma replace_block c o n : no_upper n = true -> forall l, block l -> block (replace_l (c :: o) (c :: n) 0 l).
Proof.
  intros Hn l (d & t & -> & Hd & Ht). destruct (prefixb (c :: o) (d :: t)) eqn:E.
  - apply prefixb_spec in E as [m E]. rewrite E, replace_match by discriminate. injection E as -> ->.
    exists c, (n ++ replace_l (c :: o) (c :: n) 0 m). split; [reflexivity|]. split; [easy|].
    unfold no_upper in *. rewrite forallb_app in *. apply Bool.andb_true_iff in Ht as [_ Ht].
    rewrite Hn. cbn. now apply replace_no_upper.
  - rewrite replace_step by easy. exists d, (replace_l (c :: o) (c :: n) 0 t). split; [reflexivity|]. split; [easy|].
    now apply replace_no_upper.
Qed.

Lemma block_starts bs : Forall block bs -> starts_upper (List.concat bs).
Proof.
  intros H. destruct H as [|b bs (c & t & -> & Hc & _) _]; [now left|]. right. exists c, (t ++ List.concat bs). easy.
Qed.

Lemma replace_blocks ps : forallb pair_ok ps = true -> forall bs, Forall block bs ->
  replace_all ps (List.concat bs) = List.concat (map (replace_all ps) bs).
Proof.
  induction ps as [|p ps IH]; intros H bs Hb.
  - cbn. now rewrite map_id.
  - cbn [forallb] in H. apply Bool.andb_true_iff in H as [H1 H2].
    destruct (pair_parts p H1) as (c & o & n & E1 & E2 & Ho & Hn).
    assert (S : replace_l (chars (fst p)) (chars (snd p)) 0 (List.concat bs) =
                List.concat (map (replace_l (chars (fst p)) (chars (snd p)) 0) bs)).
    { rewrite E1, E2. induction Hb as [|b bs Hb Hbs IHb]; [reflexivity|]. cbn [List.concat map].
      rewrite replace_app; [now rewrite IHb|discriminate|easy|now apply block_starts]. }
    rewrite replace_all_cons, S, IH; [|easy|].
    + now rewrite map_map.
    + rewrite E1, E2. apply Forall_forall. intros x Hx. apply in_map_iff in Hx as (b & <- & Hb').
      rewrite Forall_forall in Hb. apply replace_block; auto.
Qed.
Lemma blocks_kept ps : forallb pair_ok ps = true -> forall bs, Forall block bs -> Forall block (map (replace_all ps) bs).
Proof.
  induction ps as [|p ps IH]; intros H bs Hb.
  - cbn. now rewrite map_id.
  - cbn [forallb] in H. apply Bool.andb_true_iff in H as [H1 H2].
    destruct (pair_parts p H1) as (c & o & n & E1 & E2 & Ho & Hn).
    replace (map (replace_all (p :: ps)) bs) with (map (replace_all ps) (map (replace_l (chars (fst p)) (chars (snd p)) 0) bs))
      by now rewrite map_map.
    apply IH; [easy|]. rewrite E1, E2. apply Forall_forall. intros x Hx. apply in_map_iff in Hx as (b & <- & Hb').
    rewrite Forall_forall in Hb. apply replace_block; auto.
Qed.

Definition steps (l : list ascii) : list ascii := replace_all ion_pairs (replace_all sub_pairs (replace_all sup_pairs l)).
Lemma steps_blocks bs : Forall block bs -> steps (List.concat bs) = List.concat (map steps bs).
Proof.
  intros H. pose proof pairs_ok as K. rewrite !forallb_app in K.
  apply Bool.andb_true_iff in K as [K1 K]. apply Bool.andb_true_iff in K as [K2 K3]. unfold steps.
  rewrite (replace_blocks _ K1) by easy.
  rewrite (replace_blocks _ K2) by now apply blocks_kept.
  rewrite (replace_blocks _ K3) by (apply blocks_kept; [easy|now apply blocks_kept]).
  now rewrite !map_map.
Qed.

(** ** One block at a time *)

(** Only replacements whose characters all occur can do something. *)
Definition relevant (q : ascii -> bool) (p : string * string) : bool := allc q (fst p).
Lemma prune q ps : forallb (fun p => negb (relevant q p) || allc q (snd p)) ps = true -> forallb old_ok ps = true ->
  forall l, forallb q l = true -> replace_all ps l = replace_all (filter (relevant q) ps) l.
Proof.
  induction ps as [|p ps IH]; intros H O l Hl; [reflexivity|].
  cbn [forallb] in H, O. apply Bool.andb_true_iff in H as [H1 H2]. apply Bool.andb_true_iff in O as [O1 O2].
  rewrite replace_all_cons. cbn [filter]. destruct (relevant q p) eqn:R; cbn [negb orb] in H1.
  - rewrite replace_all_cons. apply IH; [easy|easy|]. apply forallb_forall. intros c Hc.
    apply replace_chars in Hc; [|now apply old_ok_spec]. unfold allc in H1. rewrite forallb_forall in Hl, H1. destruct Hc; auto.
  - rewrite replace_absent; [now apply IH|now apply old_ok_spec|]. intros (a & b & ->).
    rewrite !forallb_app in Hl. apply Bool.andb_true_iff in Hl as [_ Hl]. apply Bool.andb_true_iff in Hl as [Hl _].
    unfold relevant, allc in R. congruence.
Qed.

Definition safe (q : ascii -> bool) (ps : list (string * string)) : bool :=
  forallb (fun p => old_ok p && (negb (relevant q p) || allc q (snd p))) ps.
Lemma safe_parts q ps : safe q ps = true ->
  forallb (fun p => negb (relevant q p) || allc q (snd p)) ps = true /\ forallb old_ok ps = true.
Proof.
  unfold safe. rewrite !forallb_forall. intros H. split; intros p Hp; apply H in Hp; now apply Bool.andb_true_iff in Hp.
Qed.
Lemma safe_filter q f ps : safe q ps = true -> safe q (filter f ps) = true.
Proof. unfold safe. rewrite !forallb_forall. intros H p Hp. apply filter_In in Hp as [Hp _]. auto. Qed.
Lemma prune_safe q ps l : safe q ps = true -> forallb q l = true -> replace_all ps l = replace_all (filter (relevant q) ps) l.
Proof. intros H. apply safe_parts in H as [H1 H2]. now apply prune. Qed.
Lemma safe_chars q ps l : safe q ps = true -> forallb q l = true -> forallb q (replace_all ps l) = true.
Proof.
  intros H Hl. rewrite (prune_safe q) by easy. apply safe_parts in H as [H1 H2].
  apply clean_all; [|easy]. apply forallb_forall. intros p Hp. apply filter_In in Hp as [Hp R].
  rewrite forallb_forall in H1, H2. specialize (H1 p Hp). rewrite R in H1. cbn in H1. now rewrite (H2 p Hp), H1.
Qed.

(** The replacements are selected by letters, by signs and by digits. *)
Definition letter_bit (c : ascii) : bool := match c with Ascii _ _ _ _ _ _ b _ => b end.
Definition digit_bit (c : ascii) : bool := match c with Ascii _ _ _ _ b4 _ b6 _ => b4 && negb b6 end.
Definition by_letters (x : string) (c : ascii) : bool := negb (letter_bit c) || existsb (Ascii.eqb c) (chars x) || markup c.
Definition by_sign (s : ascii) (c : ascii) : bool :=
  letter_bit c || Ascii.eqb c s || negb (existsb (Ascii.eqb c) ["+"; "-"; "*"]%char).
Definition by_digits (n : string) (c : ascii) : bool :=
  negb (digit_bit c) || existsb (Ascii.eqb c) (chars n) || Ascii.eqb c "2" || Ascii.eqb c "3".

Lemma prune3 q1 q2 q3 ps l : safe q1 ps = true -> safe q2 ps = true -> safe q3 ps = true ->
  forallb q1 l = true -> forallb q2 l = true -> forallb q3 l = true ->
  replace_all ps l = replace_all (filter (relevant q3) (filter (relevant q2) (filter (relevant q1) ps))) l.
Proof.
  intros S1 S2 S3 L1 L2 L3. rewrite (prune_safe q1) by easy.
  rewrite (prune_safe q2) by (easy || now apply safe_filter).
  apply prune_safe; [|easy]. now repeat apply safe_filter.
Qed.

Definition all_pairs : list (string * string) := sup_pairs ++ sub_pairs ++ ion_pairs.
Definition signs : list ascii := ["+"; "-"; "*"]%char.
Lemma safe_signs s : In s signs -> safe (by_sign s) all_pairs = true.
Proof. revert s. apply (forallb_forall (fun s => safe (by_sign s) all_pairs)). vm_cast_no_check (eq_refl true). Qed.
Definition all_counts : list (string * string) := ("", "")%string :: counts.
Lemma safe_digits n : In n all_counts -> safe (by_digits (fst n)) all_pairs = true.
Proof. revert n. apply (forallb_forall (fun n => safe (by_digits (fst n)) all_pairs)). vm_cast_no_check (eq_refl true). Qed.
Lemma safe_letters x : In x elements -> safe (by_letters x) all_pairs = true.
Proof. revert x. apply (forallb_forall (fun x => safe (by_letters x) all_pairs)). vm_cast_no_check (eq_refl true). Qed.

Definition check_element (x : string) : bool :=
  let a1 := filter (relevant (by_letters x)) sup_pairs in
  let a2 := filter (relevant (by_letters x)) sub_pairs in
  let a3 := filter (relevant (by_letters x)) ion_pairs in
  forallb (fun s =>
    let b1 := filter (relevant (by_sign s)) a1 in
    let b2 := filter (relevant (by_sign s)) a2 in
    let b3 := filter (relevant (by_sign s)) a3 in
    forallb (fun n =>
      let c1 := filter (relevant (by_digits (fst n))) b1 in
      let c2 := filter (relevant (by_digits (fst n))) b2 in
      let c3 := filter (relevant (by_digits (fst n))) b3 in
      forallb (fun m =>
        let t := (x ++ fst n ++ fst m)%string in
        negb (allc (by_sign s) (fst m)) ||
        allc (by_letters x) t && allc (by_sign s) t && allc (by_digits (fst n)) t &&
        list_eqb (replace_all c3 (replace_all c2 (replace_all c1 (chars t)))) (chars (x ++ snd n ++ snd m)%string))
        marks)
      all_counts)
    signs.
Lemma check_all x : In x elements -> check_element x = true.
Proof. revert x. apply (forallb_forall check_element). vm_cast_no_check (eq_refl true). Qed.
Lemma check_case x s n m : In x elements -> In s signs -> In n all_counts -> In m marks ->
  allc (by_sign s) (fst m) = true ->
  let t := (x ++ fst n ++ fst m)%string in
  let sel ps := filter (relevant (by_digits (fst n))) (filter (relevant (by_sign s)) (filter (relevant (by_letters x)) ps)) in
  allc (by_letters x) t = true /\ allc (by_sign s) t = true /\ allc (by_digits (fst n)) t = true /\
  replace_all (sel ion_pairs) (replace_all (sel sub_pairs) (replace_all (sel sup_pairs) (chars t))) =
  chars (x ++ snd n ++ snd m).
Proof.
  intros Hx Hs Hn Hm Ms t sel. pose proof (check_all x Hx) as K. unfold check_element in K. cbv zeta in K.
  rewrite forallb_forall in K. specialize (K s Hs). rewrite forallb_forall in K. specialize (K n Hn).
  rewrite forallb_forall in K. specialize (K m Hm). rewrite Ms in K. cbn [negb orb] in K.
  apply Bool.andb_true_iff in K as [K E]. apply Bool.andb_true_iff in K as [K T3]. apply Bool.andb_true_iff in K as [T1 T2].
  unfold list_eqb in E. destruct (list_eq_dec _ _ _) as [E'|]; [|discriminate].
  exact (conj T1 (conj T2 (conj T3 E'))).
Qed.

Lemma mark_family : forallb (fun m => existsb (fun s => allc (by_sign s) (fst m)) signs) marks = true.
Proof. reflexivity. Qed.

Lemma steps_block x n m : In x elements -> n = ("", "")%string \/ In n counts -> In m marks ->
  steps (chars (x ++ fst n ++ fst m)) = chars (x ++ snd n ++ snd m).
Proof.
  intros Hx Hn Hm.
  assert (Hn' : In n all_counts) by (destruct Hn; [now left|now right]). clear Hn.
  assert (MF : exists s, In s signs /\ allc (by_sign s) (fst m) = true).
  { apply existsb_exists. revert m Hm. apply forallb_forall. exact mark_family. }
  destruct MF as (s & Hs & Ms).
  destruct (check_case x s n m Hx Hs Hn' Hm Ms) as (T1 & T2 & T3 & <-).
  assert (Cut : forall q, safe q all_pairs = true -> safe q sup_pairs = true /\ safe q sub_pairs = true /\ safe q ion_pairs = true).
  { intros q Hq. unfold safe, all_pairs in Hq. rewrite !forallb_app in Hq.
    apply Bool.andb_true_iff in Hq as [Q1 Hq]. apply Bool.andb_true_iff in Hq as [Q2 Q3]. auto. }
  destruct (Cut _ (safe_letters x Hx)) as (L1 & L2 & L3). destruct (Cut _ (safe_signs s Hs)) as (S1 & S2 & S3).
  destruct (Cut _ (safe_digits n Hn')) as (D1 & D2 & D3). clear Cut Hx Hs Hn' Hm Ms.
  unfold allc in T1, T2, T3. unfold steps. revert T1 T2 T3 L1 L2 L3 S1 S2 S3 D1 D2 D3.
  generalize (chars (x ++ fst n ++ fst m)). generalize sup_pairs, sub_pairs, ion_pairs.
  generalize (by_letters x), (by_sign s), (by_digits (fst n)). clear. intros q1 q2 q3 p1 p2 p3 t T1 T2 T3 L1 L2 L3 S1 S2 S3 D1 D2 D3.
  assert (A : forall q, safe q p1 = true -> forallb q t = true -> forallb q (replace_all p1 t) = true)
    by (intros q; apply safe_chars).
  assert (B : forall q, safe q p1 = true -> safe q p2 = true -> forallb q t = true ->
                forallb q (replace_all p2 (replace_all p1 t)) = true)
    by (intros q Q1 Q2 Q; apply safe_chars; auto).
  rewrite (prune3 q1 q2 q3 p3) by auto.
  rewrite (prune3 q1 q2 q3 p2) by auto.
  now rewrite (prune3 q1 q2 q3 p1) by auto.
Qed.
