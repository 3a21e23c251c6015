(** The LaTeX of species names: different names keep different texts, and
    formulas are set as they should be. *)
From Verif Require Import Base BaseLemmas Species Reactions ReactionProofs Latex LatexSpec.

(** ** Replacing in general *)

Lemma replace_skip old new s m : replace_l old new (List.length s) (s ++ m) = replace_l old new 0 m.
Proof. induction s as [|c s IH]; cbn; [reflexivity|exact IH]. Qed.

Lemma replace_match old new m : old <> [] -> replace_l old new 0 (old ++ m) = new ++ replace_l old new 0 m.
Proof.
  intros N. destruct old as [|c o]; [congruence|].
  change ((c :: o) ++ m) with (c :: (o ++ m)). cbn [replace_l].
  replace (prefixb (c :: o) (c :: o ++ m)) with true
    by (symmetry; change (c :: o ++ m) with ((c :: o) ++ m); apply prefixb_app).
  cbn [List.length pred]. now rewrite replace_skip.
Qed.
Lemma replace_step old new c l : prefixb old (c :: l) = false -> replace_l old new 0 (c :: l) = c :: replace_l old new 0 l.
Proof. intros H. cbn [replace_l]. now rewrite H. Qed.

(** Induction along the matches. *)
Lemma replace_ind old (P : list ascii -> Prop) : old <> [] ->
  P [] -> (forall m, P m -> P (old ++ m)) ->
  (forall c l, prefixb old (c :: l) = false -> P l -> P (c :: l)) -> forall l, P l.
Proof.
  intros N P0 P1 P2.
  assert (G : forall n l, (List.length l <= n)%nat -> P l).
  { induction n as [|n IH]; intros l H.
    - destruct l; [exact P0|cbn in H; lia].
    - destruct l as [|c l]; [exact P0|]. destruct (prefixb old (c :: l)) eqn:E.
      + apply prefixb_app_inv in E as [m E]. rewrite E. apply P1, IH.
        apply (f_equal (@List.length _)) in E. rewrite app_length in E. cbn in E, H.
        destruct old; [congruence|]. cbn in E. lia.
      + apply P2; [easy|]. apply IH. cbn in H. lia. }
  intros l. now apply (G (List.length l)).
Qed.

Lemma replace_filter p old new : old <> [] -> filter p old = filter p new ->
  forall l, filter p (replace_l old new 0 l) = filter p l.
Proof.
  intros N E. apply (replace_ind old); [easy|reflexivity| |].
  - intros m IH. rewrite replace_match by easy. now rewrite !filter_app, IH, E.
  - intros c l H IH. rewrite replace_step by easy. cbn [filter]. now rewrite IH.
Qed.

Lemma replace_absent old new : old <> [] -> forall l, ~ has_sub old l -> replace_l old new 0 l = l.
Proof.
  intros N. apply (replace_ind old (fun l => ~ has_sub old l -> replace_l old new 0 l = l)); [easy|reflexivity| |].
  - intros m _ H. exfalso. apply H. exists [], m. reflexivity.
  - intros c l H IH K. rewrite replace_step by easy. f_equal. apply IH. intros (a & b & ->). apply K.
    exists (c :: a), b. reflexivity.
Qed.

Lemma replace_chars old new l c : old <> [] -> In c (replace_l old new 0 l) -> In c l \/ In c new.
Proof.
  intros N. revert l. apply (replace_ind old (fun l => In c (replace_l old new 0 l) -> In c l \/ In c new)); [easy|now left| |].
  - intros m IH. rewrite replace_match by easy. rewrite !in_app_iff. intros [H|H]; [auto|]. destruct (IH H); auto.
  - intros d l H IH. rewrite replace_step by easy. intros [->|H']; [left; now left|]. destruct (IH H'); [left; now right|auto].
Qed.

Definition allc (p : ascii -> bool) (s : string) : bool := forallb p (chars s).
Definition old_ok (p : string * string) : bool := match fst p with EmptyString => false | _ => true end.
Lemma old_ok_spec p : old_ok p = true -> chars (fst p) <> [].
Proof. unfold old_ok. destruct (fst p); [discriminate|intros _ H; discriminate]. Qed.

Lemma replace_all_cons p ps l : replace_all (p :: ps) l = replace_all ps (replace_l (chars (fst p)) (chars (snd p)) 0 l).
Proof. reflexivity. Qed.

(** ** Different names, different texts *)

Definition markup (c : ascii) : bool := existsb (Ascii.eqb c) ["^"; "_"; "{"; "}"]%char.
Definition erase (l : list ascii) : list ascii := filter (fun c => negb (markup c)) l.
Definition list_eqb (a b : list ascii) : bool := if list_eq_dec Ascii.ascii_dec a b then true else false.
Definition keeps_text (p : string * string) : bool :=
  old_ok p && list_eqb (erase (chars (fst p))) (erase (chars (snd p))).

Lemma erase_all ps : forallb keeps_text ps = true -> forall l, erase (replace_all ps l) = erase l.
Proof.
  induction ps as [|p ps IH]; intros H l; [reflexivity|].
  cbn [forallb] in H. apply Bool.andb_true_iff in H as [H1 H2]. rewrite replace_all_cons, IH by easy.
  apply Bool.andb_true_iff in H1 as [H0 H1]. apply replace_filter; [now apply old_ok_spec|].
  unfold list_eqb in H1. destruct (list_eq_dec _ _ _); [easy|discriminate].
Qed.

Lemma sup_keeps : forallb keeps_text sup_pairs = true.
Proof. vm_compute. reflexivity. Qed.
Lemma sub_keeps : forallb keeps_text sub_pairs = true.
Proof. vm_compute. reflexivity. Qed.

(** The characters a replacement can bring in. *)
Definition no_brackets (c : ascii) : bool :=
  negb (existsb (Ascii.eqb c) [" "; "\"; "("; ")"]%char).
Definition clean_pair (p : string * string) : bool := old_ok p && allc no_brackets (snd p).
Lemma clean_all q ps : forallb (fun p => old_ok p && allc q (snd p)) ps = true ->
  forall l, forallb q l = true -> forallb q (replace_all ps l) = true.
Proof.
  induction ps as [|p ps IH]; intros H l Hl; [easy|].
  cbn [forallb] in H. apply Bool.andb_true_iff in H as [H1 H2]. rewrite replace_all_cons. apply IH; [easy|].
  apply Bool.andb_true_iff in H1 as [H0 H1]. apply forallb_forall. intros c Hc.
  apply replace_chars in Hc; [|now apply old_ok_spec]. unfold allc in H1. rewrite forallb_forall in Hl, H1. destruct Hc; auto.
Qed.
Lemma steps_clean l : forallb no_brackets l = true ->
  forallb no_brackets (replace_all ion_pairs (replace_all sub_pairs (replace_all sup_pairs l))) = true.
Proof. intros H. repeat (apply clean_all; [vm_compute; reflexivity|]). exact H. Qed.

(** Doubled signs stay where they are. *)
Lemma doubled_app_l a b : doubled_sign b = true -> doubled_sign (a ++ b) = true.
Proof.
  induction a as [|c a IH]; intros H; [easy|]. specialize (IH H). cbn [app doubled_sign].
  destruct (a ++ b) eqn:E; [discriminate|]. now rewrite IH, Bool.orb_true_r.
Qed.
Lemma ion_absent l : doubled_sign (erase l) = false -> replace_all ion_pairs l = l.
Proof.
  intros H. cbn [replace_all fold_left ion_pairs fst snd].
  assert (G : forall x s, (exists t, erase (chars x) = "+"%char :: "+"%char :: t \/ erase (chars x) = "-"%char :: "-"%char :: t) ->
              chars x <> [] -> replace_l (chars x) s 0 l = l).
  { intros x s (t & Ht) N. apply replace_absent; [easy|]. intros (a & b & ->). unfold erase in H, Ht. rewrite !filter_app in H.
    assert (D : doubled_sign (filter (fun c => negb (markup c)) a ++ filter (fun c => negb (markup c)) (chars x) ++
                              filter (fun c => negb (markup c)) b) = true); [|congruence].
    apply doubled_app_l. destruct Ht as [-> | ->]; reflexivity. }
  repeat rewrite G; try reflexivity; try discriminate; cbn; eauto.
Qed.

(** Wrapping letters loses nothing. *)
Definition F (l : list ascii) : list ascii * bool := fold_right wrap_step ([], false) l.
Lemma F_cons c l : F (c :: l) = wrap_step c (F l).
Proof. reflexivity. Qed.
Lemma F_head c l : exists o, fst (F (c :: l)) = c :: o.
Proof. rewrite F_cons. unfold wrap_step. destruct (F l) as [o e]. destruct (is_alpha c), e; cbn; eauto. Qed.
Lemma F_env l : snd (F l) = match l with c :: _ => is_alpha c | [] => false end.
Proof. destruct l as [|c l]; [reflexivity|]. rewrite F_cons. unfold wrap_step. destruct (F l) as [o e]. now destruct (is_alpha c). Qed.
Lemma F_nil l : fst (F l) = [] -> l = [].
Proof. destruct l as [|c l]; [easy|]. destruct (F_head c l) as [o ->]. discriminate. Qed.

Lemma F_env_head l : snd (F l) = true -> exists c o, fst (F l) = c :: o /\ is_alpha c = true.
Proof.
  rewrite F_env. destruct l as [|c l]; [discriminate|]. intros H. destruct (F_head c l) as [o E]. eauto.
Qed.
Lemma clean_F_head l : forallb no_brackets l = true -> forall c o, fst (F l) = c :: o -> no_brackets c = true.
Proof.
  intros H c o E. destruct l as [|d l]; [discriminate|]. destruct (F_head d l) as [o' E']. rewrite E' in E. injection E as <- _.
  cbn in H. now apply Bool.andb_true_iff in H.
Qed.

Lemma F_inj : forall l1 l2, forallb no_brackets l1 = true -> forallb no_brackets l2 = true ->
  fst (F l1) = fst (F l2) -> l1 = l2.
Proof.
  induction l1 as [|c l1 IH]; intros l2 H1 H2 E.
  - symmetry in E. now apply F_nil in E.
  - destruct l2 as [|d l2]; [now apply F_nil in E|].
    assert (c = d). { destruct (F_head c l1) as [o1 E1], (F_head d l2) as [o2 E2]. rewrite E1, E2 in E. congruence. }
    subst d. f_equal. cbn in H1, H2. apply Bool.andb_true_iff in H1 as [_ H1]. apply Bool.andb_true_iff in H2 as [_ H2].
    apply IH; [easy|easy|].
    pose proof (F_env_head l1) as A1. pose proof (F_env_head l2) as A2.
    pose proof (clean_F_head l1 H1) as C1. pose proof (clean_F_head l2 H2) as C2.
    rewrite !F_cons in E. unfold wrap_step in E.
    destruct (F l1) as [o1 e1], (F l2) as [o2 e2]. cbn [fst snd] in *.
    destruct (is_alpha c), e1, e2; cbn [fst] in E; injection E as E; try easy.
    + destruct A1 as (x & o & -> & Ax); [easy|]. injection E as Ex _. subst x. discriminate Ax.
    + destruct A2 as (x & o & -> & Ax); [easy|]. injection E as Ex _. subst x. discriminate Ax.
    + subst o2. specialize (C2 " "%char _ eq_refl). discriminate.
    + subst o1. specialize (C1 " "%char _ eq_refl). discriminate.
Qed.

Lemma wrap_inj l1 l2 : forallb no_brackets l1 = true -> forallb no_brackets l2 = true ->
  wrap_letters l1 = wrap_letters l2 -> l1 = l2.
Proof.
  intros H1 H2 E. pose proof (clean_F_head l1 H1) as C1. pose proof (clean_F_head l2 H2) as C2.
  apply F_inj; [easy|easy|]. unfold wrap_letters in E. fold (F l1) in E. fold (F l2) in E.
  destruct l1 as [|c l1], l2 as [|d l2].
  - easy.
  - destruct (is_alpha d); [discriminate|exact E].
  - destruct (is_alpha c); [discriminate|exact E].
  - destruct (is_alpha c), (is_alpha d).
    + apply app_inv_head in E. exact E.
    + exfalso. symmetry in E. cbn in E. specialize (C2 "\"%char _ E). discriminate.
    + exfalso. cbn in E. specialize (C1 "\"%char _ E). discriminate.
    + exact E.
Qed.

Lemma plain_erase s : plain_name s -> erase (chars s) = chars s.
Proof.
  intros [H _]. unfold erase. induction (chars s) as [|c l IH]; [reflexivity|]. cbn [filter].
  assert (M : markup c = false).
  { destruct (H c) as [T _]; [now left|]. unfold tex_special in T. unfold markup. cbn [existsb] in *.
    repeat (apply Bool.orb_false_iff in T as [? T]). rewrite ?Bool.orb_false_iff. tauto. }
  rewrite M. cbn. f_equal. apply IH. intros d Hd. apply H. now right.
Qed.
Lemma plain_clean s : plain_name s -> forallb no_brackets (chars s) = true.
Proof.
  intros [H _]. apply forallb_forall. intros c Hc. destruct (H c Hc) as (T & N1 & N2).
  unfold tex_special in T. unfold no_brackets. cbn [existsb] in *. apply Bool.negb_true_iff.
  repeat (apply Bool.orb_false_iff in T as [? T]). rewrite ?Bool.orb_false_iff.
  repeat split; try easy; now apply Ascii.eqb_neq.
Qed.

Lemma ground_plain s : plain_name s -> exists l, texify_ground_state (chars s) = wrap_letters l /\
  forallb no_brackets l = true /\ erase l = chars s.
Proof.
  intros H. unfold texify_ground_state.
  exists (replace_all sub_pairs (replace_all sup_pairs (chars s))).
  assert (Er : erase (replace_all sub_pairs (replace_all sup_pairs (chars s))) = chars s).
  { rewrite (erase_all _ sub_keeps), (erase_all _ sup_keeps). now apply plain_erase. }
  split; [|split; [|easy]].
  - f_equal. apply ion_absent. rewrite Er. apply H.
  - repeat (apply clean_all; [vm_compute; reflexivity|]). now apply plain_clean.
Qed.

Lemma ground_inj s1 s2 : plain_name s1 -> plain_name s2 ->
  texify_ground_state (chars s1) = texify_ground_state (chars s2) -> s1 = s2.
Proof.
  intros H1 H2 E. destruct (ground_plain s1 H1) as (l1 & E1 & C1 & R1), (ground_plain s2 H2) as (l2 & E2 & C2 & R2).
  rewrite E1, E2 in E. apply wrap_inj in E; [|easy|easy]. subst l2. apply chars_inj. congruence.
Qed.

(** ** Brackets *)

Local Opaque texify_ground_state.

Lemma positions_none c l : forall i, ~ In c l -> positions c i l = [].
Proof.
  induction l as [|d l IH]; intros i H; cbn [positions]; [reflexivity|].
  destruct (Ascii.eqb_spec d c); [subst; exfalso; apply H; now left|]. apply IH. intros K. apply H. now right.
Qed.
Lemma positions_app c a : forall i b, positions c i (a ++ b) = positions c i a ++ positions c (i + List.length a)%nat b.
Proof.
  induction a as [|d a IH]; intros i b; cbn [positions app List.length].
  - now rewrite Nat.add_0_r.
  - rewrite IH. replace (S i + List.length a)%nat with (i + S (List.length a))%nat by lia. now destruct (Ascii.eqb d c).
Qed.


Lemma texify_plain s : bracket_free (chars s) -> texify_species s = Ok (str_of (texify_ground_state (chars s))).
Proof. intros [H1 H2]. unfold texify_species. now rewrite (positions_none _ _ _ H1), (positions_none _ _ _ H2). Qed.

Lemma texify_state s x : bracket_free (chars s) -> bracket_free (chars x) ->
  texify_species (s ++ "(" ++ x ++ ")") = Ok (str_of (texify_ground_state (chars s)) ++ " (" ++ x ++ ")")%string.
Proof.
  intros [H1 H2] [X1 X2]. unfold texify_species. rewrite !chars_app. cbn [chars app].
  rewrite !positions_app. rewrite (positions_none _ _ _ H1), (positions_none _ _ _ H2).
  cbn [positions app Ascii.eqb Bool.eqb]. rewrite !positions_app, (positions_none _ _ _ X1), (positions_none _ _ _ X2).
  cbn [positions app Ascii.eqb Bool.eqb]. rewrite !app_length. cbn [List.length]. rewrite !app_length. cbn [List.length].
  destruct (Nat.ltb_spec (0 + List.length (chars s))%nat (S (0 + List.length (chars s)) + List.length (chars x))%nat); [|lia].
  cbn [negb].
  destruct (Nat.eqb_spec (S (0 + List.length (chars s)) + List.length (chars x))%nat
     (pred (List.length (chars s) + S (List.length (chars x) + 1)))); [|lia].
  cbn [negb]. f_equal. apply chars_inj. rewrite chars_str_of, !chars_app, chars_str_of. cbn [plus].
  rewrite firstn_app, Nat.sub_diag, firstn_all, skipn_app, Nat.sub_diag, skipn_all. cbn [firstn skipn app].
  now rewrite app_nil_r.
Qed.

(** All other uses of brackets are refused. *)
Lemma positions_lt c l : forall i j, In j (positions c i l) -> (i <= j < i + List.length l)%nat.
Proof.
  induction l as [|d l IH]; intros i j H; cbn in *; [easy|].
  destruct (Ascii.eqb d c).
  - destruct H as [<-|H]; [lia|]. apply IH in H. lia.
  - apply IH in H. lia.
Qed.
Lemma positions_nil c l i : positions c i l = [] -> ~ In c l.
Proof.
  revert i. induction l as [|d l IH]; intros i H; [easy|]. cbn in H.
  destruct (Ascii.eqb_spec d c) as [E|E]; [discriminate|]. intros [K|K]; [congruence|]. now apply (IH (S i)).
Qed.
Lemma positions_one c l : forall i j, positions c i l = [j] ->
  exists a b, l = a ++ c :: b /\ ~ In c a /\ ~ In c b /\ j = (i + List.length a)%nat.
Proof.
  induction l as [|d l IH]; intros i j H; cbn in H; [discriminate|].
  destruct (Ascii.eqb_spec d c) as [E|E].
  - injection H as -> H. exists [], l. subst d. cbn. repeat split; [easy| |lia]. now apply positions_nil in H.
  - destruct (IH (S i) j H) as (a & b & -> & A & B & J). exists (d :: a), b. cbn.
    repeat split; [|easy|lia]. intros [K|K]; [congruence|easy].
Qed.

Lemma Err_inj {A} (a b : exn) : @Err A a = Err b -> a = b.
Proof. congruence. Qed.
Lemma Ok_Err {A} (a : A) e : Ok a = Err e -> False.
Proof. congruence. Qed.
Lemma texify_ok_shape n t : texify_species n = Ok t ->
  bracket_free (chars n) \/ exists s x, n = (s ++ "(" ++ x ++ ")")%string /\ bracket_free (chars s) /\ bracket_free (chars x).
Proof.
  unfold texify_species. destruct (positions "(" 0 (chars n)) as [|i [|? ?]] eqn:P1,
    (positions ")" 0 (chars n)) as [|j [|? ?]] eqn:P2; intros H; try (symmetry in H; now apply Ok_Err in H).
  - left. split; eapply positions_nil; eauto.
  - right. destruct (Nat.ltb_spec i j); [|discriminate]. cbn [negb] in H.
    destruct (Nat.eqb_spec j (pred (List.length (chars n)))) as [J|]; [|discriminate].
    destruct (positions_one _ _ _ _ P2) as (a & b & E & A & B & Jj). cbn in Jj.
    assert (b = []). { rewrite E, app_length in J. cbn in J. destruct b; [reflexivity|cbn in J; lia]. } subst b.
    destruct (positions_one _ _ _ _ P1) as (a' & b' & E' & A' & B' & Ii). cbn in Ii.
    assert (G : exists y, a = a' ++ "("%char :: y /\ b' = y ++ [")"%char]).
    { rewrite E in E'. clear - E' A A' B'. revert a' E' A'. induction a as [|c a IH]; intros [|d a'] E' A'; cbn in E'.
      - injection E' as E1 E2. discriminate.
      - injection E' as E1 E2. destruct a'; discriminate.
      - injection E' as -> E2. exists a. split; [reflexivity|]. now rewrite E2.
      - injection E' as -> E2. destruct (IH) with (a' := a') as (y & -> & ->); [|easy| |].
        + intros K. apply A. now right.
        + intros K. apply A'. now right.
        + exists y. easy. }
    destruct G as (y & -> & ->). exists (str_of a'), (str_of y). split; [|split; split].
    + apply chars_inj. rewrite !chars_app, !chars_str_of, E. cbn. now rewrite <- app_assoc.
    + now rewrite chars_str_of.
    + rewrite chars_str_of. intros K. apply A. apply in_or_app. now left.
    + rewrite chars_str_of. intros K. apply B'. apply in_or_app. now left.
    + rewrite chars_str_of. intros K. apply A. apply in_or_app. right. now right.
Qed.

Lemma texify_error n e : texify_species n = Err e -> e = EAssertion.
Proof.
  unfold texify_species. intros H.
  destruct (positions "(" 0 (chars n)) as [|i [|? ?]]; destruct (positions ")" 0 (chars n)) as [|j [|? ?]];
    try (apply Err_inj in H; now symmetry); try (now apply Ok_Err in H).
  destruct (negb _); [apply Err_inj in H; now symmetry|]. destruct (negb _); [apply Err_inj in H; now symmetry|].
  now apply Ok_Err in H.
Qed.

(** ** Names with states *)

(** The text of a bracket-free name has no bracket. *)
Lemma F_nobr l c : In c (fst (F l)) -> In c l \/ In c (chars " \mathrm{}").
Proof.
  induction l as [|d l IH]; [now left|]. rewrite F_cons. unfold wrap_step. destruct (F l) as [o e]. cbn [fst] in IH.
  destruct (is_alpha d), e; cbn [fst]; cbn -[chars]; intros H;
    repeat (apply in_app_or in H as [H|H] || destruct H as [H|H]); subst; auto; try (now left; left);
    try (destruct (IH H); [left; now right|now right]); right; cbn; tauto.
Qed.
Lemma wrap_chars l c : In c (wrap_letters l) -> In c l \/ In c (chars " \mathrm{}").
Proof.
  unfold wrap_letters. fold (F l). destruct l as [|d l]; [apply F_nobr|]. destruct (is_alpha d); [|apply F_nobr].
  rewrite in_app_iff. intros [H|H]; [|now apply F_nobr]. right. cbn in *. tauto.
Qed.
Lemma ground_bracket_free s : plain_name s -> bracket_free (texify_ground_state (chars s)).
Proof.
  intros H. destruct (ground_plain s H) as (l & -> & C & _). rewrite forallb_forall in C.
  split; intros K; apply wrap_chars in K as [K|K];
    try (apply C in K; discriminate); cbn in K; repeat (destruct K as [K|K]; [discriminate|]); easy.
Qed.
Lemma plain_bracket_free s : plain_name s -> bracket_free (chars s).
Proof. intros [H _]. split; intros K; apply H in K; tauto. Qed.

Lemma split_bracket a b x y : ~ In "("%char a -> ~ In "("%char b ->
  a ++ "("%char :: x = b ++ "("%char :: y -> a = b /\ x = y.
Proof.
  revert b. induction a as [|c a IH]; intros [|d b] A B E; cbn in E.
  - injection E as ->. easy.
  - injection E as <- _. exfalso. apply B. now left.
  - injection E as -> _. exfalso. apply A. now left.
  - injection E as -> E. apply IH in E as [-> ->]; [easy| |]; intros K; [apply A|apply B]; now right.
Qed.

Lemma texify_total s : stated s -> exists t, texify_species s = Ok t.
Proof.
  intros [s' H|s' x H X].
  - rewrite texify_plain by now apply plain_bracket_free. eauto.
  - rewrite texify_state; [eauto|now apply plain_bracket_free|easy].
Qed.

Lemma texify_inj s1 s2 t : stated s1 -> stated s2 ->
  texify_species s1 = Ok t -> texify_species s2 = Ok t -> s1 = s2.
Proof.
  assert (G : forall s, str_of (texify_ground_state (chars s)) = str_of (texify_ground_state (chars s))) by reflexivity.
  assert (Mixed : forall p q x, plain_name p -> plain_name q ->
            str_of (texify_ground_state (chars p)) = (str_of (texify_ground_state (chars q)) ++ " (" ++ x ++ ")")%string -> False).
  { intros p q x Hp Hq E. apply (f_equal chars) in E. rewrite !chars_app, !chars_str_of in E.
    destruct (ground_bracket_free p Hp) as [B _]. apply B. rewrite E. apply in_or_app. right. cbn. auto. }
  intros [p Hp|p x Hp X] [q Hq|q y Hq Y].
  - rewrite (texify_plain p), (texify_plain q) by now apply plain_bracket_free. intros E1 E2. apply ground_inj; [easy|easy|].
    apply Ok_inj in E1. apply Ok_inj in E2. rewrite <- E2 in E1. apply (f_equal chars) in E1. rewrite !chars_str_of in E1. exact E1.
  - rewrite (texify_plain p), (texify_state q y) by (easy || now apply plain_bracket_free). intros E1 E2. exfalso.
    apply Ok_inj in E1. apply Ok_inj in E2. apply (Mixed p q y); [easy|easy|]. rewrite E1. symmetry. exact E2.
  - rewrite (texify_plain q), (texify_state p x) by (easy || now apply plain_bracket_free). intros E1 E2. exfalso.
    apply Ok_inj in E1. apply Ok_inj in E2. apply (Mixed q p x); [easy|easy|]. rewrite E2. symmetry. exact E1.
  - rewrite (texify_state p x), (texify_state q y) by (easy || now apply plain_bracket_free). intros E1 E2.
    apply Ok_inj in E1. apply Ok_inj in E2. rewrite <- E2 in E1. apply (f_equal chars) in E1.
    rewrite !chars_app, !chars_str_of in E1. cbn [chars app] in E1.
    change (?g ++ " "%char :: ?r) with (g ++ [" "%char] ++ r) in E1. rewrite !(app_assoc _ [" "%char]) in E1.
    apply split_bracket in E1 as [E1 E3].
    + apply app_inv_tail in E1. apply ground_inj in E1; [|easy|easy]. subst q.
      apply app_inv_tail in E3. apply chars_inj in E3. now subst y.
    + rewrite in_app_iff. intros [K|[K|[]]]; [exact (proj1 (ground_bracket_free p Hp) K)|discriminate].
    + rewrite in_app_iff. intros [K|[K|[]]]; [exact (proj1 (ground_bracket_free q Hq) K)|discriminate].
Qed.
