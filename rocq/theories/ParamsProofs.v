From Verif Require Import Base BaseLemmas GlobalModel ModelParams ParamsSpec.
From Coq Require Import QArith Lqa.

Lemma sget_means a k : sget a alternative2nominal = Some k <-> means a k.
Proof.
  replace alternative2nominal with spellings by reflexivity. unfold means. split.
  - apply (aget_In String.eqb Seqb_spec).
  - apply (In_aget String.eqb Seqb_spec). repeat constructor; cbn; intuition congruence.
Qed.

Lemma means_fun a k k' : means a k -> means a k' -> k = k'.
Proof. rewrite <- !sget_means. congruence. Qed.

Lemma means_mandatory a k : means a k -> In k mandatory.
Proof. unfold means. cbn. intros H. repeat (destruct H as [H|H]; [inversion H; subst; tauto|]). destruct H. Qed.

Lemma mandatory_means k : In k mandatory -> means k k.
Proof. unfold means. cbn. intros H. repeat (destruct H as [<-|H]; [tauto|]). destruct H. Qed.

(** ** Numbers *)

Lemma a_number_of s f : a_number s f <-> number_of s = Some f /\ f <> NaN.
Proof.
  unfold a_number. split.
  - intros [N [(z & -> & ->)|[-> | ->]]]; split; auto.
  - intros [H N]. split; [exact N|]. destruct s; cbn in H; try discriminate; inversion H; subst; eauto.
Qed.

Lemma a_number_fun s f g : a_number s f -> a_number s g -> f = g.
Proof. rewrite !a_number_of. intros [A _] [B _]. congruence. Qed.

Lemma is_nan_false f : is_nan f = false <-> f <> NaN.
Proof. destruct f; cbn; split; congruence. Qed.

Lemma above_iff f : f <> NaN -> (fleb f fzero = false <-> above_zero f).
Proof.
  unfold fleb, fzero. destruct f; cbn; intros; try (split; [discriminate|tauto]); try tauto.
  rewrite orb_false_iff, negb_false_iff. split.
  - intros [A B]. apply Qle_bool_iff in A. destruct (Qle_lt_or_eq _ _ A) as [L|L]; [exact L|].
    symmetry in L. apply Qeq_bool_iff in L. congruence.
  - intros A. split; [apply Qle_bool_iff; lra|]. destruct (Qeq_bool q 0) eqn:B; [|reflexivity].
    apply Qeq_bool_iff in B. lra.
Qed.

Lemma nonneg_iff f : f <> NaN -> (fltb f fzero = false <-> not_below_zero f).
Proof.
  unfold fzero. destruct f; cbn; intros; try (split; [discriminate|tauto]); try tauto.
  rewrite negb_false_iff. apply Qle_bool_iff.
Qed.

Definition sign_prop (k : sign) : flt -> Prop :=
  match k with Positive => above_zero | NonNegative => not_below_zero | Any => fun _ => True end.

Lemma number_ok k s : assert_is_number k s = Ok tt <-> exists f, a_number s f /\ sign_prop k f.
Proof.
  unfold assert_is_number. split.
  - intros H. destruct (number_of s) as [f|] eqn:N; [|discriminate].
    destruct (is_nan f) eqn:NN; [discriminate|]. exists f. split.
    + apply a_number_of. split; [exact N|]. now apply is_nan_false.
    + apply is_nan_false in NN. destruct k; cbn in *; unfold raise_if in H.
      * destruct (fleb f fzero) eqn:L; [discriminate|]. now apply above_iff.
      * destruct (fltb f fzero) eqn:L; [discriminate|]. now apply nonneg_iff.
      * exact I.
  - intros (f & N & P). apply a_number_of in N. destruct N as [-> N].
    rewrite (proj2 (is_nan_false f) N). destruct k; cbn in *; unfold raise_if.
    + now rewrite (proj2 (above_iff f N) P).
    + now rewrite (proj2 (nonneg_iff f N) P).
    + reflexivity.
Qed.

Lemma check_all_ok {A} (f : A -> res unit) l : check_all f l = Ok tt <-> forall x, In x l -> f x = Ok tt.
Proof.
  induction l as [|x l IH]; cbn; [split; tauto|]. unfold bind. split.
  - intros H. destruct (f x) as [[]|] eqn:F; [|discriminate]. rewrite IH in H. intros y [<-|Y]; auto.
  - intros H. rewrite (H x (or_introl eq_refl)). apply IH. intros y Y. apply H. now right.
Qed.

(** ** Arrays *)

Lemma elements_items h o l : elements h o l <-> items h o = Some l.
Proof.
  unfold elements. destruct o; cbn; split; intros H;
    repeat match goal with
           | H : _ \/ _ |- _ => destruct H
           | H : exists _, _ |- _ => destruct H
           | H : _ /\ _ |- _ => destruct H
           end; try congruence.
  - left. congruence.
  - right; left. exists a. split; congruence.
  - right; right. exists d. split; congruence.
Qed.

Lemma array_ok h k other o l :
  items h o = Some l ->
  (check_array h k other o l = Ok tt <->
   array_of (sign_prop k) h o l /\ forall o', other = Some o' -> size h o' = List.length l).
Proof.
  intros I. unfold check_array, array_of. rewrite elements_items.
  unfold raise_if at 1. destruct (Nat.ltb_spec (List.length l) 2) as [L|L]; cbn [bind].
  { split; [discriminate|]. intros [(_ & B & _) _]. lia. }
  split.
  - intros H. destruct (check_all (assert_is_number k) l) as [[]|] eqn:C; [|discriminate].
    rewrite check_all_ok in C. cbn [bind] in H. split.
    + split; [exact I|]. split; [lia|]. intros s S. apply number_ok. auto.
    + intros o' ->. unfold raise_if in H. destruct (Nat.eqb_spec (size h o') (List.length l)); [assumption|discriminate].
  - intros [(_ & _ & N) O]. assert (C : check_all (assert_is_number k) l = Ok tt).
    { apply check_all_ok. intros s S. apply number_ok. auto. }
    rewrite C. cbn [bind]. destruct other as [o'|]; [|reflexivity].
    rewrite (O o' eq_refl), Nat.eqb_refl. reflexivity.
Qed.

Lemma feeds_ok d f : make_feeds d = Ok f <->
  f = d /\ forall n s, In (n, s) d -> (exists x, n = SStr x) /\ exists f, a_number s f /\ above_zero f.
Proof.
  unfold make_feeds. set (g := fun kv : scalar * scalar => _).
  assert (G : forall n s, g (n, s) = Ok tt <-> (exists x, n = SStr x) /\ exists f, a_number s f /\ above_zero f).
  { intros n s. unfold g. cbn [fst snd]. rewrite <- (number_ok Positive). destruct n; cbn; split; intros H;
      try discriminate; try (destruct H as [[x X] _]; discriminate).
    - split; [eauto|exact H].
    - apply H. }
  split.
  - intros H. destruct (check_all g d) as [[]|] eqn:C; [|discriminate]. cbn in H. inversion H; subst. split; [reflexivity|].
    rewrite check_all_ok in C. intros n s I. apply G, C, I.
  - intros [-> H]. assert (C : check_all g d = Ok tt). { apply check_all_ok. intros [n s] I. apply G. eauto. }
    now rewrite C.
Qed.

(** ** One parameter *)

Definition sc_of (o : obj) : scalar := match o with OSc s => s | _ => SNone end.
Definition dict_of (o : obj) := match o with ODict d => d | _ => [] end.
Definition entry (k : string) (o : obj) : pval :=
  if memS k numeric then PNum (sc_of o)
  else if String.eqb k "feeds" then PFeeds (dict_of o) else PPower.

Definition new_power (k : string) (o : obj) (p : power) : power :=
  if String.eqb k "power" then MkPower (Some o) (pw_time p)
  else if String.eqb k "t_power" then MkPower (pw_power p) (Some o) else p.

Lemma size_items h o l : items h o = Some l -> size h o = List.length l.
Proof. unfold size. now intros ->. Qed.

(** The other one of the two arrays. *)
Definition other (k : string) (p : power) : option obj :=
  if String.eqb k "power" then pw_time p else if String.eqb k "t_power" then pw_power p else None.
Definition fits (h : heap) (k : string) (o : obj) (p : power) : Prop :=
  forall b, other k p = Some b -> size h b = size h o.

Lemma numeric_case k (P : Prop) : In k mandatory -> (In k numeric -> memS k numeric = true -> P) ->
  (k = "power" -> P) -> (k = "t_power" -> P) -> (k = "feeds" -> P) -> P.
Proof. intros M A B C D. cbn in M. repeat (destruct M as [<-|M]; [cbn in *; tauto|]). destruct M. Qed.

Lemma numeric_not k : In k numeric -> (k =? "power")%string = false /\ (k =? "t_power")%string = false /\ (k =? "feeds")%string = false.
Proof. cbn. intros H. repeat (destruct H as [<-|H]; [repeat split; reflexivity|]). destruct H. Qed.

Lemma set_param_iff h m a k o m' : means a k ->
  (set_param h m (a, o) = Ok m' <->
   proper_value h k o /\ fits h k o (mp_power m) /\
   m' = MkParams (sset k (entry k o) (mp_dict m)) (new_power k o (mp_power m))).
Proof.
  intros M. unfold set_param. cbn [fst snd]. rewrite (proj2 (sget_means a k) M).
  pose proof (means_mandatory a k M) as MM.
  apply (numeric_case k); [exact MM| | | |].
  - intros N NB. change ["radius"; "length"; "pressure"; "temp_gas"; "t_end"] with numeric. rewrite NB.
    destruct (numeric_not k N) as (E1 & E2 & E3).
    unfold entry, new_power, fits, other, proper_value. rewrite NB, E1, E2. split.
    + intros H. destruct o; try discriminate. destruct (assert_is_number Positive s) as [[]|] eqn:A; [|discriminate].
      cbn in H. inversion H; subst. apply number_ok in A. destruct A as (f & A1 & A2).
      split; [left; split; [exact N|]; exists s, f; auto|]. split; [discriminate|]. destruct m; reflexivity.
    + intros ([(_ & s & f & -> & A1 & A2)|P] & _ & ->).
      * rewrite (proj2 (number_ok Positive s)); [|exists f; auto]. cbn. destruct m; reflexivity.
      * exfalso. destruct P as [[-> _]|[[-> _]|[-> _]]]; discriminate.
  - intros ->. unfold entry, new_power, fits, other, proper_value. cbn [memS existsb numeric String.eqb Ascii.eqb Bool.eqb].
    unfold assert_is_collection, set_power. split.
    + intros H. destruct (items h o) as [l|] eqn:I; [|discriminate]. cbn in H.
      destruct (check_array h NonNegative (pw_time (mp_power m)) o l) as [[]|] eqn:C; [|discriminate]. cbn in H.
      apply array_ok in C; [|exact I]. destruct C as [C1 C2]. inversion H; subst. split; [right; left; split; [reflexivity|eauto]|].
      split; [|reflexivity]. cbn. intros b B. rewrite (C2 b B). symmetry. now apply size_items.
    + intros ([(N & _)|[(_ & l & A)|P]] & F & ->).
      * exfalso. cbn in N. intuition discriminate.
      * pose proof A as (EL & _). apply elements_items in EL. rewrite EL. cbn [bind].
        rewrite (proj2 (array_ok h NonNegative (pw_time (mp_power m)) o l EL)); [reflexivity|].
        split; [exact A|]. intros o' O. rewrite <- (size_items h o l EL). apply F. exact O.
      * exfalso. destruct P as [[? _]|[? _]]; discriminate.
  - intros ->. unfold entry, new_power, fits, other, proper_value. cbn [memS existsb numeric String.eqb Ascii.eqb Bool.eqb].
    unfold assert_is_collection, set_time. split.
    + intros H. destruct (items h o) as [l|] eqn:I; [|discriminate]. cbn in H.
      destruct (check_array h Any (pw_power (mp_power m)) o l) as [[]|] eqn:C; [|discriminate]. cbn in H.
      apply array_ok in C; [|exact I]. destruct C as [C1 C2]. inversion H; subst. split; [right; right; left; split; [reflexivity|eauto]|].
      split; [|reflexivity]. cbn. intros b B. rewrite (C2 b B). symmetry. now apply size_items.
    + intros ([(N & _)|[(? & _)|[(_ & l & A)|P]]] & F & ->).
      * exfalso. cbn in N. intuition discriminate.
      * discriminate.
      * pose proof A as (EL & _). apply elements_items in EL. rewrite EL. cbn [bind].
        rewrite (proj2 (array_ok h Any (pw_power (mp_power m)) o l EL)); [reflexivity|].
        split; [exact A|]. intros o' O. rewrite <- (size_items h o l EL). apply F. exact O.
      * exfalso. destruct P as [? _]; discriminate.
  - intros ->. unfold entry, new_power, fits, other, proper_value. cbn [memS existsb numeric String.eqb Ascii.eqb Bool.eqb].
    split.
    + intros H. destruct o; try discriminate. destruct (make_feeds d) as [f|] eqn:F; [|discriminate]. cbn in H.
      apply feeds_ok in F. destruct F as [-> F]. inversion H; subst.
      split; [right; right; right; split; [reflexivity|]; exists d; auto|]. split; [discriminate|]. destruct m; reflexivity.
    + intros ([(N & _)|[(? & _)|[(? & _)|(_ & d & -> & F)]]] & _ & ->); try discriminate.
      * exfalso. cbn in N. intuition discriminate.
      * rewrite (proj2 (feeds_ok d d)); [|auto]. cbn. destruct m; reflexivity.
Qed.

Definition raises_params {A} (r : res A) : Prop :=
  forall e, r = Err e -> e = EModelParams \/ e = EModelParamsType \/ e = EModelParamsConsistency.

Lemma number_raises k s : raises_params (assert_is_number k s).
Proof.
  intros e H. unfold assert_is_number, raise_if in H. destruct (number_of s) as [f|]; [|inversion H; auto].
  destruct (is_nan f); [inversion H; auto|].
  destruct k; try discriminate; [destruct (fleb f fzero)|destruct (fltb f fzero)]; inversion H; auto.
Qed.

Lemma check_all_raises {A} (f : A -> res unit) l : (forall x, raises_params (f x)) -> raises_params (check_all f l).
Proof.
  intros F. induction l as [|x l IH]; cbn; intros e H; [discriminate|]. destruct (f x) as [[]|e'] eqn:X; cbn in H.
  - now apply IH.
  - inversion H; subst. now apply (F x).
Qed.

Lemma check_array_raises h k ot o l : raises_params (check_array h k ot o l).
Proof.
  intros e H. unfold check_array, raise_if in H. destruct (Nat.ltb (List.length l) 2); [inversion H; auto|]. cbn in H.
  destruct (check_all (assert_is_number k) l) as [[]|e'] eqn:C.
  - cbn in H. destruct ot as [o'|]; [|discriminate].
    destruct (negb _); inversion H; auto.
  - inversion H; subst. exact (check_all_raises _ l (number_raises k) e C).
Qed.

Lemma set_param_raises h m a k o : means a k -> raises_params (set_param h m (a, o)).
Proof.
  intros M e. unfold set_param. cbn [fst snd]. rewrite (proj2 (sget_means a k) M).
  destruct (memS k _).
  { destruct o; intros H; try (inversion H; auto; fail). destruct (assert_is_number Positive s) as [[]|] eqn:A; inversion H; subst.
    now apply (number_raises Positive s). }
  destruct (k =? "power")%string.
  { unfold assert_is_collection, set_power. destruct (items h o); cbn; intros H; [|inversion H; auto].
    destruct (check_array h NonNegative _ o l) as [[]|] eqn:C; inversion H; subst. now apply (check_array_raises _ _ _ _ _ e) in C. }
  destruct (k =? "t_power")%string.
  { unfold assert_is_collection, set_time. destruct (items h o); cbn; intros H; [|inversion H; auto].
    destruct (check_array h Any _ o l) as [[]|] eqn:C; inversion H; subst. now apply (check_array_raises _ _ _ _ _ e) in C. }
  destruct (k =? "feeds")%string; [|intros H; inversion H; auto].
  destruct o; intros H; try (inversion H; auto; fail). unfold make_feeds in H.
  set (g := fun kv : scalar * scalar => _) in H.
  destruct (check_all g d) as [[]|] eqn:C; inversion H; subst.
  apply (check_all_raises g d); [|exact C]. intros [n s] e' X. unfold g in X. cbn [fst snd] in X.
  destruct n; cbn in X; try (inversion X; auto; fail). now apply (number_raises Positive s).
Qed.
