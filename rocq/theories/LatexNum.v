(** Decimal texts: the digits of a number, rounding, dropping zeros. *)
From Coq Require Import Qabs Qround Lqa.
From Verif Require Import Base BaseLemmas Species Reactions Latex LatexSpec.

(** ** Digits *)

Lemma digit_value_char z : 0 <= z < 10 -> digit_value (digit_char z) = Some z.
Proof.
  intros H. assert (C : z = 0 \/ z = 1 \/ z = 2 \/ z = 3 \/ z = 4 \/ z = 5 \/ z = 6 \/ z = 7 \/ z = 8 \/ z = 9) by lia.
  repeat (destruct C as [->|C]; [reflexivity|]). subst. reflexivity.
Qed.

Lemma digit_char_zero z : 0 <= z < 10 -> digit_char z = "0"%char <-> z = 0.
Proof.
  intros H. split; [|now intros ->]. intros E.
  apply (f_equal digit_value) in E. rewrite digit_value_char in E by easy. cbn in E. congruence.
Qed.

Lemma digit_char_point z : 0 <= z < 10 -> digit_char z <> "."%char.
Proof.
  intros H E. apply (f_equal digit_value) in E. rewrite digit_value_char in E by easy. discriminate.
Qed.
Lemma digit_char_minus z : 0 <= z < 10 -> digit_char z <> "-"%char.
Proof.
  intros H E. apply (f_equal digit_value) in E. rewrite digit_value_char in E by easy. discriminate.
Qed.

Lemma digits_from_acc fuel : forall z acc, digits_from fuel z acc = digits_from fuel z [] ++ acc.
Proof.
  induction fuel as [|f IH]; intros z acc; cbn [digits_from]; [reflexivity|].
  destruct (z <? 10); [reflexivity|]. rewrite IH, (IH _ [_]), <- app_assoc. reflexivity.
Qed.

(** More steps than needed change nothing. *)
Lemma digits_from_more f : forall g z, 0 <= z < 2 ^ Z.of_nat f -> (f <= g)%nat -> (0 < f)%nat ->
  digits_from f z [] = digits_from g z [].
Proof.
  induction f as [|f IH]; intros g z Hz Hg H0; [lia|]. destruct g as [|g]; [lia|]. cbn [digits_from].
  destruct (Z.ltb_spec z 10); [reflexivity|].
  rewrite (digits_from_acc f), (digits_from_acc g). f_equal.
  destruct f as [|f]. { cbn in Hz. lia. }
  apply IH; try lia. replace (Z.of_nat (S (S f))) with (Z.succ (Z.of_nat (S f))) in Hz by lia.
  rewrite Z.pow_succ_r in Hz by lia. split; [apply Z.div_pos; lia|].
  apply Z.div_lt_upper_bound; lia.
Qed.

Lemma fuel_enough z : 0 <= z -> z < 2 ^ Z.of_nat (S (Z.to_nat (Z.log2 z))).
Proof.
  intros H. destruct (Z.eq_dec z 0) as [->|N]; [reflexivity|].
  rewrite Nat2Z.inj_succ, Z2Nat.id by apply Z.log2_nonneg. apply Z.log2_spec. lia.
Qed.

Lemma digits_small z : 0 <= z < 10 -> digits z = [digit_char z].
Proof. intros H. unfold digits. cbn [digits_from]. destruct (Z.ltb_spec z 10); [reflexivity|lia]. Qed.

Lemma digits_snoc z : 10 <= z -> digits z = digits (z / 10) ++ [digit_char (z mod 10)].
Proof.
  intros H. unfold digits at 1. cbn [digits_from]. destruct (Z.ltb_spec z 10); [lia|].
  rewrite digits_from_acc. f_equal.
  assert (L : 1 <= Z.log2 z) by (apply Z.log2_le_pow2; lia).
  assert (P : 0 < z / 10) by (apply Z.div_str_pos; lia).
  assert (L2 : Z.log2 (z / 10) < Z.log2 z).
  { apply Z.log2_lt_pow2; [lia|]. destruct (Z.log2_spec z) as [_ U]; [lia|].
    rewrite Z.pow_succ_r in U by lia. apply Z.div_lt_upper_bound; lia. }
  symmetry. apply digits_from_more; try lia.
  split; [lia|]. apply fuel_enough. lia.
Qed.

Definition value_of (l : list ascii) : option Z := digits_value 0 l.

Lemma digits_value_app a : forall v b,
  digits_value v (a ++ b) = match digits_value v a with Some w => digits_value w b | None => None end.
Proof.
  induction a as [|c a IH]; intros v b; cbn; [reflexivity|]. destruct (digit_value c); [apply IH|reflexivity].
Qed.

Lemma digits_ind (P : Z -> Prop) :
  (forall z, 0 <= z < 10 -> P z) -> (forall z, 10 <= z -> P (z / 10) -> P z) -> forall z, 0 <= z -> P z.
Proof.
  intros H1 H2 z Hz. revert z Hz.
  assert (G : forall n z, 0 <= z < Z.of_nat n -> P z).
  { induction n as [|n IH]; intros z Hz; [lia|]. destruct (Z.ltb_spec z 10); [apply H1; lia|].
    apply H2; [lia|]. apply IH. split; [apply Z.div_pos; lia|]. apply Z.div_lt_upper_bound; lia. }
  intros z Hz. apply (G (S (Z.to_nat z))). lia.
Qed.

Lemma digits_value_digits z : 0 <= z -> digits_value 0 (digits z) = Some z.
Proof.
  revert z. apply digits_ind; intros z H.
  - rewrite digits_small by easy. cbn [digits_value]. rewrite digit_value_char by easy. f_equal; lia.
  - intros IH. rewrite digits_snoc, digits_value_app, IH by easy. cbn [digits_value].
    rewrite digit_value_char by (apply Z.mod_pos_bound; lia).
    f_equal. pose proof (Z.div_mod z 10). lia.
Qed.

Lemma digits_chars z : 0 <= z -> forall c, In c (digits z) -> exists d, 0 <= d < 10 /\ c = digit_char d.
Proof.
  revert z. apply (digits_ind (fun z => forall c, In c (digits z) -> exists d, 0 <= d < 10 /\ c = digit_char d)); intros z H.
  - intros c. rewrite digits_small by easy. intros [<-|[]]. now exists z.
  - intros IH c. rewrite digits_snoc by easy. rewrite in_app_iff. intros [Hc|[<-|[]]]; [auto|].
    exists (z mod 10). split; [apply Z.mod_pos_bound; lia|reflexivity].
Qed.

Lemma digits_nonempty z : 0 <= z -> digits z <> [].
Proof.
  revert z. apply digits_ind; intros z H.
  - now rewrite digits_small.
  - intros _. rewrite digits_snoc by easy. destruct (digits (z / 10)); discriminate.
Qed.

Lemma digits_nopoint z : 0 <= z -> ~ In "."%char (digits z).
Proof. intros H Hin. destruct (digits_chars z H _ Hin) as (d & Hd & E). symmetry in E. now apply digit_char_point in E. Qed.
Lemma digits_nominus z : 0 <= z -> ~ In "-"%char (digits z).
Proof. intros H Hin. destruct (digits_chars z H _ Hin) as (d & Hd & E). symmetry in E. now apply digit_char_minus in E. Qed.

(** ** Reading numerals *)

Lemma cut_none l : ~ In "."%char l -> cut_point l = (l, None).
Proof.
  induction l as [|c l IH]; intros H; cbn [cut_point]; [reflexivity|].
  destruct (Ascii.eqb_spec c "."); [subst; exfalso; apply H; now left|].
  rewrite IH; [reflexivity|]. intros F. apply H. now right.
Qed.
Lemma cut_at a b : ~ In "."%char a -> cut_point (a ++ "."%char :: b) = (a, Some b).
Proof.
  induction a as [|c a IH]; intros H; cbn [cut_point app].
  - reflexivity.
  - destruct (Ascii.eqb_spec c "."); [subst; exfalso; apply H; now left|].
    rewrite IH; [reflexivity|]. intros F. apply H. now right.
Qed.

Lemma unsigned_int z : 0 <= z -> unsigned_value (digits z) = Some (inject_Z z).
Proof.
  intros H. unfold unsigned_value. rewrite cut_none by now apply digits_nopoint.
  pose proof (digits_nonempty z H) as N. pose proof (digits_value_digits z H) as V.
  destruct (digits z); [congruence|]. now rewrite V.
Qed.
Lemma unsigned_frac z f v : 0 <= z -> f <> [] -> digits_value 0 f = Some v ->
  unsigned_value (digits z ++ "."%char :: f) =
    Some (inject_Z z + inject_Z v / inject_Z (10 ^ Z.of_nat (List.length f)))%Q.
Proof.
  intros H N Hf. unfold unsigned_value. rewrite cut_at by now apply digits_nopoint.
  pose proof (digits_nonempty z H) as N2. pose proof (digits_value_digits z H) as V.
  destruct (digits z); [congruence|]. destruct f; [congruence|]. now rewrite V, Hf.
Qed.

(** A sign before an unsigned numeral. *)
Definition signed (neg : bool) (l : list ascii) : string := str_of ((if neg then ["-"%char] else []) ++ l).
Lemma numeral_signed neg l : ~ In "-"%char l ->
  numeral_value (signed neg l) = match unsigned_value l with Some q => Some (if neg then - q else q)%Q | None => None end.
Proof.
  intros H. unfold numeral_value, signed. rewrite chars_str_of. destruct neg; cbn [app]; [reflexivity|].
  destruct l as [|c l]; [reflexivity|].
  assert (G : c <> "-"%char) by (intros ->; apply H; now left).
  destruct (unsigned_value (c :: l)) eqn:E;
  destruct c as [[] [] [] [] [] [] [] []]; try rewrite E; try reflexivity; congruence.
Qed.

(** ** Dropping zeros *)

Definition dz (c : ascii) : bool := Ascii.eqb c "." || Ascii.eqb c "0".
Definition strip (l : list ascii) : list ascii := rstrip_l dz l.

Lemma strip_snoc_keep l c : dz c = false -> strip (l ++ [c]) = l ++ [c].
Proof. intros H. unfold strip, rstrip_l. rewrite rev_app_distr. cbn. rewrite H. cbn. now rewrite rev_involutive. Qed.
Lemma strip_snoc_drop l c : dz c = true -> strip (l ++ [c]) = strip l.
Proof. intros H. unfold strip, rstrip_l. rewrite rev_app_distr. cbn. now rewrite H. Qed.
Lemma rstrip_signed neg l : rstrip_dot0 (signed neg l) = signed neg (strip l).
Proof.
  unfold rstrip_dot0, signed. rewrite chars_str_of. f_equal. change (rstrip_l _ ?x) with (strip x).
  destruct neg; cbn [app]; [|reflexivity].
  induction l as [|c l IH] using rev_ind; [reflexivity|].
  destruct (dz c) eqn:E.
  - rewrite (strip_snoc_drop l) by easy. change ("-"%char :: l ++ [c]) with (("-"%char :: l) ++ [c]).
    rewrite strip_snoc_drop by easy. exact IH.
  - rewrite (strip_snoc_keep l) by easy. change ("-"%char :: l ++ [c]) with (("-"%char :: l) ++ [c]).
    now rewrite strip_snoc_keep.
Qed.

Lemma dz_digit d : 0 <= d < 10 -> dz (digit_char d) = (d =? 0).
Proof.
  intros H. assert (C : d = 0 \/ d = 1 \/ d = 2 \/ d = 3 \/ d = 4 \/ d = 5 \/ d = 6 \/ d = 7 \/ d = 8 \/ d = 9) by lia.
  repeat (destruct C as [->|C]; [reflexivity|]). subst. reflexivity.
Qed.

(** Whole numbers: nothing is dropped unless the last digit is zero. *)
Lemma strip_digits_keep z : 0 <= z -> z mod 10 <> 0 -> strip (digits z) = digits z.
Proof.
  intros H N. destruct (Z.ltb_spec z 10).
  - rewrite digits_small by lia. apply (strip_snoc_keep []). rewrite dz_digit by lia.
    rewrite Z.mod_small in N by lia. now apply Z.eqb_neq.
  - rewrite digits_snoc by lia. apply strip_snoc_keep.
    rewrite dz_digit by (apply Z.mod_pos_bound; lia). now apply Z.eqb_neq.
Qed.
Lemma strip_digits_zero : strip (digits 0) = [].
Proof. reflexivity. Qed.
Lemma strip_digits_drop z : 0 < z -> z mod 10 = 0 ->
  exists k, 0 < k < z /\ strip (digits z) = digits k.
Proof.
  intros H N. assert (G : 0 <= z) by lia. revert z G H N.
  apply (digits_ind (fun z => 0 < z -> z mod 10 = 0 -> exists k, 0 < k < z /\ strip (digits z) = digits k)).
  - intros z H P N. rewrite Z.mod_small in N by lia. lia.
  - intros z H IH P N. rewrite digits_snoc, N by lia. rewrite strip_snoc_drop by reflexivity.
    assert (B : 0 < z / 10 < z) by (split; [apply Z.div_str_pos; lia|apply Z.div_lt; lia]).
    destruct (Z.eq_dec (z / 10 mod 10) 0) as [E|E].
    + destruct IH as (k & K & S); [lia|easy|]. exists k. split; [lia|easy].
    + exists (z / 10). split; [lia|]. now apply strip_digits_keep; [lia|].
Qed.

(** ** Rounding *)

Lemma Qle_bool_false x y : Qle_bool x y = false <-> (y < x)%Q.
Proof.
  rewrite <- Bool.not_true_iff_false, Qle_bool_iff. split; [apply Qnot_le_lt|apply Qlt_not_le].
Qed.

Lemma round_even_close q : (Qabs (inject_Z (round_even q) - q) <= 1 # 2)%Q.
Proof.
  unfold round_even. pose proof (Qfloor_le q) as L. pose proof (Qlt_floor q) as U.
  set (f := Qfloor q) in *. rewrite inject_Z_plus in U. change (inject_Z 1) with 1%Q in U.
  apply Qabs_Qle_condition.
  destruct (Qle_bool (1 # 2) (q - inject_Z f)) eqn:A.
  - apply Qle_bool_iff in A. destruct (Qle_bool (q - inject_Z f) (1 # 2)) eqn:B.
    + apply Qle_bool_iff in B. destruct (Z.even f).
      * split; lra.
      * rewrite inject_Z_plus. change (inject_Z 1) with 1%Q. split; lra.
    + rewrite inject_Z_plus. change (inject_Z 1) with 1%Q. split; lra.
  - apply Qle_bool_false in A. split; lra.
Qed.

Lemma round_even_nonneg q : (0 <= q)%Q -> 0 <= round_even q.
Proof.
  intros H. assert (F : 0 <= Qfloor q) by (change 0 with (Qfloor 0); now apply Qfloor_resp_le).
  unfold round_even. destruct (Qle_bool _ _); [destruct (Qle_bool _ _); [destruct (Z.even _)|]|]; lia.
Qed.

Lemma round_even_lower q z : (inject_Z z <= q)%Q -> z <= round_even q.
Proof.
  intros H. assert (F : z <= Qfloor q) by (rewrite <- (Qfloor_Z z); now apply Qfloor_resp_le).
  unfold round_even. destruct (Qle_bool _ _); [destruct (Qle_bool _ _); [destruct (Z.even _)|]|]; lia.
Qed.
Lemma round_even_upper q z : (q < inject_Z z)%Q -> round_even q <= z.
Proof.
  intros H. assert (F : Qfloor q < z).
  { rewrite Zlt_Qlt. eapply Qle_lt_trans; [apply Qfloor_le|easy]. }
  unfold round_even. destruct (Qle_bool _ _); [destruct (Qle_bool _ _); [destruct (Z.even _)|]|]; lia.
Qed.

(** ** Texts with two decimals *)

(** The digits of [n] hundredths as [str] prints them. *)
Definition hundredths (n : Z) : list ascii :=
  let f := n mod 100 in
  digits (n / 100) ++ "."%char :: digit_char (f / 10) :: (if f mod 10 =? 0 then [] else [digit_char (f mod 10)]).

Lemma show_hundredths_signed neg n : show_hundredths neg n = signed neg (hundredths n).
Proof. reflexivity. Qed.

Lemma digits2_value a b : 0 <= a < 10 -> 0 <= b < 10 -> digits_value 0 [digit_char a; digit_char b] = Some (10 * a + b).
Proof. intros Ha Hb. cbn [digits_value]. rewrite !digit_value_char by easy. f_equal. Qed.

Lemma app_cons_snoc {A} (a : list A) x y : a ++ x :: [y] = (a ++ [x]) ++ [y].
Proof. now rewrite <- app_assoc. Qed.

Lemma Qhundred n : (inject_Z n / inject_Z 100 == n # 100)%Q.
Proof. unfold Qdiv, Qmult, Qeq; cbn. lia. Qed.

Lemma strip_hundredths n : 0 <= n ->
  (n mod 1000 <> 0 -> exists v, unsigned_value (strip (hundredths n)) = Some v /\ (v == n # 100)%Q) /\
  (n mod 1000 = 0 -> n <> 0 -> exists k, 0 < k /\ k * 100 < n /\ strip (hundredths n) = digits k) /\
  (n = 0 -> strip (hundredths n) = []) /\
  ~ In "-"%char (strip (hundredths n)).
Proof.
  intros Hn. unfold hundredths. set (f := n mod 100).
  assert (F : 0 <= f < 100) by (apply Z.mod_pos_bound; lia).
  assert (F1 : 0 <= f / 10 < 10) by (split; [apply Z.div_pos; lia|apply Z.div_lt_upper_bound; lia]).
  assert (F2 : 0 <= f mod 10 < 10) by (apply Z.mod_pos_bound; lia).
  assert (N : n = 100 * (n / 100) + f) by (apply Z.div_mod; lia).
  assert (P : 0 <= n / 100) by (apply Z.div_pos; lia).
  assert (M : n mod 1000 = 0 <-> f = 0 /\ n / 100 mod 10 = 0).
  { pose proof (Z.div_mod (n / 100) 10). pose proof (Z.mod_pos_bound (n / 100) 10).
    replace (n mod 1000) with (100 * (n / 100 mod 10) + f); [lia|].
    apply Z.mod_unique with (q := n / 100 / 10); lia. }
  assert (D : f = 10 * (f / 10) + f mod 10) by (apply Z.div_mod; lia).
  assert (MI : forall l, (forall c, In c l -> exists d, 0 <= d < 10 /\ c = digit_char d) ->
               ~ In "-"%char (digits (n / 100) ++ "."%char :: l)).
  { intros l Hl. rewrite in_app_iff. intros [G|[G|G]]; [now apply digits_nominus in G|discriminate|].
    destruct (Hl _ G) as (d & Hd & E). symmetry in E. now apply digit_char_minus in E. }
  destruct (Z.eqb_spec (f mod 10) 0) as [Z0|Z0].
  - destruct (Z.eq_dec (f / 10) 0) as [Z1|Z1].
    + (* a whole number *)
      assert (f = 0) by lia. rewrite Z1. rewrite app_cons_snoc.
      rewrite strip_snoc_drop by reflexivity. rewrite strip_snoc_drop by reflexivity.
      repeat split.
      * intros G. rewrite strip_digits_keep by (try lia; intros K; apply G; tauto).
        rewrite unsigned_int by easy. eexists. split; [reflexivity|]. unfold Qeq; cbn. lia.
      * intros G G0. destruct (strip_digits_drop (n / 100)) as (k & K & S); [lia|tauto|].
        exists k. split; [lia|]. split; [lia|easy].
      * intros ->. reflexivity.
      * destruct (Z.eq_dec (n / 100 mod 10) 0) as [K|K].
        -- destruct (Z.eq_dec (n / 100) 0) as [->|L].
           ++ rewrite strip_digits_zero. auto.
           ++ destruct (strip_digits_drop (n / 100)) as (k & K2 & ->); [lia|easy|]. apply digits_nominus. lia.
        -- rewrite strip_digits_keep by easy. now apply digits_nominus.
    + (* one decimal *)
      rewrite app_cons_snoc.
      rewrite strip_snoc_keep by (rewrite dz_digit by easy; now apply Z.eqb_neq). rewrite <- app_assoc. cbn [app].
      repeat split.
      * intros _. rewrite unsigned_frac with (v := f / 10); [|easy|discriminate|].
        -- eexists. split; [reflexivity|]. change (10 ^ Z.of_nat _) with 10.
           unfold Qeq, Qplus, Qdiv, Qmult, Qinv, inject_Z. cbn -[Z.mul Z.add Z.div]. lia.
        -- cbn [digits_value]. rewrite digit_value_char by easy. f_equal.
      * intros G. tauto || lia.
      * intros ->. exfalso. apply Z1. reflexivity.
      * apply MI. intros c [<-|[]]. eauto.
  - (* two decimals *)
    replace (digits (n / 100) ++ "."%char :: digit_char (f / 10) :: [digit_char (f mod 10)])
      with ((digits (n / 100) ++ ["."%char; digit_char (f / 10)]) ++ [digit_char (f mod 10)])
      by now rewrite <- app_assoc.
    rewrite strip_snoc_keep by (rewrite dz_digit by easy; now apply Z.eqb_neq). rewrite <- app_assoc. cbn [app].
    repeat split.
    + intros _. rewrite unsigned_frac with (v := f); [|easy|discriminate|].
      * eexists. split; [reflexivity|]. change (10 ^ Z.of_nat _) with 100.
        unfold Qeq, Qplus, Qdiv, Qmult, Qinv, inject_Z. cbn -[Z.mul Z.add Z.div]. lia.
      * rewrite digits2_value by easy. f_equal. lia.
    + intros G. assert (f = 0) by tauto. lia.
    + intros ->. exfalso. apply Z0. reflexivity.
    + apply MI. intros c [<-|[<-|[]]]; eauto.
Qed.
