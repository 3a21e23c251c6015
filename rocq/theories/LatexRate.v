(** Which numbers survive in the LaTeX texts; the text of a rate
    coefficient. *)
From Coq Require Import Qabs Qround Qpower Lqa.
From Verif Require Import Base BaseLemmas Species Reactions Latex LatexSpec LatexNum.

Lemma round_even_even x m : Z.even m = true -> (Qabs (x - inject_Z m) <= 1 # 2)%Q -> round_even x = m.
Proof.
  intros Ev H. apply Qabs_Qle_condition in H as [L U].
  unfold round_even. pose proof (Qfloor_le x) as FL. pose proof (Qlt_floor x) as FU.
  set (f := Qfloor x) in *. rewrite inject_Z_plus in FU. change (inject_Z 1) with 1%Q in FU.
  assert (C : f = m \/ f = m - 1).
  { assert (A : (inject_Z (m - 1) <= x)%Q) by (unfold Z.sub; rewrite inject_Z_plus; change (inject_Z (- (1))) with (-1)%Q; lra).
    assert (B : (x < inject_Z (m + 1))%Q) by (rewrite inject_Z_plus; change (inject_Z 1) with 1%Q; lra).
    assert (A' : (inject_Z (m - 1) < inject_Z (f + 1))%Q) by (rewrite inject_Z_plus; change (inject_Z 1) with 1%Q; lra).
    assert (B' : (inject_Z f < inject_Z (m + 1))%Q) by lra.
    rewrite <- Zlt_Qlt in A', B'. lia. }
  destruct C as [->|C].
  - rewrite Ev. destruct (Qle_bool (1 # 2) (x - inject_Z m)) eqn:A; [|reflexivity].
    destruct (Qle_bool (x - inject_Z m) (1 # 2)) eqn:B; [reflexivity|].
    apply Qle_bool_false in B. exfalso. lra.
  - assert (Im : (inject_Z f == inject_Z m - 1)%Q).
    { rewrite C. unfold Z.sub. rewrite inject_Z_plus. change (inject_Z (- (1))) with (-1)%Q. lra. }
    assert (A : Qle_bool (1 # 2) (x - inject_Z f) = true) by (apply Qle_bool_iff; lra). rewrite A.
    assert (Od : Z.even f = false) by (rewrite C, Z.even_sub, Ev; reflexivity). rewrite Od.
    clear - C.
    destruct (Qle_bool _ _); lia.
Qed.

(** ** Rounded numbers without their zeros *)

Lemma rounded_text E q : (Qabs q <= inject_Z (10 ^ 12))%Q ->
  denotes_within (1 # 200) (rstrip_dot0 (show_rounded E (Fin q))) q <->
  ~ exists k, (Qabs (inject_Z (10 * k) - q) <= 1 # 200)%Q.
Proof.
  intros Hq. cbn [show_rounded]. set (n := round_even (Qabs q * 100)).
  assert (Hn : 0 <= n).
  { apply round_even_nonneg. pose proof (Qabs_nonneg q). lra. }
  assert (Cl : (Qabs (inject_Z n - Qabs q * 100) <= 1 # 2)%Q) by apply round_even_close.
  assert (Hlt : n < 10 ^ 15).
  { apply Qabs_Qle_condition in Cl as [_ U]. assert (G : (inject_Z n < inject_Z (10 ^ 15))%Q).
    { eapply Qle_lt_trans with (inject_Z (10 ^ 12) * 100 + (1 # 2))%Q; [lra|reflexivity]. }
    now rewrite <- Zlt_Qlt in G. }
  apply Z.ltb_lt in Hlt. rewrite Hlt. rewrite show_hundredths_signed, rstrip_signed.
  destruct (strip_hundredths n Hn) as (K & D & Z0 & NM).
  set (neg := negb (Qle_bool 0 q)).
  assert (Sg : (if neg then q < 0 else 0 <= q)%Q).
  { unfold neg. destruct (Qle_bool 0 q) eqn:A; cbn; [now apply Qle_bool_iff|now apply Qle_bool_false]. }
  assert (Ab : (Qabs q == if neg then - q else q)%Q).
  { destruct neg; [rewrite Qabs_neg; lra|rewrite Qabs_pos; lra]. }
  assert (I100 : (inject_Z n == (n # 100) * 100)%Q) by (unfold Qeq; cbn; lia).
  apply Qabs_Qle_condition in Cl.
  split.
  - (* a multiple of ten is lost *)
    intros (v & V & Cv) (k & Hk).
    assert (T : n = 1000 * Z.abs k).
    { apply round_even_even.
      - now rewrite Z.even_mul.
      - apply Qabs_Qle_condition. apply Qabs_Qle_condition in Hk. rewrite inject_Z_mult in *.
        change (inject_Z 1000) with 1000%Q. change (inject_Z 10) with 10%Q in Hk.
        destruct (Z.abs_spec k) as [[P ->]|[P ->]].
        + assert (P' : (0 <= inject_Z k)%Q) by (change 0%Q with (inject_Z 0); now rewrite <- Zle_Qle).
          destruct neg; [|lra].
          destruct (Z.eq_dec k 0) as [->|N]; [change (inject_Z 0) with 0%Q in *; lra|].
          assert (P2 : (1 <= inject_Z k)%Q) by (change 1%Q with (inject_Z 1); rewrite <- Zle_Qle; lia). lra.
        + assert (P' : (inject_Z k <= -1)%Q) by (change (-1)%Q with (inject_Z (-1)); rewrite <- Zle_Qle; lia).
          rewrite inject_Z_opp. destruct neg; lra. }
    clearbody n. rewrite numeral_signed in V by easy.
    destruct (Z.eq_dec n 0) as [N|N].
    + rewrite Z0 in V by easy. discriminate.
    + destruct D as (j & J1 & J2 & J); [rewrite T, Z.mul_comm; now apply Z.mod_mul|easy|].
      rewrite J, unsigned_int in V by lia. injection V as <-.
      apply Qabs_Qle_condition in Cv.
      assert (B : (inject_Z j <= (n # 100) - 1)%Q).
      { assert (G : exists i, n = 100 * i) by (exists (10 * Z.abs k); lia). destruct G as [i ->].
        assert (Gi : ((100 * i) # 100 == inject_Z i)%Q) by (unfold Qeq; cbn -[Z.mul]; lia). rewrite Gi.
        assert (L : j <= i - 1) by lia. rewrite Zle_Qle in L. unfold Z.sub in L. rewrite inject_Z_plus in L.
        change (inject_Z (- (1))) with (-1)%Q in L. lra. }
      destruct neg; lra.
  - intros NT. destruct (Z.eq_dec (n mod 1000) 0) as [M|M].
    + exfalso. apply NT. apply Z.div_exact in M; [|lia].
      assert (In : (inject_Z n == 1000 * inject_Z (n / 1000))%Q) by (rewrite M at 1; rewrite inject_Z_mult; reflexivity).
      exists (if neg then - (n / 1000) else n / 1000). apply Qabs_Qle_condition. destruct neg.
      * rewrite Z.mul_opp_r, inject_Z_opp, inject_Z_mult. change (inject_Z 10) with 10%Q. lra.
      * rewrite inject_Z_mult. change (inject_Z 10) with 10%Q. lra.
    + destruct (K M) as (v & V & Ev). unfold denotes_within. rewrite numeral_signed by easy. rewrite V.
      eexists. split; [reflexivity|]. apply Qabs_Qle_condition. destruct neg; lra.
Qed.

(** ** Scientific notation *)

Lemma Qpower_2S f : (Qpower 2 (Z.of_nat (S f)) == 2 * Qpower 2 (Z.of_nat f))%Q.
Proof.
  replace (Z.of_nat (S f)) with (1 + Z.of_nat f) by lia. rewrite Qpower_plus by (intros H; discriminate H).
  reflexivity.
Qed.
Lemma Qpower_10_plus a b : (Qpower 10 (a + b) == Qpower 10 a * Qpower 10 b)%Q.
Proof. apply Qpower_plus. intros H. discriminate H. Qed.
Lemma Qpower_10_pos e : (0 < Qpower 10 e)%Q.
Proof. apply Qpower_0_lt. reflexivity. Qed.

Lemma scale_down_spec f : forall q e, (0 < q)%Q -> (q < Qpower 2 (Z.of_nat f))%Q ->
  let (q', e') := scale_down f q e in
  (q * Qpower 10 e == q' * Qpower 10 e')%Q /\ (0 < q' /\ q' < 10)%Q.
Proof.
  induction f as [|f IH]; intros q e P H; cbn [scale_down].
  - split; [reflexivity|]. change (Qpower 2 (Z.of_nat 0)) with 1%Q in H. lra.
  - destruct (Qle_bool 10 q) eqn:A.
    + rewrite Qpower_2S in H. specialize (IH (q / 10)%Q (e + 1)).
      assert (P' : (0 < q / 10)%Q) by (apply Qlt_shift_div_l; [reflexivity|lra]).
      assert (H' : (q / 10 < Qpower 2 (Z.of_nat f))%Q).
      { apply Qlt_shift_div_r; [reflexivity|]. lra. }
      specialize (IH P' H'). destruct (scale_down f (q / 10) (e + 1)) as [q' e']. destruct IH as [IH1 IH2].
      split; [|easy]. rewrite <- IH1. rewrite Qpower_10_plus. change (Qpower 10 1) with 10%Q. field.
    + apply Qle_bool_false in A. split; [reflexivity|lra].
Qed.

Lemma scale_up_spec f : forall q e, (0 < q /\ q < 10)%Q -> (1 <= q * Qpower 2 (Z.of_nat f))%Q ->
  let (q', e') := scale_up f q e in
  (q * Qpower 10 e == q' * Qpower 10 e')%Q /\ (1 <= q' /\ q' < 10)%Q.
Proof.
  induction f as [|f IH]; intros q e P H; cbn [scale_up].
  - split; [reflexivity|]. change (Qpower 2 (Z.of_nat 0)) with 1%Q in H. lra.
  - destruct (Qle_bool 1 q) eqn:A.
    + apply Qle_bool_iff in A. split; [reflexivity|lra].
    + apply Qle_bool_false in A. rewrite Qpower_2S in H. specialize (IH (q * 10)%Q (e - 1)).
      assert (P2 : (0 < Qpower 2 (Z.of_nat f))%Q) by (apply Qpower_0_lt; reflexivity).
      assert (P' : (0 < q * 10 /\ q * 10 < 10)%Q) by lra.
      assert (H' : (1 <= q * 10 * Qpower 2 (Z.of_nat f))%Q).
      { assert (G : (0 < q * Qpower 2 (Z.of_nat f))%Q) by (apply Qmult_lt_0_compat; lra). lra. }
      specialize (IH P' H'). destruct (scale_up f (q * 10) (e - 1)) as [q' e']. destruct IH as [IH1 IH2].
      split; [|easy]. rewrite <- IH1. replace e with (e - 1 + 1) at 1 by lia. rewrite Qpower_10_plus.
      change (Qpower 10 1) with 10%Q. ring.
Qed.

Lemma Qpower_2_nat f : (Qpower 2 (Z.of_nat f) == inject_Z (2 ^ Z.of_nat f))%Q.
Proof.
  induction f as [|f IH]; [reflexivity|].
  rewrite Qpower_2S, IH. rewrite Nat2Z.inj_succ, Z.pow_succ_r by lia. now rewrite inject_Z_mult.
Qed.

Lemma scientific_spec q : (0 < q)%Q ->
  let (s, e) := scientific q in (q == s * Qpower 10 e)%Q /\ (1 <= s /\ s < 10)%Q.
Proof.
  intros P. unfold scientific.
  assert (Pn : 0 < Qnum q) by (unfold Qlt in P; cbn in P; lia).
  pose proof (scale_down_spec (S (Z.to_nat (Z.log2 (Qnum q)))) q 0 P) as SD.
  destruct (scale_down (S (Z.to_nat (Z.log2 (Qnum q)))) q 0) as [q1 e1].
  destruct SD as [E1 [B1 B2]].
  { rewrite Qpower_2_nat. pose proof (fuel_enough (Qnum q)) as F. apply Qle_lt_trans with (inject_Z (Qnum q)).
    - unfold Qle; cbn. nia.
    - rewrite <- Zlt_Qlt. apply F. lia. }
  pose proof (scale_up_spec (S (Z.to_nat (Z.log2 (Zpos (Qden q1))))) q1 e1 (conj B1 B2)) as SU.
  destruct (scale_up (S (Z.to_nat (Z.log2 (Zpos (Qden q1))))) q1 e1) as [s e].
  destruct SU as [E2 B3].
  { rewrite Qpower_2_nat. pose proof (fuel_enough (Zpos (Qden q1))) as F.
    set (w := 2 ^ _) in *. assert (G : Zpos (Qden q1) < w) by (apply F; lia).
    assert (N1 : 0 < Qnum q1) by (unfold Qlt in B1; cbn in B1; lia).
    clearbody w. clear - N1 G. destruct q1 as [a d]. unfold Qle, Qmult, inject_Z; cbn [Qnum Qden] in *.
    rewrite Pos.mul_1_r. nia. }
  split; [|easy]. rewrite <- E2, <- E1. change (Qpower 10 0) with 1%Q. ring.
Qed.

(** The significand with two decimals, without its zeros. *)
Definition sig2 (m : Z) : list ascii :=
  digits (m / 100) ++ ["."%char; digit_char (m mod 100 / 10); digit_char (m mod 10)].
Lemma mod_mod_10 m : m mod 100 mod 10 = m mod 10.
Proof.
  symmetry. rewrite (Z.div_mod m 100) at 1 by lia. rewrite Z.add_comm.
  replace (100 * (m / 100)) with ((10 * (m / 100)) * 10) by lia. now rewrite Z.mod_add by lia.
Qed.
Lemma strip_sig2 m : 0 <= m -> strip (sig2 m) = strip (hundredths m).
Proof.
  intros H. unfold sig2, hundredths. rewrite mod_mod_10. destruct (Z.eqb_spec (m mod 10) 0) as [E|E]; [|reflexivity].
  rewrite E.
  replace (digits (m / 100) ++ ["."%char; digit_char (m mod 100 / 10); digit_char 0])
    with ((digits (m / 100) ++ ["."%char; digit_char (m mod 100 / 10)]) ++ [digit_char 0]) by now rewrite <- app_assoc.
  now rewrite strip_snoc_drop.
Qed.

Lemma show_int_denotes z : denotes (show_int z) (inject_Z z).
Proof.
  unfold denotes, show_int. change (str_of ((if z <? 0 then ["-"%char] else []) ++ digits (Z.abs z))) with (signed (z <? 0) (digits (Z.abs z))).
  rewrite numeral_signed by (apply digits_nominus; lia). rewrite unsigned_int by lia.
  eexists. split; [reflexivity|]. destruct (Z.ltb_spec z 0).
  - rewrite Z.abs_neq, inject_Z_opp by lia. ring.
  - now rewrite Z.abs_eq by lia.
Qed.

Lemma sig2_value neg m : 100 <= m < 1000 ->
  exists v, numeral_value (rstrip_dot0 (signed neg (sig2 m))) = Some v /\ (v == if neg then - (m # 100) else m # 100)%Q.
Proof.
  intros H. rewrite rstrip_signed, strip_sig2 by lia. destruct (strip_hundredths m) as (K & _ & _ & NM); [lia|].
  destruct K as (v & V & Ev); [rewrite Z.mod_small by lia; lia|].
  rewrite numeral_signed, V by easy. eexists. split; [reflexivity|]. destruct neg; now rewrite Ev.
Qed.

(** The text of the pre-exponential factor. *)
Lemma factor_text q : ~ (q == 0)%Q -> exists t e,
  format_2E (Fin q) = Ok (t, e) /\
  scientific_text (if e =? 0 then rstrip_dot0 t else (rstrip_dot0 t ++ " \times 10^{" ++ show_int e ++ "}")%string) q.
Proof.
  intros N. cbn [format_2E]. destruct (Qeq_bool q 0) eqn:A; [exfalso; apply N; now apply Qeq_bool_iff|].
  assert (P : (0 < Qabs q)%Q).
  { destruct (Qlt_le_dec 0 (Qabs q)) as [L|L]; [easy|]. exfalso. apply N.
    pose proof (Qle_Qabs q). pose proof (Qle_Qabs (- q)) as G. rewrite Qabs_opp in G. lra. }
  pose proof (scientific_spec (Qabs q) P) as S. destruct (scientific (Qabs q)) as [s e]. destruct S as [Eq [B1 B2]].
  set (neg := negb (Qle_bool 0 q)).
  assert (SgT : forall m, str_of ((if Qle_bool 0 q then [] else ["-"%char]) ++ digits (m / 100) ++
                ["."%char; digit_char (m mod 100 / 10); digit_char (m mod 10)]) = signed neg (sig2 m)).
  { intros m. unfold signed, neg. now destruct (Qle_bool 0 q). }
  assert (Ab : (q == if neg then - Qabs q else Qabs q)%Q).
  { unfold neg. destruct (Qle_bool 0 q) eqn:C; cbn.
    - apply Qle_bool_iff in C. now rewrite Qabs_pos.
    - apply Qle_bool_false in C. rewrite Qabs_neg by lra. ring. }
  set (m := round_even (s * 100)).
  assert (Cl : (Qabs (inject_Z m - s * 100) <= 1 # 2)%Q) by apply round_even_close.
  apply Qabs_Qle_condition in Cl.
  assert (M1 : 100 <= m) by (apply round_even_lower; change (inject_Z 100) with 100%Q; lra).
  assert (M2 : m <= 1000) by (apply round_even_upper; change (inject_Z 1000) with 1000%Q; lra).
  pose proof (Qpower_10_pos e) as Pe.
  assert (Finish : forall m' e', 100 <= m' < 1000 ->
            (Qabs ((m' # 100) * Qpower 10 e' - Qabs q) <= (1 # 200) * Qpower 10 e')%Q ->
            scientific_text (if e' =? 0 then rstrip_dot0 (signed neg (sig2 m'))
               else (rstrip_dot0 (signed neg (sig2 m')) ++ " \times 10^{" ++ show_int e' ++ "}")%string) q).
  { intros m' e' Hm Hc. destruct (sig2_value neg m' Hm) as (v & V & Ev).
    exists (rstrip_dot0 (signed neg (sig2 m'))), v, e'. split; [easy|].
    assert (Bm : (1 <= m' # 100 /\ m' # 100 < 10)%Q) by (unfold Qle, Qlt; cbn; lia).
    split.
    { rewrite Ev. destruct neg; [rewrite Qabs_opp|]; rewrite Qabs_pos; lra. }
    split.
    { apply Qabs_Qle_condition in Hc. apply Qabs_Qle_condition. rewrite Ev.
      set (w := ((m' # 100) * Qpower 10 e')%Q) in *.
      destruct neg.
      - assert (G : (- (m' # 100) * Qpower 10 e' == - w)%Q) by (unfold w; ring). rewrite G. lra.
      - fold w. lra. }
    destruct (Z.eqb_spec e' 0); [left; easy|]. right. split; [easy|].
    exists (show_int e'). split; [apply show_int_denotes|reflexivity]. }
  destruct (Z.eqb_spec m 1000) as [Em|Em].
  - eexists _, _. split; [reflexivity|]. rewrite SgT. apply Finish; [lia|].
    rewrite Qpower_10_plus. change (Qpower 10 1) with 10%Q. rewrite Eq.
    rewrite Em in Cl. change (inject_Z 1000) with 1000%Q in Cl.
    assert (G1 : (s * Qpower 10 e <= 10 * Qpower 10 e)%Q) by (apply Qmult_le_compat_r; lra).
    assert (G2 : ((10 - (1 # 200)) * Qpower 10 e <= s * Qpower 10 e)%Q) by (apply Qmult_le_compat_r; lra).
    apply Qabs_Qle_condition. change (100 # 100)%Q with (100 # 100)%Q.
    assert (G3 : (100 # 100 == 1)%Q) by reflexivity. rewrite G3. lra.
  - eexists _, _. split; [reflexivity|]. rewrite SgT. apply Finish; [lia|].
    rewrite Eq. assert (I : (inject_Z m == (m # 100) * 100)%Q) by (unfold Qeq; cbn; lia). rewrite I in Cl.
    assert (G1 : ((s - (1 # 200)) * Qpower 10 e <= (m # 100) * Qpower 10 e)%Q) by (apply Qmult_le_compat_r; lra).
    assert (G2 : ((m # 100) * Qpower 10 e <= (s + (1 # 200)) * Qpower 10 e)%Q) by (apply Qmult_le_compat_r; lra).
    apply Qabs_Qle_condition. lra.
Qed.

(** ** The whole coefficient *)

Lemma feqb_fin_zero q : feqb (Fin q) fzero = true <-> (q == 0)%Q.
Proof. cbn. apply Qeq_bool_iff. Qed.
Lemma feqb_fin_nonzero q : ~ (q == 0)%Q -> feqb (Fin q) fzero = false.
Proof. intros H. destruct (feqb (Fin q) fzero) eqn:E; [|reflexivity]. exfalso. apply H. now apply feqb_fin_zero. Qed.

Lemma append_nil_r (s : string) : (s ++ "")%string = s.
Proof. induction s as [|c s IH]; cbn; congruence. Qed.

Lemma rate_text E si dfrac r a b c el :
  get_arrh_a E si r = Ok (Some (Fin a)) -> get_arrh_bc E "arrh_b" r = Ok (Some (Fin b)) ->
  get_arrh_bc E "arrh_c" r = Ok (Some (Fin c)) -> is_electron_process r = Ok el ->
  ~ (a == 0)%Q -> (Qabs b <= inject_Z (10 ^ 12))%Q -> (Qabs c <= inject_Z (10 ^ 12))%Q ->
  exists ta tb tc,
    texify_rate_coefficient E si dfrac r = Ok (ta ++ tb ++ tc)%string /\
    scientific_text ta a /\
    ((b == 0)%Q /\ tb = ""%string \/
     ~ (b == 0)%Q /\ exists x, tb = power_text el dfrac x /\ (denotes_within (1 # 200) x b <-> ~ multiple_of_ten b)) /\
    ((c == 0)%Q /\ tc = ""%string \/
     ~ (c == 0)%Q /\ exists x, tc = exp_text el dfrac (if Qlt_le_dec 0 c then "-" else "") x /\
                     (denotes_within (1 # 200) x (Qabs c) <-> ~ multiple_of_ten (Qabs c))).
Proof.
  intros Ha Hb Hc He Na Bb Bc. unfold texify_rate_coefficient. rewrite Ha. cbn [bind].
  destruct (factor_text a Na) as (t & e & F & Sc). rewrite F. cbn [bind fst snd].
  set (ta := if e =? 0 then _ else _) in *. exists ta.
  rewrite Hb. cbn [bind]. rewrite Hc, He. cbn [bind].
  assert (TB : exists tb,
    (if feqb (Fin b) fzero then Ok ""%string
     else Ok (if el then (" T_\mathrm{e}^{" ++ rstrip_dot0 (show_rounded E (Fin b)) ++ "}")%string
              else if dfrac then (" \left( \dfrac{\mathrm{T_g}}{300} \right)^{" ++ rstrip_dot0 (show_rounded E (Fin b)) ++ "}")%string
              else (" \left( \mathrm{T_g}/300 \right)^{" ++ rstrip_dot0 (show_rounded E (Fin b)) ++ "}")%string)) = Ok tb /\
    ((b == 0)%Q /\ tb = ""%string \/
     ~ (b == 0)%Q /\ exists x, tb = power_text el dfrac x /\ (denotes_within (1 # 200) x b <-> ~ multiple_of_ten b))).
  { destruct (feqb (Fin b) fzero) eqn:Z.
    - apply feqb_fin_zero in Z. eexists. split; [reflexivity|]. now left.
    - assert (N : ~ (b == 0)%Q) by (intros K; apply feqb_fin_zero in K; congruence).
      eexists. split; [reflexivity|]. right. split; [easy|]. exists (rstrip_dot0 (show_rounded E (Fin b))).
      split; [now destruct el, dfrac|]. now apply rounded_text. }
  destruct TB as (tb & -> & TB). cbn [bind]. exists tb.
  destruct (feqb (Fin c) fzero) eqn:Z; cbn [bind].
  - apply feqb_fin_zero in Z. exists ""%string. split; [reflexivity|]. split; [easy|]. split; [easy|]. now left.
  - assert (N : ~ (c == 0)%Q) by (intros K; apply feqb_fin_zero in K; congruence).
    eexists. split; [reflexivity|]. split; [easy|]. split; [easy|]. right. split; [easy|].
    exists (rstrip_dot0 (show_rounded E (Fin (Qabs c)))). split.
    + cbn [fabs fltb fzero]. unfold exp_text.
      assert (S : (negb (Qle_bool c 0)) = if Qlt_le_dec 0 c then true else false).
      { destruct (Qlt_le_dec 0 c) as [L|L].
        - apply Bool.negb_true_iff. now apply Qle_bool_false.
        - apply Bool.negb_false_iff. now apply Qle_bool_iff. }
      rewrite S. destruct (Qlt_le_dec 0 c); now destruct el, dfrac.
    + apply rounded_text. rewrite Qabs_pos by apply Qabs_nonneg. easy.
Qed.

(** Without pre-exponential factor there is no text. *)
Lemma rate_missing E si dfrac r : get_arrh_a E si r = Ok None -> texify_rate_coefficient E si dfrac r = Err EType.
Proof. intros H. unfold texify_rate_coefficient. now rewrite H. Qed.

(** The cell of the energy loss. *)
Lemma loss_text E r x : get_rx_float E "el_en_loss" r = Ok (Fin x) -> (Qabs x <= inject_Z (10 ^ 12))%Q ->
  ((x == 0)%Q -> cell E ColLoss r = Ok ""%string) /\
  (~ (x == 0)%Q -> exists t, cell E ColLoss r = Ok t /\ (denotes_within (1 # 200) t x <-> ~ multiple_of_ten x)).
Proof.
  intros H B. cbn [cell]. rewrite H. cbn [bind]. split; intros Z.
  - apply feqb_fin_zero in Z. now rewrite Z.
  - rewrite feqb_fin_nonzero by easy. eexists. split; [reflexivity|]. now apply rounded_text.
Qed.
