(** The rate coefficient of a Reaction object and the one of the simulation;
    names and the HPEM text. *)
From Coq Require Import Reals Qreals Lra Lia.
From Verif Require Import Base BaseLemmas Species Reactions Chemistry ChemSpec ChemDisable ChemInv ChemHist ChemLoad ChemGetters
  MolSpec ReactionProofs ExtReal Equations EqSpec EqPure Views ConserveSpec Conserve LinkSpec Links RateCoef.
Open Scope R_scope.

(** ** The law *)
Lemma xpow_positive t b : 0 < t -> xpow (X t) b = X (Rpower t b).
Proof.
  intros Ht. unfold xpow, Rsgn. destruct (Rlt_dec b 0) as [Hb|Hb]; [destruct (Rlt_dec t 0); [lra|]; destruct (Rlt_dec 0 t); [reflexivity|lra]|].
  destruct (Rlt_dec 0 b) as [Hb'|Hb'].
  - destruct (Rlt_dec t 0); [lra|]. destruct (Rlt_dec 0 t); [reflexivity|lra].
  - replace b with 0 by lra. now rewrite Rpower_O.
Qed.

Lemma xdiv_nonzero a t : t <> 0 -> xdiv (X a) (X t) = X (a / t).
Proof. intros H. cbn. destruct (Req_EM_T t 0); [contradiction|reflexivity]. Qed.

Lemma rate_law E si r a b c el t :
  get_arrh_a E si r = Ok (Some (Fin a)) -> get_arrh_bc E "arrh_b" r = Ok (Some (Fin b)) ->
  get_arrh_bc E "arrh_c" r = Ok (Some (Fin c)) -> is_electron_process r = Ok el -> 0 < t ->
  get_rate_coefficient E si r (X t) =
    Ok (X (Q2R a * Rpower (if el then t else t / 300) (Q2R b) * exp (- Q2R c / t))).
Proof.
  intros Ha Hb Hc He Ht. unfold get_rate_coefficient. rewrite Ha, Hb, Hc, He. cbn [bind xof xopp xpowf].
  rewrite (xdiv_nonzero _ t), (xdiv_nonzero t 300) by lra.
  destruct el; rewrite xpow_positive by lra; reflexivity.
Qed.

Lemma rate_missing E si r t : get_arrh_a E si r = Ok None -> get_rate_coefficient E si r t = Err EReactionValue.
Proof. intros H. unfold get_rate_coefficient. now rewrite H. Qed.

(** ** Units *)
Lemma Rsgn_scale a q : 0 < q -> Rsgn (a * q) = Rsgn a.
Proof.
  intros Hq. unfold Rsgn.
  destruct (Rlt_dec (a * q) 0), (Rlt_dec a 0); try reflexivity.
  - exfalso. assert (0 <= a * q) by (apply Rmult_le_pos; lra). lra.
  - exfalso. assert (a * q < 0 * q) by (now apply Rmult_lt_compat_r). lra.
  - destruct (Rlt_dec 0 (a * q)), (Rlt_dec 0 a); try reflexivity.
    + exfalso. assert (a = 0) by lra. subst. lra.
    + exfalso. assert (0 < a * q) by (now apply Rmult_lt_0_compat). lra.
Qed.

Lemma Rsgn_pos q : 0 < q -> Rsgn q = Gt.
Proof. intros H. unfold Rsgn. destruct (Rlt_dec q 0); [lra|]. now destruct (Rlt_dec 0 q). Qed.

Lemma scale_mul x y q : 0 < q -> xmul (xmul x (X q)) y = xmul (xmul x y) (X q).
Proof.
  intros Hq. destruct x as [a| | |], y as [b| | |]; cbn -[Rsgn];
    rewrite ?Rsgn_scale, ?(Rsgn_pos q Hq) by exact Hq; cbn -[Rsgn]; rewrite ?(Rsgn_pos q Hq); try reflexivity;
    try (f_equal; ring); try (destruct (Rsgn a); cbn -[Rsgn]; rewrite ?(Rsgn_pos q Hq); reflexivity);
    try (destruct (Rsgn b); cbn -[Rsgn]; rewrite ?(Rsgn_pos q Hq); reflexivity).
Qed.

Lemma xof_scale f q : (0 < q)%Q -> xof (fmul f (Fin q)) = xmul (xof f) (X (Q2R q)).
Proof.
  intros Hq. assert (0 < Q2R q) as Hr by (apply Qlt_Rlt in Hq; rewrite RMicromega.Q2R_0 in Hq; exact Hq).
  assert (S1 : (Qsign q >? 0)%Z = true /\ (Qsign q =? 0)%Z = false).
  { destruct q as [[|n|n] d]; cbn in Hq |- *; try (exfalso; unfold Qlt in Hq; cbn in Hq; lia); split; reflexivity. }
  destruct S1 as [S1 S2].
  destruct f; cbn [fmul xof xmul]; rewrite ?S1, ?S2, ?(Rsgn_pos _ Hr); cbn; try reflexivity. now rewrite Q2R_mult.
Qed.

Lemma si_positive w q : si_value w q -> (0 < q)%Q.
Proof. intros [[_ ->]|[[_ ->]|[_ ->]]]; reflexivity. Qed.

Lemma rate_units E r t k : rx_history E r -> get_rate_coefficient E false r t = Ok k ->
  exists w q, rx_get_unit r "arrh_a" = Ok (Some w) /\ si_value w q /\
    get_rate_coefficient E true r t = Ok (xmul k (X (Q2R q))).
Proof.
  intros H K. unfold get_rate_coefficient in K.
  destruct (get_arrh_a E false r) as [[a|]|] eqn:Ea; cbn [bind] in K; try discriminate.
  assert (N : xattr r "arrh_a" <> VNone).
  { intros Q. unfold get_arrh_a in Ea. rewrite Q in Ea. discriminate. }
  destruct (history_arrh_a E r H N) as (f & w & q & U & _ & S & A1 & A2 & _). rewrite Ea in A1. injection A1 as ->.
  exists w, q. split; [exact U|]. split; [exact S|]. unfold get_rate_coefficient. rewrite A2. cbn [bind].
  destruct (get_arrh_bc E "arrh_b" r) as [[b|]|]; cbn [bind] in K |- *; try discriminate;
    destruct (get_arrh_bc E "arrh_c" r) as [[c|]|]; cbn [bind] in K |- *; try discriminate;
    destruct (is_electron_process r) as [el|]; cbn [bind] in K |- *; try discriminate.
  injection K as <-. f_equal. rewrite xof_scale by (apply (si_positive w), S).
  assert (0 < Q2R q) as Hr by (pose proof (si_positive _ _ S) as Hq; apply Qlt_Rlt in Hq; rewrite RMicromega.Q2R_0 in Hq; exact Hq).
  now rewrite !scale_mul by exact Hr.
Qed.

(** ** Sign and growth *)
Lemma Ok_inj {A} (x y : A) : Ok x = Ok y -> x = y.
Proof. congruence. Qed.

Lemma rate_nonneg E si r t x : rx_history E r -> 0 < t -> get_rate_coefficient E si r (X t) = Ok (X x) -> 0 <= x.
Proof.
  intros H Ht K. unfold get_rate_coefficient in K.
  destruct (get_arrh_a E si r) as [[a|]|] eqn:Ea; cbn [bind] in K; try discriminate.
  assert (N : xattr r "arrh_a" <> VNone).
  { intros Q. unfold get_arrh_a in Ea. rewrite Q in Ea. discriminate. }
  assert (P : forall q, a = Fin q -> 0 <= Q2R q).
  { intros q ->. destruct (history_arrh_a E r H N) as (f & w & u & _ & _ & S & A1 & A2 & A3).
    assert (F : forall p, f = Fin p -> 0 <= Q2R p).
    { intros p ->. cbn [fltb fzero] in A3. apply Bool.negb_false_iff, Qle_bool_iff in A3. apply Qle_Rle in A3.
      now rewrite RMicromega.Q2R_0 in A3. }
    destruct si.
    - rewrite A2 in Ea. injection Ea as Ea. destruct f as [p| | |]; cbn in Ea.
      + injection Ea as <-. rewrite Q2R_mult. apply Rmult_le_pos; [now apply F|].
        pose proof (si_positive _ _ S) as Hq. apply Qlt_Rlt in Hq. rewrite RMicromega.Q2R_0 in Hq. lra.
      + destruct (Qsign u =? 0)%Z, (Qsign u >? 0)%Z; discriminate.
      + destruct (Qsign u =? 0)%Z, (Qsign u >? 0)%Z; discriminate.
      + discriminate.
    - rewrite A1 in Ea. injection Ea as ->. now apply F. }
  destruct (get_arrh_bc E "arrh_b" r) as [[b|]|]; cbn [bind] in K |- *; try discriminate;
    destruct (get_arrh_bc E "arrh_c" r) as [[c|]|]; cbn [bind] in K |- *; try discriminate;
    destruct (is_electron_process r) as [el|]; cbn [bind] in K |- *; try discriminate.
  apply Ok_inj in K. cbv zeta in K.
  set (base := if el then X t else xdiv (X t) (X 300)) in *.
  assert (B : exists s, base = X s /\ 0 < s).
  { unfold base. destruct el; [exists t; split; [reflexivity|exact Ht]|]. exists (t / 300). rewrite xdiv_nonzero by lra. split; [reflexivity|lra]. }
  destruct B as (s & -> & Hs).
  assert (Pw : xpowf (X s) b = XNaN \/ xpowf (X s) b = XInf \/ exists p, xpowf (X s) b = X p /\ 0 <= p).
  { destruct b as [q| | |]; cbn [xpowf].
    - right. right. rewrite xpow_positive by exact Hs. eexists. split; [reflexivity|]. left. apply exp_pos.
    - cbn [xabs]. destruct (xltb (X (Rabs s)) (X 1)); [|destruct (xltb (X 1) (X (Rabs s)))]; eauto;
        right; right; eexists; (split; [reflexivity|lra]).
    - cbn [xabs]. destruct (xltb (X (Rabs s)) (X 1)); [|destruct (xltb (X 1) (X (Rabs s)))]; eauto;
        right; right; eexists; (split; [reflexivity|lra]).
    - destruct (Req_EM_T s 1); [right; right; exists 1; split; [reflexivity|lra]|now left]. }
  assert (Xp : forall z, xexp z = XNaN \/ xexp z = XInf \/ exists p, xexp z = X p /\ 0 <= p).
  { intros [z| | |]; cbn; [right; right; exists (exp z); split; [reflexivity|left; apply exp_pos]|now right; left|
      right; right; exists 0; split; [reflexivity|lra]|now left]. }
  specialize (Xp (xdiv (xopp (xof c)) (X t))).
  destruct Pw as [Q|[Q|(p & Q & Hp)]]; rewrite Q in K; destruct Xp as [Q'|[Q'|(e & Q' & He)]]; rewrite Q' in K;
    destruct a as [q| | |]; cbn -[Rsgn] in K; try discriminate;
    repeat (match type of K with context [Rsgn ?z] => destruct (Rsgn z); cbn -[Rsgn] in K end); try discriminate.
  injection K as <-. apply Rmult_le_pos; [apply Rmult_le_pos; [now apply P|exact Hp]|exact He].
Qed.

Lemma Rpower_mono_base s t b : 0 < s -> s <= t -> 0 <= b -> Rpower s b <= Rpower t b.
Proof. intros Hs Hst Hb. apply Rle_Rpower_l; [exact Hb|split; assumption]. Qed.

Lemma law_grows (a b c : R) (el : bool) (s t : R) : 0 <= a -> 0 <= b -> 0 <= c -> 0 < s -> s <= t ->
  a * Rpower (if el then s else s / 300) b * exp (- c / s) <= a * Rpower (if el then t else t / 300) b * exp (- c / t).
Proof.
  intros Ha Hb Hc Hs Hst. rewrite !Rmult_assoc. apply Rmult_le_compat_l; [exact Ha|].
  apply Rmult_le_compat; [left; apply exp_pos|left; apply exp_pos| |].
  - destruct el; apply Rpower_mono_base; try lra.
  - assert (- c / s <= - c / t) as L.
    { unfold Rdiv. rewrite !Ropp_mult_distr_l_reverse. apply Ropp_le_contravar. apply Rmult_le_compat_l; [exact Hc|].
      apply Rinv_le_contravar; assumption. }
    destruct L as [L|L]; [left; now apply exp_increasing|right; now rewrite L].
Qed.

Lemma rate_grows E si r a b c el s t x y :
  get_arrh_a E si r = Ok (Some (Fin a)) -> get_arrh_bc E "arrh_b" r = Ok (Some (Fin b)) ->
  get_arrh_bc E "arrh_c" r = Ok (Some (Fin c)) -> is_electron_process r = Ok el ->
  (0 <= a)%Q -> (0 <= b)%Q -> (0 <= c)%Q -> 0 < s -> s <= t ->
  get_rate_coefficient E si r (X s) = Ok (X x) -> get_rate_coefficient E si r (X t) = Ok (X y) -> x <= y.
Proof.
  intros Ha Hb Hc He Pa Pb Pc Hs Hst. assert (Ht : 0 < t) by lra.
  rewrite (rate_law E si r a b c el s Ha Hb Hc He Hs), (rate_law E si r a b c el t Ha Hb Hc He Ht).
  intros Hx Hy. injection Hx as <-. injection Hy as <-.
  apply Qle_Rle in Pa, Pb, Pc. rewrite RMicromega.Q2R_0 in Pa, Pb, Pc. now apply law_grows.
Qed.

(** ** The simulation uses these coefficients *)
Section Simulation.
  Variables (E : env) (objs : list rp) (rxs : list reaction) (c : chem) (v : view).
  Hypothesis RE : reachable E c.
  Hypothesis OB : objects E objs rxs c.
  Hypothesis VO : view_of E objs c = Ok v.
  Hypothesis PL : c_kind c = Plain.

  Lemma names_view l xs : mapM (view_rp E) l = Ok xs -> names_of l = Ok (map sp_name xs).
  Proof using.
    intros H. apply mapM_Ok_inv in H. unfold names_of. induction H as [|p s l xs Hp F IH]; [reflexivity|].
    cbn. rewrite (proj1 (view_rp_inv E p s Hp)). cbn. now rewrite IH.
  Qed.

  Lemma electron_view ro r : view_reaction E ro = Ok r ->
    is_electron_process ro = Ok (0 <? occurrences "e" (rx_lhs r))%Z.
  Proof using.
    intros V. unfold view_reaction in V. destruct (mapM (view_rp E) (r_lhs ro)) as [lx|] eqn:L; cbn [bind] in V; [|discriminate].
    assert (rx_lhs r = lx) as ->.
    { repeat match type of V with bind ?m _ = _ => destruct m; [cbn [bind] in V|discriminate] end. now injection V as <-. }
    unfold is_electron_process. rewrite (names_view _ _ L). cbn [bind]. f_equal. clear.
    unfold occurrences. induction lx as [|s l IH]; [reflexivity|]. cbn [map filter]. cbn [memS existsb].
    unfold memS in *. cbn [existsb]. destruct (string_dec (sp_name s) "e") as [Q|Q].
    - rewrite Q. cbn [List.length]. symmetry. apply Z.ltb_lt. lia.
    - destruct (String.eqb_spec "e" (sp_name s)) as [Q'|_]; [now symmetry in Q'|]. exact IH.
  Qed.

  Lemma at_nth (l : list R) j x : nth_error l j = Some x -> at_ l j = x.
  Proof. intros H. unfold at_. now apply nth_error_nth. Qed.

  Lemma simulated_rate K model p e calls y temp_e j r ks :
    eq_init K model v p = Ok e -> p_temp p <> 0 ->
    nth_error (get_reactions c false) j = Some r -> zget (rx_id r) (c_arrh c) = None ->
    snd (perform (CCoefs y temp_e) (after calls e)) = AVec ks ->
    exists ro el k, In ro rxs /\ view_reaction E ro = Ok r /\ is_electron_process ro = Ok el /\
      get_rate_coefficient E true ro
        (if el then match temp_e with Some t => t | None => get_electron_temperature (st e) y None None end else X (p_temp p)) = Ok k /\
      nth_error ks j = Some k.
  Proof using RE OB VO PL.
    intros Hi Ht J NA A.
    rewrite (proj1 (history_free K model v p e calls _ Hi)) in A.
    destruct (reaction_linked E objs rxs c v RE OB VO j r J) as ((n & f & u & Hn & Hu & Hf & Na) & (ro & b & k & l & Hro & V & Gb & Nb & Gc & Nc & _) & _ & El & _).
    destruct (El PL) as [Ne _]. pose proof (electron_view ro r V) as He.
    exists ro, (0 <? occurrences "e" (rx_lhs r))%Z.
    assert (Ga : exists q, get_arrh_a E true ro = Ok (Some (Fin q)) /\ Q2R q = n * f).
    { destruct (view_reaction_parts E ro r V) as (Va & Vu & _). unfold eff_arrh in Hn. rewrite NA in Hn.
      destruct (rx_arrh_a r) as [a|] eqn:Ra; cbn [scalar_of_opt] in Hn; [|inversion Hn].
      unfold get_arrh_a in Va |- *. destruct (is_none (xattr ro "arrh_a")); [discriminate|].
      destruct (py_float_v E (xattr ro "arrh_a")) as [g|]; cbn [bind] in Va |- *; [|discriminate]. injection Va as ->.
      rewrite Vu, Hu. cbn [bind]. unfold si_factor.
      assert (Hq : exists q, sget u si_factors = Some q /\ Q2R q = f).
      { clear -Hf. inversion Hf; subst; (eexists; split; [reflexivity|]); unfold Q2R; cbn; lra. }
      destruct Hq as (q & -> & Qf). cbn [bind]. inversion Hn; subst. cbn [fmul]. eexists. split; [reflexivity|]. apply Q2R_mult. }
    destruct Ga as (q & Ga & Qa).
    unfold get_rate_coefficient. rewrite Ga, Gb, Gc, He. cbn [bind].
    eexists. split; [exact Hro|]. split; [exact V|]. split; [reflexivity|]. split; [reflexivity|].
    (* the array *)
    assert (Lj : (j < List.length (v_a v))%nat) by (apply nth_error_Some; rewrite Na; discriminate).
    assert (St : s_view (st e) = v /\ s_nr (st e) = List.length (v_a v) /\ s_par (st e) = p /\ e = MkEq (st e) (init_cache (st e))).
    { split; [|split; [|split; [|exact (init_fresh _ _ _ _ _ Hi)]]];
        unfold eq_init in Hi; repeat match type of Hi with bind ?m _ = _ => destruct m; [cbn [bind] in Hi|discriminate] end;
        injection Hi as <-; reflexivity. }
    destruct St as (Sv & Sn & Sp & Se).
    assert (Kc : k_r (ca e) = tab (s_nr (st e)) (fun j => if elc (st e) j then XNaN else heavy_coefficient (st e) j))
      by (rewrite Se; reflexivity).
    cbn in A. injection A as A.
    assert (Nk : nth_error ks j = Some (xat ks j)).
    { apply nth_error_nth'. rewrite <- A. unfold tab, nr. rewrite map_length, seq_length, Sn. exact Lj. }
    rewrite Nk. f_equal. rewrite <- A. unfold nr. rewrite xat_tab by (rewrite Sn; exact Lj).
    unfold elc, e_lhs. rewrite Sv. unfold zat. rewrite (nth_error_nth _ _ _ Ne).
    destruct (0 <? occurrences "e" (rx_lhs r))%Z eqn:Hel.
    - unfold electron_coefficient. rewrite Sv, (at_nth _ _ _ Na), (at_nth _ _ _ Nb), (at_nth _ _ _ Nc). cbn [xof xpowf xopp].
      rewrite Qa. unfold opt. destruct temp_e; reflexivity.
    - rewrite Kc, xat_tab by (rewrite Sn; exact Lj).
      unfold elc, e_lhs, zat. rewrite Sv, (nth_error_nth _ _ _ Ne), Hel.
      unfold heavy_coefficient, temp_g. rewrite Sv, Sp, (at_nth _ _ _ Na), (at_nth _ _ _ Nb), (at_nth _ _ _ Nc). cbn [xof xpowf xopp].
      rewrite Qa, !xdiv_nonzero by (try lra; exact Ht). reflexivity.
  Qed.
End Simulation.
