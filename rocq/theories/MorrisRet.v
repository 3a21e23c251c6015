(** Proofs about the mapping of factors onto return coefficients. *)
From Coq Require Import Qround Qabs Permutation Lqa.
From Verif Require Import Base BaseLemmas Species Reactions Chemistry ChemSpec ChemDisable ChemInv ChemHist ChemLoad
  ChemMain ChemGetters ChemMore Morris MorrisSpec.
Open Scope Q_scope.

(** *** Totals of dictionaries *)

Definition qget (n : string) (q : list (string * Q)) : Q := match sget n q with Some v => v | None => 0 end.

Lemma total_aset n v q : total (sset n v q) == total q - qget n q + v.
Proof.
  unfold qget. induction q as [|[k w] q IH]; cbn [aset aget total fold_right snd].
  - ring.
  - destruct (String.eqb n k); cbn [fold_right snd]; [unfold total in *; ring|].
    change (fold_right (fun nq a => snd nq + a) 0 (sset n v q)) with (total (sset n v q)).
    change (fold_right (fun nq a => snd nq + a) 0 q) with (total q). rewrite IH. ring.
Qed.

Lemma finite_aset d q n v : finite_dict d q -> finite_dict (sset n (Fin v) d) (sset n v q).
Proof.
  unfold finite_dict. intros ->. induction q as [|[k w] q IH]; cbn [map aset fst snd]; [reflexivity|].
  destruct (String.eqb n k); cbn [map fst snd]; [reflexivity|]. now f_equal.
Qed.

Lemma finite_get d q n : finite_dict d q -> sget n d = match sget n q with Some v => Some (Fin v) | None => None end.
Proof.
  unfold finite_dict. intros ->. induction q as [|[k w] q IH]; cbn [map aget fst snd]; [reflexivity|].
  destruct (String.eqb n k); [reflexivity|exact IH].
Qed.

Lemma finite_coef d q n : finite_dict d q -> coef_of n (Some d) = Fin (qget n q).
Proof. intros H. unfold coef_of, qget. rewrite (finite_get d q n H). now destruct (sget n q). Qed.

Lemma qget_aset n m v q : qget n (sset m v q) = if String.eqb n m then v else qget n q.
Proof.
  unfold qget. destruct (String.eqb_spec n m) as [->|H].
  - now rewrite (aget_aset_same String.eqb Seqb_spec).
  - now rewrite (aget_aset_other String.eqb Seqb_spec).
Qed.

Lemma floats_back E (d : list (string * flt)) :
  mapM (fun kv : string * scalar => let* f := py_float E (snd kv) in Ok (fst kv, f))
       (map (fun nf => (fst nf, SFlt (snd nf))) d) = Ok d.
Proof. induction d as [|[n f] d IH]; [reflexivity|]. cbn [map mapM fst snd py_float bind]. rewrite IH. reflexivity. Qed.

(** *** States on which the mapping can work *)

(** Only ordinary enabled species have ad-hoc return coefficients, and return
    species are ordinary and listed once. *)
Record ret_ready (c : chem) : Prop := {
  rr_inv : Inv c;
  rr_ok : assert_consistency c = Ok tt;
  rr_adhoc : forall i, In i (map fst (c_ret c)) -> In i (map sp_id (get_species c false false true));
  rr_names : forall s d, In s (get_species c false false true) -> shown_ret c s = Some d ->
     NoDup (map fst d) /\ ~ In "e" (map fst d) /\ ~ In "M" (map fst d)
}.

Lemma eff_same c c' s : c_stick c' = c_stick c -> c_ret c' = c_ret c -> eff_ret c' s = eff_ret c s.
Proof. intros A B. unfold eff_ret, eff_stick. now rewrite A, B. Qed.

Lemma not_special s : sp_special s = false <-> ~ In (sp_name s) ["e"; "M"].
Proof. unfold sp_special. apply memS_false. Qed.

(** What a successful call does. *)
Theorem map_ret_ok pw E c x a b nom rng c' out :
  ret_ready c ->
  (forall s d, In s (c_species c) -> shown_ret c s = Some d -> exists q, finite_dict d q) ->
  map_ret_coef pw E c x a b (Fin nom) rng = (c', Ok out) ->
  exists s t q q',
    denotes c a s /\ denotes c b t /\ s <> t /\
    In s (get_species c false false true) /\ In t (get_species c false false true) /\
    0 <= x <= 1 /\ 1 < rng /\ 0 < nom /\
    (exists d, shown_ret c s = Some d /\ finite_dict d q) /\
    (exists d', shown_ret c' s = Some d' /\ finite_dict d' q') /\
    qget (sp_name t) q' == nom * pw rng (2 * x - 1) /\ 0 <= qget (sp_name s) q' /\
    (forall n, n <> sp_name t -> n <> sp_name s -> qget n q' = qget n q) /\
    total q' == total q /\
    (forall u, In u (c_species c) -> u <> s -> shown_ret c' u = shown_ret c u) /\
    others_same c c' /\ c_stick c' = c_stick c /\ c_arrh c' = c_arrh c /\
    ret_ready c'.
Proof.
  intros [I A R1 R2] FD H. pose proof (i_wf c I) as W. unfold map_ret_coef in H.
  destruct (return_matrix_spec c I A R1 R2) as (m & Em & Rr & Rc & Rv).
  match type of H with (match ?b with Ok _ => _ | Err _ => _ end) = _ => destruct b as [[[s0 d0] o]|e] eqn:B; [|discriminate] end.
  apply raise_bind in B. destruct B as [Hrng B].
  apply bind_Ok in B. destruct B as (s & Gs & B).
  apply bind_Ok in B. destruct B as (t & Gt & B).
  apply raise_bind in B. destruct B as [Hsp B]. apply orb_false_iff in Hsp. destruct Hsp as [Sps Spt].
  apply raise_bind in B. destruct B as [Hnom B].
  apply raise_bind in B. destruct B as [Hne B].
  apply bind_Ok in B. destruct B as (stick & Hstick & B).
  apply bind_Ok in B. destruct B as (m' & Hm' & B). rewrite Em in Hm'. injection Hm' as <-.
  apply bind_Ok in B. destruct B as (orig & Horig & B).
  apply bind_Ok in B. destruct B as (oself & Hoself & B).
  apply raise_bind in B. destruct B as [Hx B].
  apply bind_Ok in B. destruct B as (pos & Hpos & B).
  apply raise_bind in B. destruct B as [Hpos' B].
  apply raise_bind in B. destruct B as [Hself B].
  apply bind_Ok in B. destruct B as (d & Hd & B).
  injection B as <- <- <-.
  apply (get_rp_denotes c a s W) in Gs. apply (get_rp_denotes c b t W) in Gt.
  (* the species are enabled *)
  unfold rm_at in Horig, Hoself.
  destruct (memZ (sp_id t) (rm_rows m) && memZ (sp_id s) (rm_cols m)) eqn:M1; [|discriminate].
  destruct (memZ (sp_id s) (rm_rows m) && memZ (sp_id s) (rm_cols m)) eqn:M2; [|discriminate].
  apply andb_true_iff in M1. destruct M1 as [Mt Ms]. rewrite Rr in Mt. rewrite Rc in Ms. apply memZ_In in Mt. apply memZ_In in Ms.
  assert (In1 : forall u, In u (c_species c) -> In (sp_id u) (map sp_id (get_species c false false true)) ->
                In u (get_species c false false true)).
  { intros u Hu Hi. apply in_map_iff in Hi. destruct Hi as (v & Ev & Hv). replace u with v; [exact Hv|].
    apply (NoDup_map_inj sp_id (c_species c)); auto; [apply W|]. apply selected_iff in Hv. tauto. }
  assert (Es : In s (get_species c false false true)) by (apply In1; [apply Gs|exact Ms]).
  assert (Et : In t (get_species c false false true)) by (apply In1; [apply Gt|exact Mt]).
  assert (Nst : s <> t) by (intros ->; rewrite Z.eqb_refl in Hne; discriminate).
  assert (Nname : sp_name s <> sp_name t).
  { intros E0. apply Nst. apply (NoDup_map_inj sp_name (c_species c)); auto; [apply W|apply Gs|apply Gt]. }
  (* its dictionary *)
  rewrite (ret_value c false false true s I Es) in Hd.
  destruct (shown_ret c s) as [d0|] eqn:Sh; [|discriminate]. injection Hd as ->.
  destruct (FD s d (proj1 Gs) Sh) as (q & Fq).
  injection Horig as <-. injection Hoself as <-.
  rewrite !(Rv _ _) in * by assumption. rewrite Sh in *.
  rewrite !(finite_coef d q _ Fq) in *.
  cbn [fmul fsub fadd fneg fltb fzero] in Hself, H.
  set (new := nom * pw rng (2 * x - 1)) in *.
  set (nself := qget (sp_name s) q + - (new + - qget (sp_name t) q)) in *.
  change (supdate d [(sp_name t, Fin new); (sp_name s, Fin nself)])
    with (sset (sp_name s) (Fin nself) (sset (sp_name t) (Fin new) d)) in H.
  set (d' := sset (sp_name s) (Fin nself) (sset (sp_name t) (Fin new) d)) in *.
  set (q' := sset (sp_name s) nself (sset (sp_name t) new q)).
  assert (Fq' : finite_dict d' q') by (apply finite_aset, finite_aset, Fq).
  destruct (set_adhoc_species E c "ret_coefs" (RObj (sp_uid s)) (VDict (map (fun nf => (fst nf, SFlt (snd nf))) d')))
    as [c1 [[]|e]] eqn:SA; [|discriminate]. injection H as <- <-.
  pose proof (set_adhoc_Inv E c "ret_coefs" (RObj (sp_uid s)) (VDict (map (fun nf => (fst nf, SFlt (snd nf))) d')) I) as I'.
  rewrite SA in I'. cbn [fst] in I'.
  destruct (set_adhoc_species_cases E c "ret_coefs" (RObj (sp_uid s)) (VDict (map (fun nf => (fst nf, SFlt (snd nf))) d')))
    as [(e & X)|[(s2 & x2 & _ & X & _)|(s2 & dd & d2 & G2 & _ & V2 & Inc & M2' & X)]]; [congruence|discriminate|].
  injection V2 as <-. rewrite floats_back in M2'. injection M2' as <-.
  assert (s2 = s) as ->.
  { apply (get_rp_denotes c _ _ W) in G2. destruct G2 as [G2 U2].
    apply (NoDup_map_inj sp_uid (c_species c)); auto; [apply W|apply Gs]. }
  cbv zeta in X. rewrite SA in X. injection X as Ec1 Ac1.
  assert (NZ : eq_zero (eff_stick c s) = false).
  { rewrite stick_values in Hstick. rewrite (by_species_get (eff_stick c) c false false true s W Es) in Hstick.
    injection Hstick as <-. destruct (eff_stick c s) as [|bb|z|f|f|st]; cbn [scalar_pos eq_zero] in *; try reflexivity;
      try discriminate.
    - injection Hpos as <-. destruct bb; [reflexivity|discriminate].
    - injection Hpos as <-. apply Z.eqb_neq. intros ->. discriminate.
    - injection Hpos as <-. destruct f as [qq| | |]; try reflexivity. cbn in *. apply negb_false_iff in Hpos'.
      destruct (Qeq_bool qq 0) eqn:Qz; [|reflexivity]. apply Qeq_bool_iff in Qz.
      exfalso. apply negb_true_iff in Hpos'. assert (Qle_bool qq 0 = true) by (apply Qle_bool_iff; lra). congruence.
    - injection Hpos as <-. destruct f as [qq| | |]; try reflexivity. cbn in *. apply negb_false_iff in Hpos'.
      destruct (Qeq_bool qq 0) eqn:Qz; [|reflexivity]. apply Qeq_bool_iff in Qz.
      exfalso. apply negb_true_iff in Hpos'. assert (Qle_bool qq 0 = true) by (apply Qle_bool_iff; lra). congruence. }
  assert (Sh' : shown_ret c1 s = Some d').
  { unfold shown_ret, eff_ret. assert (eff_stick c1 s = eff_stick c s) as -> by (rewrite Ec1; reflexivity).
    rewrite NZ. rewrite Ec1. cbn [with_ret c_ret]. rewrite zget_zset, Z.eqb_refl.
    change (any_disabled (with_ret c (zset (sp_id s) d' (c_ret c)))) with (any_disabled c).
    change (name_pool (with_ret c (zset (sp_id s) d' (c_ret c)))) with (name_pool c).
    destruct (any_disabled c); [|reflexivity]. f_equal.
    assert (Ic : forall y, In y d' -> memS (fst y) (name_pool c) = true).
    { intros y Hy. apply memS_In, Inc. now apply in_map. }
    clear - Ic. induction d' as [|y l IH]; [reflexivity|]. cbn [filter]. rewrite Ic by now left.
    f_equal. apply IH. intros z Hz. apply Ic. now right. }
  assert (Oth : forall u, In u (c_species c) -> u <> s -> shown_ret c1 u = shown_ret c u).
  { intros u Hu Nu. unfold shown_ret, eff_ret. rewrite Ec1. cbn [with_ret c_ret]. rewrite zget_zset.
    destruct (Z.eqb_spec (sp_id u) (sp_id s)) as [E0|_]; [|reflexivity].
    exfalso. apply Nu. apply (NoDup_map_inj sp_id (c_species c)); auto; [apply W|apply Gs]. }
  exists s, t, q, q'. split; [exact Gs|]. split; [exact Gt|]. split; [exact Nst|]. split; [exact Es|]. split; [exact Et|].
  apply negb_false_iff, andb_true_iff in Hx. rewrite !Qle_bool_iff in Hx. split; [exact Hx|].
  split. { apply Qnot_le_lt. intros L. apply Qle_bool_iff in L. congruence. }
  split. { apply negb_false_iff in Hnom. cbn [fltb fzero] in Hnom. apply negb_true_iff in Hnom. apply Qnot_le_lt.
           intros L. apply Qle_bool_iff in L. congruence. }
  split; [now exists d|]. split; [now exists d'|].
  assert (Qt : qget (sp_name t) q' = new).
  { unfold q'. rewrite !qget_aset. destruct (String.eqb_spec (sp_name t) (sp_name s)) as [E0|_]; [now elim Nname|].
    now rewrite String.eqb_refl. }
  assert (Qs : qget (sp_name s) q' = nself) by (unfold q'; now rewrite qget_aset, String.eqb_refl).
  split; [now rewrite Qt|]. split.
  { rewrite Qs. apply Qnot_lt_le. intros L. apply negb_false_iff, Qle_bool_iff in Hself. lra. }
  split. { intros n N1 N2. unfold q'. rewrite !qget_aset.
           destruct (String.eqb_spec n (sp_name s)); [now elim N2|]. destruct (String.eqb_spec n (sp_name t)); [now elim N1|].
           reflexivity. }
  split. { unfold q'. rewrite !total_aset, qget_aset. destruct (String.eqb_spec (sp_name s) (sp_name t)) as [E0|_]; [now elim Nname|].
           unfold nself. ring. }
  split; [exact Oth|].
  assert (OS : others_same c c1) by (rewrite Ec1; repeat split).
  split; [exact OS|]. split; [rewrite Ec1; reflexivity|]. split; [rewrite Ec1; reflexivity|].
  assert (GS : get_species c1 false false true = get_species c false false true) by (rewrite Ec1; reflexivity).
  constructor; [exact I'|congruence| |].
  - intros i Hi. rewrite GS. rewrite Ec1 in Hi. cbn [with_ret c_ret] in Hi.
    apply (akeys_aset_iff Z.eqb Zeqb_spec) in Hi. destruct Hi as [->|Hi]; [now apply in_map|now apply R1].
  - intros u du Hu Su. rewrite GS in Hu.
    assert (Du : u = s \/ u <> s).
    { destruct (Z.eq_dec (sp_id u) (sp_id s)) as [E0|E0]; [left|right; congruence].
      apply (NoDup_map_inj sp_id (c_species c)); auto; [apply W| |apply Gs]. apply selected_iff in Hu. tauto. }
    destruct Du as [->|Nu].
    + rewrite Sh' in Su. injection Su as <-. destruct (R2 s d Es Sh) as (ND & Ne & NM). unfold d'. split; [|split].
      * apply (NoDup_aset String.eqb Seqb_spec), (NoDup_aset String.eqb Seqb_spec), ND.
      * intros C. apply (akeys_aset_iff String.eqb Seqb_spec) in C. apply not_special in Sps, Spt.
        destruct C as [C|C]; [apply Sps; rewrite <- C; now left|].
        apply (akeys_aset_iff String.eqb Seqb_spec) in C. destruct C as [C|C]; [apply Spt; rewrite <- C; now left|now apply Ne].
      * intros C. apply (akeys_aset_iff String.eqb Seqb_spec) in C. apply not_special in Sps, Spt.
        destruct C as [C|C]; [apply Sps; rewrite <- C; right; now left|].
        apply (akeys_aset_iff String.eqb Seqb_spec) in C. destruct C as [C|C]; [apply Spt; rewrite <- C; right; now left|now apply NM].
    + rewrite (Oth u) in Su; [now apply (R2 u)| |exact Nu]. apply selected_iff in Hu. tauto.
Qed.

(** A rejected call changes nothing. *)
Lemma map_ret_rejected pw E c x a b nom rng c' e :
  Inv c -> declared_exist c -> map_ret_coef pw E c x a b nom rng = (c', Err e) -> c' = c.
Proof.
  intros I D H. unfold map_ret_coef in H.
  match type of H with (match ?b with Ok _ => _ | Err _ => _ end) = _ => destruct b as [[[s0 d0] o]|e0] end; [|congruence].
  destruct (set_adhoc_species E c "ret_coefs" _ _) as [c1 [[]|e1]] eqn:S; [discriminate|].
  injection H as <- <-. exact (adhoc_rejected E c _ _ _ _ _ I D S).
Qed.

(** *** Values *)

Section Values.
  Variable pw : Q -> Q -> Q.
  Hypothesis P : power_like pw.

  Lemma pw_middle r x : 1 < r -> x == 1 # 2 -> pw r (2 * x - 1) == 1.
  Proof using P. intros H E. rewrite (pw_compat _ P r _ 0); [now apply (pw_zero _ P)|]. rewrite E. reflexivity. Qed.

  Lemma pw_bounds r x : 1 < r -> 0 <= x <= 1 -> / r <= pw r (2 * x - 1) <= r.
  Proof using P.
    intros H [L U]. split.
    - rewrite <- (pw_inv _ P r H). apply (pw_mono _ P); [exact H|lra].
    - rewrite <- (pw_one _ P r H) at 2. apply (pw_mono _ P); [exact H|lra].
  Qed.

  Lemma pw_monotone r x y : 1 < r -> x <= y -> pw r (2 * x - 1) <= pw r (2 * y - 1).
  Proof using P. intros H L. apply (pw_mono _ P); [exact H|lra]. Qed.
End Values.

(** *** Sequences of calls *)

Definition finite_state (c : chem) : Prop :=
  forall s d, In s (c_species c) -> shown_ret c s = Some d -> exists q, finite_dict d q.

(** The coefficient of [n] in what [s] returns. *)
Definition returned (c : chem) (s : sp) (n : string) (v : Q) : Prop :=
  exists d q, shown_ret c s = Some d /\ finite_dict d q /\ qget n q == v.

Definition returned_total (c : chem) (s : sp) (v : Q) : Prop :=
  exists d q, shown_ret c s = Some d /\ finite_dict d q /\ total q == v.

Lemma finite_inj q q' : map (fun nq : string * Q => (fst nq, Fin (snd nq))) q = map (fun nq => (fst nq, Fin (snd nq))) q' -> q = q'.
Proof.
  revert q'. induction q as [|[n v] q IH]; intros [|[n' v'] q'] H; try discriminate; [reflexivity|].
  cbn in H. injection H as -> -> H. f_equal. now apply IH.
Qed.

Lemma denotes_same c c' a s : others_same c c' -> denotes c' a s <-> denotes c a s.
Proof. intros (_ & Sp & _). unfold denotes. now rewrite Sp. Qed.

Lemma finite_step c c' s q' :
  c_species c' = c_species c -> wf c -> In s (c_species c) -> finite_state c ->
  (exists d', shown_ret c' s = Some d' /\ finite_dict d' q') ->
  (forall u, In u (c_species c) -> u <> s -> shown_ret c' u = shown_ret c u) -> finite_state c'.
Proof.
  intros Sp W Hs F (d' & S' & F') O u d Hu Su. rewrite Sp in Hu.
  destruct (Z.eq_dec (sp_id u) (sp_id s)) as [E0|E0].
  - assert (u = s) as -> by (apply (NoDup_map_inj sp_id (c_species c)); auto; apply W).
    rewrite S' in Su. injection Su as <-. now exists q'.
  - rewrite (O u Hu) in Su by congruence. now apply (F u).
Qed.

Theorem ret_calls_ok pw E l : forall c c',
  ret_ready c -> finite_state c -> ret_calls pw E c l c' ->
  ret_ready c' /\ finite_state c' /\ others_same c c' /\ c_stick c' = c_stick c /\ c_arrh c' = c_arrh c /\
  (forall s v, In s (c_species c) -> returned_total c s v -> returned_total c' s v) /\
  (forall s t k, In s (c_species c) -> In t (c_species c) -> s <> t -> last_target c s t l (Some k) ->
     returned c' s (sp_name t) (rc_nominal k * pw (rc_range k) (2 * rc_x k - 1))) /\
  (forall s t v, In s (c_species c) -> In t (c_species c) -> s <> t -> last_target c s t l None ->
     returned c s (sp_name t) v -> returned c' s (sp_name t) v).
Proof.
  induction l as [|k l IH]; intros c c' R F H; cbn [ret_calls] in H.
  - subst c'. split; [exact R|]. split; [exact F|]. split; [repeat split|]. split; [reflexivity|]. split; [reflexivity|].
    split; [auto|]. split; [|auto].
    intros s t k _ _ _ L. inversion L as [|l0 k0 m0 T N E0]. destruct l0; discriminate.
  - destruct H as (c1 & out & M & H).
    destruct (map_ret_ok pw E c _ _ _ _ _ c1 out R F M)
      as (s & t & q & q' & Ds & Dt & Nst & Es & Et & _ & _ & _ & (d & Sd & Fd) & (d' & Sd' & Fd') & Qt & _ & Qn & Tot & O & OS & St & Ar & R1).
    pose proof (i_wf c (rr_inv c R)) as W. pose proof (proj1 (proj2 OS)) as Sp.
    assert (F1 : finite_state c1) by (apply (finite_step c c1 s q'); auto; [apply Ds|now exists d']).
    destruct (IH c1 c' R1 F1 H) as (R' & F' & OS' & St' & Ar' & T' & L1 & L0).
    split; [exact R'|]. split; [exact F'|]. split.
    { destruct OS as (?&?&?&?&?&?&?&?), OS' as (?&?&?&?&?&?&?&?). repeat split; congruence. }
    split; [congruence|]. split; [congruence|].
    assert (Dec : forall u, In u (c_species c) -> u = s \/ u <> s).
    { intros u Hu. destruct (Z.eq_dec (sp_id u) (sp_id s)) as [E0|E0]; [left|right; congruence].
      apply (NoDup_map_inj sp_id (c_species c)); auto; [apply W|apply Ds]. }
    assert (Tgt : forall u w k0, targets c1 u w k0 <-> targets c u w k0).
    { intros u w k0. unfold targets. now rewrite !(denotes_same c c1 _ _ OS). }
    assert (Uniq : forall b u w, denotes c b u -> denotes c b w -> u = w).
    { intros b u w D1 D2. apply (get_rp_denotes c b u W) in D1. apply (get_rp_denotes c b w W) in D2. congruence. }
    (* what this call does to one coefficient *)
    assert (One : forall u w v, In u (c_species c) -> In w (c_species c) -> u <> w -> ~ targets c u w k ->
              returned c u (sp_name w) v -> returned c1 u (sp_name w) v).
    { intros u w v Hu Hw Nuw NT (du & qu & Su & Fu & Vu). destruct (Dec u Hu) as [->|Nu].
      - rewrite Sd in Su. injection Su as <-. assert (qu = q) as -> by (apply finite_inj; unfold finite_dict in *; congruence).
        exists d', q'. split; [exact Sd'|]. split; [exact Fd'|]. rewrite Qn; [exact Vu| |].
        + intros E0. apply NT. split; [exact Ds|]. replace w with t; [exact Dt|].
          apply (NoDup_map_inj sp_name (c_species c)); auto; [apply W|apply Dt].
        + intros E0. apply Nuw. apply (NoDup_map_inj sp_name (c_species c)); auto; apply W.
      - exists du, qu. now rewrite (O u Hu Nu). }
    split; [|split].
    + intros u v Hu (du & qu & Su & Fu & Vu). apply T'; [now rewrite Sp|]. destruct (Dec u Hu) as [->|Nu].
      * rewrite Sd in Su. injection Su as <-. assert (qu = q) as -> by (apply finite_inj; unfold finite_dict in *; congruence).
        exists d', q'. split; [exact Sd'|]. split; [exact Fd'|]. now rewrite Tot.
      * exists du, qu. now rewrite (O u Hu Nu).
    + intros u w k0 Hu Hw Nuw LT. inversion LT as [|l0 k1 m0 T N E0]; subst k1.
      destruct l0 as [|k2 l0]; cbn [app] in E0; injection E0 as E1 E2; subst.
      * apply L0; try (rewrite Sp; assumption); [exact Nuw| |].
        { constructor. intros k' Hk' C. apply (N k' Hk'). now apply Tgt. }
        destruct T as [T1 T2]. rewrite (Uniq _ _ _ T1 Ds), (Uniq _ _ _ T2 Dt). exists d', q'. auto.
      * apply L1; try (rewrite Sp; assumption); [exact Nuw|]. constructor; [now apply Tgt|].
        intros k' Hk' C. apply (N k' Hk'). now apply Tgt.
    + intros u w v Hu Hw Nuw LT V. inversion LT as [l0 N E0|]; subst.
      apply L0; try (rewrite Sp; assumption); [exact Nuw| |].
      * constructor. intros k' Hk' C. apply (N k'); [now right|]. now apply Tgt.
      * apply One; auto. apply N. now left.
Qed.
