(** Proofs about the mapping of factors onto rate coefficients. *)
From Coq Require Import Qround Qabs Permutation Lqa.
From Verif Require Import Base BaseLemmas Species Reactions Chemistry ChemSpec ChemDisable ChemInv ChemHist ChemLoad
  ChemMain ChemGetters ChemMore Morris MorrisSpec.
Open Scope Q_scope.

Lemma zipmul_nth a b : forall i x y,
  nth_error a i = Some x -> nth_error b i = Some y -> nth_error (zipmul a b) i = Some (x * y).
Proof.
  revert b. induction a as [|u a IH]; intros [|v b] [|i] x y; cbn [zipmul nth_error]; try discriminate.
  - intros [= ->] [= ->]. reflexivity.
  - apply IH.
Qed.

Lemma zipmul_length a b : List.length a = List.length b -> List.length (zipmul a b) = List.length a.
Proof. revert b. induction a as [|u a IH]; intros [|v b]; cbn; intros H; try discriminate; [reflexivity|]. f_equal. apply IH. lia. Qed.

(** *** Involvement *)

Lemma times_pos c s r side :
  wf c -> In r (c_reactions c) -> In s (c_species c) -> (forall t, In t side -> takes_part t r) ->
  (times s side <> 0%Z <-> In s side).
Proof.
  intros W Hr Hs Sd. unfold times. split.
  - intros H. destruct (filter (fun t => (sp_id t =? sp_id s)%Z) side) as [|t l] eqn:F; [now elim H|].
    assert (I : In t (filter (fun t => (sp_id t =? sp_id s)%Z) side)) by (rewrite F; now left).
    apply filter_In in I. destruct I as [I E]. apply Z.eqb_eq in E.
    replace s with t; [exact I|]. apply (NoDup_map_inj sp_id (c_species c)); auto; [apply W|].
    apply (wf_inst c W r); auto.
  - intros H C. assert (I : In s (filter (fun t => (sp_id t =? sp_id s)%Z) side)).
    { apply filter_In. split; [exact H|]. apply Z.eqb_refl. }
    destruct (filter _ side); [destruct I|cbn in C; lia].
Qed.

Lemma involved_iff c s r :
  wf c -> In r (c_reactions c) -> In s (c_species c) -> (involved r s = true <-> takes_part s r).
Proof.
  intros W Hr Hs. unfold involved. rewrite (stoich_times Lhs), (stoich_times Rhs), negb_true_iff, Z.eqb_neq.
  pose proof (times_pos c s r (rx_lhs r) W Hr Hs (fun t H => or_introl H)) as L.
  pose proof (times_pos c s r (rx_rhs r) W Hr Hs (fun t H => or_intror H)) as R.
  assert (0 <= times s (rx_lhs r))%Z by (unfold times; lia).
  assert (0 <= times s (rx_rhs r))%Z by (unfold times; lia).
  unfold takes_part. rewrite <- L, <- R. lia.
Qed.

(** *** Species factors *)

Lemma scale_length rs s f k : List.length k = List.length rs -> List.length (scale_involved rs s f k) = List.length rs.
Proof. intros H. unfold scale_involved. rewrite map_length, combine_length. lia. Qed.

Lemma combine_nth {A B} (a : list A) (b : list B) j x y :
  nth_error a j = Some x -> nth_error b j = Some y -> nth_error (combine a b) j = Some (x, y).
Proof.
  revert b j. induction a as [|u a IH]; intros [|v b] [|j]; cbn; try discriminate.
  - now intros [= ->] [= ->].
  - apply IH.
Qed.

Lemma scale_nth rs s f k j r kj :
  nth_error rs j = Some r -> nth_error k j = Some kj ->
  nth_error (scale_involved rs s f k) j = Some (if involved r s then kj * f else kj).
Proof.
  intros H1 H2. unfold scale_involved. rewrite nth_error_map, (combine_nth _ _ _ _ _ H1 H2). reflexivity.
Qed.

Lemma fold_scale c rs sxs : forall k,
  wf c -> (forall r, In r rs -> In r (c_reactions c)) -> (forall sx, In sx sxs -> In (fst sx) (c_species c)) ->
  List.length k = List.length rs ->
  List.length (fold_left (fun k (sx : sp * Q) => scale_involved rs (fst sx) (2 * snd sx) k) sxs k) = List.length rs /\
  forall j r kj, nth_error rs j = Some r -> nth_error k j = Some kj ->
  exists w v, weight r sxs w /\
    nth_error (fold_left (fun k (sx : sp * Q) => scale_involved rs (fst sx) (2 * snd sx) k) sxs k) j = Some v /\
    v == kj * w.
Proof.
  induction sxs as [|[s x] sxs IH]; intros k W Hrs Hs Hl; cbn [fold_left].
  - split; [exact Hl|]. intros j r kj H1 H2. exists 1, kj. split; [constructor|]. split; [exact H2|ring].
  - destruct (IH (scale_involved rs s (2 * x) k) W Hrs) as [L IH'].
    { intros sx H. apply Hs. now right. }
    { now apply scale_length. }
    split; [exact L|]. intros j r kj H1 H2.
    destruct (IH' j r _ H1 (scale_nth rs s (2 * x) k j r kj H1 H2)) as (w & v & Hw & Hv & E).
    pose proof (involved_iff c s r W (Hrs r (nth_error_In _ _ H1)) (Hs (s, x) (or_introl eq_refl))) as T.
    cbn [fst] in T. destruct (involved r s).
    + exists (2 * x * w), v. split; [constructor; [now apply T|exact Hw]|]. split; [exact Hv|]. rewrite E. ring.
    + exists w, v. split; [apply weight_out; [|exact Hw]|split; [exact Hv|exact E]].
      intros C. apply T in C. discriminate.
Qed.

Lemma listZ_eqb_refl l : listZ_eqb l l = true.
Proof. now apply listZ_eqb_eq. Qed.

(** What [_map_reactions_factors_to_k] and [_map_species_factors_to_k]
    compute, in one statement. *)
Definition map_factors (ty : traj_type) (c : chem) (x nominal : vec Z) : res (vec Z) :=
  match ty with
  | TReactions => map_reactions_factors x nominal
  | TSpecies => map_species_factors c x nominal
  end.

Theorem map_factors_ok ty c x nominal :
  wf c ->
  List.length x = num_factors ty c -> List.length nominal = List.length (get_reactions c false) ->
  exists ks, map_factors ty c (MkVec None x) (MkVec (Some (map rx_id (get_reactions c false))) nominal)
             = Ok (MkVec (Some (map rx_id (get_reactions c false))) ks) /\
    List.length ks = List.length nominal /\
    forall j r k, nth_error (get_reactions c false) j = Some r -> nth_error nominal j = Some k ->
      exists w v, factor ty c x j r w /\ nth_error ks j = Some v /\ v == k * w.
Proof.
  intros W Hx Hn. destruct ty; cbn [map_factors num_factors factor] in *.
  - unfold map_reactions_factors. cbn [v_vals v_index]. rewrite Hx, Hn, Nat.eqb_refl. cbn [negb raise_if bind].
    exists (zipmul (map (fun k => 2 * k) nominal) x). split; [reflexivity|]. split.
    { rewrite zipmul_length; rewrite map_length; congruence. }
    intros j r k Hr Hk.
    destruct (nth_error x j) as [xj|] eqn:Xj.
    + exists (2 * xj), (2 * k * xj). split; [exists xj; auto|]. split; [|ring].
      apply (zipmul_nth (map (fun k => 2 * k) nominal) x j (2 * k) xj); [|exact Xj]. now rewrite nth_error_map, Hk.
    + exfalso. apply nth_error_None in Xj. assert (j < List.length (get_reactions c false))%nat by (apply nth_error_Some; congruence). lia.
  - unfold map_species_factors. cbn [v_vals v_index]. rewrite listZ_eqb_refl, Hx, Hn, !Nat.eqb_refl. cbn [negb raise_if bind].
    destruct (fold_scale c (get_reactions c false) (combine (get_species c false false true) x) nominal W) as [L F].
    { intros r H. apply selected_r_iff in H. tauto. }
    { intros [s q] H. cbn [fst]. apply in_combine_l in H. apply selected_iff in H. tauto. }
    { exact Hn. }
    eexists. split; [reflexivity|]. split; [congruence|]. intros j r k Hr Hk.
    exact (F j r k Hr Hk).
Qed.

(** *** Consequences for the weights *)

Lemma weight_half r l w : weight r l w -> Forall (fun sx => snd sx == 1 # 2) l -> w == 1.
Proof.
  induction 1 as [|s x l w T H IH|s x l w T H IH]; intros F; [reflexivity| |].
  - inversion F; subst. cbn [snd] in *. rewrite (IH H3), H2. reflexivity.
  - inversion F; subst. auto.
Qed.

Lemma weight_nonneg r l w : weight r l w -> Forall (fun sx => 0 <= snd sx) l -> 0 <= w.
Proof.
  induction 1 as [|s x l w T H IH|s x l w T H IH]; intros F; [lra| |]; inversion F; subst; cbn [snd] in *.
  - apply Qmult_le_0_compat; [lra|auto].
  - auto.
Qed.

Lemma weight_mono r ss : forall x y w v,
  weight r (combine ss x) w -> weight r (combine ss y) v -> List.length x = List.length y ->
  Forall2 (fun a b => 0 <= a <= b) x y -> w <= v.
Proof.
  induction ss as [|s ss IH]; intros [|a x] [|b y] w v Hw Hv L F; try discriminate; cbn [combine] in *;
    try (inversion Hw; inversion Hv; subst; apply Qle_refl).
  inversion F as [|? ? ? ? Hab F']; subst.
  assert (NN : forall u, weight r (combine ss x) u -> 0 <= u).
  { intros u Hu. apply (weight_nonneg r _ _ Hu). apply Forall_forall. intros [t q] Hq. cbn [snd].
    apply in_combine_r in Hq. clear - F' Hq. induction F' as [|? ? ? ? H F IHF]; [destruct Hq|].
    destruct Hq as [<-|Hq]; [tauto|auto]. }
  inversion Hw as [|s1 q1 l1 w1 T1 G1|s1 q1 l1 w1 T1 G1]; subst;
    inversion Hv as [|s2 q2 l2 v1 T2 G2|s2 q2 l2 v1 T2 G2]; subst; try contradiction.
  - assert (w1 <= v1) by (apply (IH x y); auto). pose proof (NN _ G1). nra.
  - apply (IH x y); auto.
Qed.

(** *** Loading the coefficients *)

Lemma set_arrh_ok c i q :
  In i (r_ids c) -> set_adhoc_reactions c "arrh_a" i (VFlt (Fin q)) = (with_arrh c (zset i (SFlt (Fin q)) (c_arrh c)), Ok tt).
Proof.
  intros H. unfold set_adhoc_reactions. assert (memZ i (r_ids c) = true) as -> by now apply memZ_In. reflexivity.
Qed.

Lemma load_arrh_ok c l :
  (forall i, In i (map fst l) -> In i (r_ids c)) ->
  exists a, load_arrh c l = (with_arrh c a, Ok tt) /\
    forall i, NoDup (map fst l) ->
      zget i a = match zget i l with Some q => Some (SFlt (Fin q)) | None => zget i (c_arrh c) end.
Proof.
  revert c. induction l as [|[i q] l IH]; intros c H.
  - exists (c_arrh c). split; [now destruct c|reflexivity].
  - cbn [load_arrh]. rewrite set_arrh_ok by (apply H; now left).
    destruct (IH (with_arrh c (zset i (SFlt (Fin q)) (c_arrh c)))) as (a & E & G).
    { intros k Hk. apply H. now right. }
    exists a. split; [exact E|]. intros k ND. cbn [map] in ND. inversion ND as [|? ? Hni ND']; subst. cbn [fst] in *.
    rewrite (G k ND'). cbn [aget with_arrh c_arrh]. rewrite zget_zset.
    destruct (Z.eqb_spec k i) as [->|Hk]; [|reflexivity].
    assert (zget i l = None) as -> by (apply (aget_None Z.eqb Zeqb_spec); exact Hni). reflexivity.
Qed.

(** The same chemistry with other ad-hoc rate coefficients. *)
Definition same_but_arrh (c c' : chem) : Prop := exists a, c' = with_arrh c a.

Lemma zget_combine_map {A B} (f : A -> Z) (l : list A) (ks : list B) j a k :
  NoDup (map f l) -> nth_error l j = Some a -> nth_error ks j = Some k -> zget (f a) (combine (map f l) ks) = Some k.
Proof.
  intros ND. revert ks j. induction l as [|b l IH]; intros [|q ks] [|j]; cbn; try discriminate.
  - intros [= ->] [= ->]. now rewrite Z.eqb_refl.
  - intros H1 H2. inversion ND as [|? ? Hni ND']; subst.
    destruct (Z.eqb_spec (f a) (f b)) as [E|_]; [|now apply (IH ND' ks j)].
    exfalso. apply Hni. rewrite <- E. apply in_map. now apply nth_error_In in H1.
Qed.

Lemma map_fst_combine {A B} (a : list A) (b : list B) : List.length a = List.length b -> map fst (combine a b) = a.
Proof. revert b. induction a as [|x a IH]; intros [|y b]; cbn; intros H; try discriminate; [reflexivity|]. f_equal. auto. Qed.

(** One evaluation: the coefficients in force are nominal times factor. *)
Theorem apply_factors_ok ty c c0 nominal x :
  wf c -> same_but_arrh c0 c ->
  List.length x = num_factors ty c -> List.length nominal = List.length (get_reactions c false) ->
  exists c', apply_factors ty (MkVec (Some (map rx_id (get_reactions c false))) nominal) c x = (c', Ok tt) /\
    same_but_arrh c0 c' /\
    (forall j r k, nth_error (get_reactions c false) j = Some r -> nth_error nominal j = Some k ->
      exists w v, factor ty c x j r w /\ eff_arrh c' r = SFlt (Fin v) /\ v == k * w) /\
    (forall r, In r (c_reactions c) -> ~ In r (get_reactions c false) -> eff_arrh c' r = eff_arrh c r).
Proof.
  intros W [a0 Ha0] Hx Hn. destruct (map_factors_ok ty c x nominal W Hx Hn) as (ks & E & L & F).
  assert (NDr : NoDup (map rx_id (get_reactions c false))).
  { unfold get_reactions. apply NoDup_map_filter, W. }
  assert (Lk : List.length (map rx_id (get_reactions c false)) = List.length ks) by (rewrite map_length; congruence).
  assert (K : map fst (combine (map rx_id (get_reactions c false)) ks) = map rx_id (get_reactions c false)).
  { now apply map_fst_combine. }
  destruct (load_arrh_ok c (combine (map rx_id (get_reactions c false)) ks)) as (a & El & G).
  { rewrite K. intros i Hi. apply in_map_iff in Hi. destruct Hi as (r & <- & Hr). apply selected_r_iff in Hr.
    apply in_map. tauto. }
  rewrite K in G.
  exists (with_arrh c a). split.
  - unfold apply_factors. unfold map_factors in E. rewrite E. cbn [v_index v_vals]. exact El.
  - split; [exists a; rewrite Ha0; reflexivity|]. split.
    + intros j r k Hr Hk. destruct (F j r k Hr Hk) as (w & v & Hw & Hv & Ev). exists w, v.
      split; [exact Hw|]. split; [|exact Ev]. unfold eff_arrh. cbn [with_arrh c_arrh]. rewrite (G _ NDr).
      rewrite (zget_combine_map rx_id (get_reactions c false) ks j r v NDr Hr Hv). reflexivity.
    + intros r Hr Hni. unfold eff_arrh. cbn [with_arrh c_arrh]. rewrite (G _ NDr).
      assert (zget (rx_id r) (combine (map rx_id (get_reactions c false)) ks) = None) as ->; [|reflexivity].
      apply (aget_None Z.eqb Zeqb_spec). unfold akeys. rewrite K. intros C. apply Hni.
      apply in_map_iff in C. destruct C as (t & Et & Ht). replace r with t; [exact Ht|].
      apply (NoDup_map_inj rx_id (c_reactions c)); auto; [apply W|]. apply selected_r_iff in Ht. tauto.
Qed.

(** The coefficients of a whole trajectory. *)
Definition evaluated (ty : traj_type) (c : chem) (nominal : list Q) (x : list Q) (c' : chem) : Prop :=
  same_but_arrh c c' /\
  (forall j r k, nth_error (get_reactions c false) j = Some r -> nth_error nominal j = Some k ->
     exists w v, factor ty c x j r w /\ eff_arrh c' r = SFlt (Fin v) /\ v == k * w) /\
  (forall r, In r (c_reactions c) -> ~ In r (get_reactions c false) -> eff_arrh c' r = eff_arrh c r).

Lemma apply_all_ok ty c0 nominal xs : forall c,
  wf c0 -> same_but_arrh c0 c ->
  (forall r, In r (c_reactions c0) -> ~ In r (get_reactions c0 false) -> eff_arrh c r = eff_arrh c0 r) ->
  Forall (fun x => List.length x = num_factors ty c0) xs ->
  List.length nominal = List.length (get_reactions c0 false) ->
  exists cs, apply_all ty (MkVec (Some (map rx_id (get_reactions c0 false))) nominal) c xs = (cs, Ok tt) /\
    Forall2 (evaluated ty c0 nominal) xs cs.
Proof.
  induction xs as [|x xs IH]; intros c W S D Hx Hn.
  - exists []. split; [reflexivity|constructor].
  - inversion Hx as [|? ? Hx1 Hx2]; subst. destruct S as [a Ha]. subst c.
    destruct (apply_factors_ok ty (with_arrh c0 a) c0 nominal x) as (c' & E & S' & V & D').
    { destruct W; constructor; assumption. }
    { now exists a. }
    { exact Hx1. }
    { exact Hn. }
    assert (D2 : forall r, In r (c_reactions c0) -> ~ In r (get_reactions c0 false) -> eff_arrh c' r = eff_arrh c0 r).
    { intros r Hr Hni. rewrite (D' r Hr Hni). now apply D. }
    destruct (IH c' W S' D2 Hx2 Hn) as (cs & Ec & F). exists (c' :: cs). split.
    + cbn [apply_all]. change (get_reactions (with_arrh c0 a) false) with (get_reactions c0 false) in E.
      rewrite E, Ec. reflexivity.
    + constructor; [|exact F]. split; [exact S'|]. split; [exact V|exact D2].
Qed.

Lemma nominal_values_ok c nom : nominal_values c = Ok nom ->
  exists l, nom = MkVec (Some (map rx_id (get_reactions c false))) l /\
    List.length l = List.length (get_reactions c false) /\
    forall j r q, nth_error (get_reactions c false) j = Some r -> nth_error l j = Some q ->
      eff_arrh c r = SFlt (Fin q) \/ eff_arrh c r = SNp (Fin q) \/ exists z, eff_arrh c r = SInt z /\ q = inject_Z z.
Proof.
  unfold nominal_values. rewrite arrh_values. cbn [bind]. intros H.
  destruct (mapM _ (by_reaction (eff_arrh c) c false)) as [l|] eqn:M; [|discriminate]. cbn [bind] in H.
  injection H as <-. exists l. split; [now rewrite (proj1 (reaction_rows _ _ _))|].
  unfold by_reaction in M. revert l M. induction (get_reactions c false) as [|r rs IH]; intros l M.
  - injection M as <-. split; [reflexivity|]. intros [|j]; discriminate.
  - cbn [map mapM] in M. cbn [snd] in M.
    destruct (match eff_arrh c r with SFlt (Fin q) | SNp (Fin q) => Ok q | SInt z => Ok (inject_Z z) | _ => Err EType end)
      as [q|] eqn:Q0; [|discriminate]. cbn [bind] in M.
    destruct (mapM _ (map _ rs)) as [l'|] eqn:M'; [|discriminate]. cbn [bind] in M. injection M as <-.
    destruct (IH l' eq_refl) as [L G]. split; [cbn; f_equal; exact L|].
    intros [|j] r' q'; cbn [nth_error].
    + intros [= <-] [= <-]. destruct (eff_arrh c r) as [|b|z|f|f|s] eqn:Ea; try discriminate.
      * injection Q0 as <-. right; right. now exists z.
      * destruct f; try discriminate. injection Q0 as <-. now left.
      * destruct f; try discriminate. injection Q0 as <-. right. now left.
    + apply G.
Qed.

Theorem trajectory_values ty c nom xs :
  wf c -> nominal_values c = Ok nom -> Forall (fun x => List.length x = num_factors ty c) xs ->
  exists cs, apply_all ty nom c xs = (cs, Ok tt) /\ Forall2 (evaluated ty c (v_vals nom)) xs cs.
Proof.
  intros W N Hx. destruct (nominal_values_ok c nom N) as (l & -> & L & _). cbn [v_vals].
  apply apply_all_ok; auto. exists (c_arrh c). now destruct c.
Qed.

(** Middle values and monotonicity, for both kinds of factors. *)
Theorem factor_half ty c x j r w : factor ty c x j r w -> Forall (fun q => q == 1 # 2) x -> w == 1.
Proof.
  destruct ty; cbn [factor].
  - intros (xj & H & ->) F. rewrite Forall_forall in F. rewrite (F xj (nth_error_In _ _ H)). reflexivity.
  - intros H F. apply (weight_half _ _ _ H). rewrite Forall_forall in *. intros [s q] I. apply in_combine_r in I. now apply F.
Qed.

Theorem factor_bounds ty c x j r w : factor ty c x j r w -> Forall (fun q => 0 <= q) x -> 0 <= w.
Proof.
  destruct ty; cbn [factor].
  - intros (xj & H & ->) F. rewrite Forall_forall in F. pose proof (F xj (nth_error_In _ _ H)). lra.
  - intros H F. apply (weight_nonneg _ _ _ H). rewrite Forall_forall in *. intros [s q] I. apply in_combine_r in I. now apply F.
Qed.

Theorem factor_monotone ty c x y j r w v : factor ty c x j r w -> factor ty c y j r v ->
  Forall2 (fun p q => 0 <= p <= q) x y -> w <= v.
Proof.
  destruct ty; cbn [factor].
  - intros (xj & H & ->) (yj & K & ->) F. revert j H K. induction F as [|p q x y L F IH]; intros [|j] H K; cbn in *; try discriminate.
    + injection H as ->. injection K as ->. lra.
    + now apply (IH j).
  - intros H K F. apply (weight_mono r _ x y w v H K); [|exact F].
    clear - F. induction F; cbn; congruence.
Qed.
