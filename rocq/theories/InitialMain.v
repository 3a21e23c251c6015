(** The initial densities of whole runs. *)
From Coq Require Import Lqa Permutation.
From Verif Require Import Base BaseLemmas Chemistry ChemSpec ChemDisable ChemInv ChemHist ChemLoad ChemMain ChemGetters Morris MorrisStats InitialGuess InitialSpec
  InitialProofs Tables TablesProofs.
Open Scope Q_scope.

Lemma heavy_ok c : (forall s, In s (get_species c false false true) -> sp_charge s <> None) ->
  exists l, heavy c = Ok l /\ map fst l = map sp_name (get_species c false false true) /\
    Forall2 (fun s x => fst x = sp_name s /\ sp_charge s = Some (snd x)) (get_species c false false true) l.
Proof.
  unfold heavy. generalize (get_species c false false true) as ss. induction ss as [|s ss IH]; intros H.
  - exists []. repeat split; constructor.
  - destruct (IH (fun x X => H x (or_intror X))) as (l & E & M & F).
    destruct (sp_charge s) as [z|] eqn:Q; [|now destruct (H s (or_introl eq_refl))].
    exists ((sp_name s, z) :: l). cbn [mapM]. rewrite Q, E. cbn [bind map fst]. rewrite M.
    repeat split; auto.
Qed.

Lemma heavy_names c l : heavy c = Ok l -> map fst l = map sp_name (get_species c false false true).
Proof.
  unfold heavy. generalize (get_species c false false true) as ss. intros ss. revert l. induction ss as [|s ss IH]; intros l H.
  - cbn in H. now injection H as <-.
  - cbn [mapM] in H. destruct (sp_charge s); [|discriminate]. cbn [bind] in H.
    destruct (mapM _ ss) as [l'|] eqn:E; [|discriminate]. cbn in H. injection H as <-. cbn. now rewrite (IH l' eq_refl).
Qed.

Lemma heavy_NoDup c l : wf c -> heavy c = Ok l -> NoDup (map fst l).
Proof. intros W H. rewrite (heavy_names c l H). apply NoDup_map_filter, (wf_names c W). Qed.

Lemma heavy_In c l s z : heavy c = Ok l -> In s (get_species c false false true) -> sp_charge s = Some z -> In (sp_name s, z) l.
Proof.
  unfold heavy. generalize (get_species c false false true) as ss. intros ss. revert l. induction ss as [|x ss IH]; intros l H I Q; [destruct I|].
  cbn [mapM] in H. destruct (sp_charge x) as [q|] eqn:X; [|discriminate]. cbn [bind] in H.
  destruct (mapM _ ss) as [l'|] eqn:E; [|discriminate]. cbn in H. injection H as <-.
  destruct I as [->|I]; [left; rewrite Q in X; now injection X as ->|right; now apply (IH l' eq_refl)].
Qed.

Lemma heavy_ion E c l : reachable E c -> c_kind c = Plain -> heavy c = Ok l -> exists s, In s l /\ (0 < snd s)%Z.
Proof.
  intros R K H. destruct (charge_kept c (reachable_Inv E c R) K) as (_ & (s & I & En & P & z & Q & Z) & _).
  exists (sp_name s, z). split; [|cbn; lia]. apply (heavy_In c l s z H); [|exact Q].
  apply In_get_species. split; [exact I|split; [exact En|]]. apply memS_false. exact P.
Qed.

(** ** Dictionaries *)

Lemma sset_notin {V} k (v : V) d : ~ In k (map fst d) -> sset k v d = (d ++ [(k, v)])%list.
Proof.
  induction d as [|[k' v'] d IH]; intros H; [reflexivity|]. cbn [aset]. cbn in H.
  destruct (String.eqb_spec k k') as [->|N]; [tauto|]. rewrite IH by tauto. reflexivity.
Qed.

Lemma supdate_fresh {V} (e : list (string * V)) : forall d,
  NoDup (map fst d ++ map fst e) -> supdate d e = (d ++ e)%list.
Proof.
  unfold supdate. induction e as [|[k v] e IH]; intros d H; [now rewrite app_nil_r|].
  cbn [fold_left fst snd]. cbn [map fst] in H. rewrite sset_notin.
  - rewrite IH; [now rewrite <- app_assoc|]. rewrite map_app. cbn. now rewrite <- app_assoc.
  - intros I. apply NoDup_remove_2 in H. apply H. apply in_or_app. now left.
Qed.

Lemma map_fst_combine {A B} (l : list A) (m : list B) : List.length l = List.length m -> map fst (combine l m) = l.
Proof. revert m. induction l as [|x l IH]; intros [|y m] H; try discriminate; [reflexivity|]. cbn. rewrite IH; [reflexivity|]. now injection H. Qed.
Lemma map_snd_combine {A B} (l : list A) (m : list B) : List.length l = List.length m -> map snd (combine l m) = m.
Proof. revert m. induction l as [|x l IH]; intros [|y m] H; try discriminate; [reflexivity|]. cbn. rewrite IH; [reflexivity|]. now injection H. Qed.

Lemma lookup_all {V W} (g : string * Z -> V -> W) (l : list (string * Z)) (ns : list V) :
  NoDup (map fst l) -> List.length l = List.length ns ->
  mapM (fun s => match sget (fst s) (combine (map fst l) ns) with Some q => Ok (g s q) | None => Err EKey end) l
  = Ok (map (fun sn => g (fst sn) (snd sn)) (combine l ns)).
Proof.
  intros N L. assert (G : forall pre prens, List.length pre = List.length prens -> forall l ns, List.length l = List.length ns ->
    NoDup (map fst (pre ++ l)) ->
    mapM (fun s => match sget (fst s) (combine (map fst (pre ++ l)) (prens ++ ns)) with Some q => Ok (g s q) | None => Err EKey end) l
    = Ok (map (fun sn => g (fst sn) (snd sn)) (combine l ns))).
  { clear. intros pre prens LP l. revert pre prens LP. induction l as [|s l IH]; intros pre prens LP [|n ns] L ND; try discriminate; [reflexivity|].
    cbn [mapM combine map]. assert (S : sget (fst s) (combine (map fst (pre ++ s :: l)) (prens ++ n :: ns)) = Some n).
    { apply (In_aget String.eqb Seqb_spec).
      - unfold akeys. rewrite map_fst_combine; [exact ND|]. rewrite map_length, !app_length. cbn [List.length] in *. lia.
      - rewrite map_app. cbn [map]. clear -LP. revert prens LP. induction pre as [|p pre IH]; intros [|q prens] LP; try discriminate.
        + cbn. now left.
        + cbn. right. apply IH. now injection LP. }
    rewrite S. cbn [bind fst snd].
    assert (A1 : (pre ++ s :: l = (pre ++ [s]) ++ l)%list) by now rewrite <- app_assoc.
    assert (A2 : (prens ++ n :: ns = (prens ++ [n]) ++ ns)%list) by now rewrite <- app_assoc.
    rewrite A1, A2. rewrite IH; [reflexivity| |now injection L|now rewrite <- A1].
    rewrite !app_length. cbn. lia. }
  apply (G [] [] eq_refl l ns L N).
Qed.

Lemma subsetS_refl l : subsetS l l = true.
Proof. apply subsetS_incl. intros x X. exact X. Qed.

Lemma combine_map_r {A B} (f : A -> B) l : combine l (map f l) = map (fun x => (x, f x)) l.
Proof. induction l as [|x l IH]; [reflexivity|]. cbn. now rewrite IH. Qed.

Lemma charge_density_map l f : charge_density l (map f l) = qsum (map (fun s => inject_Z (snd s) * f s) l).
Proof. unfold charge_density. rewrite combine_map_r, map_map. reflexivity. Qed.

Lemma validate_combine c l ns : heavy c = Ok l -> wf c -> List.length l = List.length ns ->
  validate_initial_n c (combine (map fst l) ns) = if Qltb 0 (charge_density l ns) then Ok tt else Err EInitialGuess.
Proof.
  intros H W L. unfold validate_initial_n. rewrite H. cbn [bind].
  rewrite map_fst_combine by now rewrite map_length. rewrite subsetS_refl. cbn [negb andb raise_if bind].
  rewrite (lookup_all (fun s q => inject_Z (snd s) * q) l ns (heavy_NoDup c l W H) L). cbn [bind].
  unfold charge_density. now destruct (Qltb 0 _).
Qed.

Lemma densities_eq l feeds n fr : (exists s, In s l /\ (0 < snd s)%Z) ->
  densities l feeds n fr = Ok (map (n_zero l feeds n fr) l).
Proof.
  intros P. unfold densities. pose proof (pos_sum_pos l P) as G. destruct (pos_charges l); [cbn in G; lia|reflexivity].
Qed.

Lemma generate_eq E c p fr l : reachable E c -> c_kind c = Plain -> heavy c = Ok l ->
  let ns := map (n_zero l (gp_feeds p) (total_density p) fr) l in
  generate_initial_n c p fr = if Qltb 0 (charge_density l ns) then Ok (combine (map fst l) ns) else Err EInitialGuess.
Proof.
  intros R K H ns. unfold generate_initial_n. rewrite H. cbn [bind].
  rewrite (densities_eq l _ _ _ (heavy_ion E c l R K H)). cbn [bind]. fold ns.
  assert (LN : List.length l = List.length ns) by (unfold ns; now rewrite map_length).
  pose proof (i_wf c (reachable_Inv E c R)) as W.
  rewrite supdate_fresh.
  - cbn [app]. rewrite (validate_combine c l ns H W LN). now destruct (Qltb 0 _).
  - cbn [map app]. rewrite map_fst_combine by now rewrite map_length. exact (heavy_NoDup c l W H).
Qed.

(** ** The theorems *)

Lemma total_pos p : 0 < gp_temp p -> 0 < gp_press p -> 0 < total_density p.
Proof.
  intros T P. unfold total_density. apply Qlt_shift_div_l; [|lra].
  apply (Qmult_lt_0_compat kB); [reflexivity|exact T].
Qed.

Lemma fed_dec l feeds : fed l feeds \/ ~ fed l feeds.
Proof.
  unfold fed. induction l as [|s l IH]; [right; now intros (s & [] & _)|].
  destruct (Qlt_le_dec 0 (feed_of feeds (fst s))) as [H|H]; [left; exists s; split; [now left|exact H]|].
  destruct IH as [(x & I & P)|IH]; [left; exists x; split; [now right|exact P]|].
  right. intros (x & [<-|I] & P); [lra|]. apply IH. now exists x.
Qed.

Lemma density_map l f s x : density l (map f l) s x <-> In s l /\ x = f s.
Proof.
  unfold density. rewrite combine_map_r, in_map_iff. split.
  - intros (y & H & I). injection H as -> <-. auto.
  - intros [I ->]. exists s. auto.
Qed.

Theorem initial_ok E c p fr l :
  reachable E c -> c_kind c = Plain -> heavy c = Ok l -> 0 < gp_temp p -> 0 < gp_press p -> 0 < fr_ion fr ->
  neutral_feeds l (gp_feeds p) -> (exists s, In s l /\ snd s = 0%Z) ->
  exists ns, generate_initial_n c p fr = Ok (combine (map fst l) ns) /\ List.length ns = List.length l /\
    qsum ns == total_density p /\
    charge_density l ns == total_density p * fr_ion fr /\
    validate_initial_n c (combine (map fst l) ns) = Ok tt /\
    (forall s x, density l ns s x -> (snd s < 0)%Z -> x == total_density p * fr_neg fr) /\
    (forall s x t y, density l ns s x -> density l ns t y -> (0 < snd s)%Z -> (0 < snd t)%Z -> x == y) /\
    (forall s x, density l ns s x -> fed l (gp_feeds p) -> snd s = 0%Z -> feed_of (gp_feeds p) (fst s) == 0 -> x == total_density p * fr_non fr) /\
    (forall s x t y, density l ns s x -> density l ns t y -> 0 < feed_of (gp_feeds p) (fst s) -> 0 < feed_of (gp_feeds p) (fst t) ->
       x * feed_of (gp_feeds p) (fst t) == y * feed_of (gp_feeds p) (fst s)) /\
    (forall s x t y, density l ns s x -> density l ns t y -> ~ fed l (gp_feeds p) -> snd s = 0%Z -> snd t = 0%Z -> x == y).
Proof.
  intros R K H T P F NF NU. pose proof (heavy_ion E c l R K H) as Ion. pose proof (total_pos p T P) as TP.
  set (n := total_density p) in *. set (feeds := gp_feeds p) in *.
  exists (map (n_zero l feeds n fr) l).
  assert (CH : charge_density l (map (n_zero l feeds n fr) l) == n * fr_ion fr).
  { rewrite charge_density_map. apply charge_is_n_e; auto. }
  assert (CP : Qltb 0 (charge_density l (map (n_zero l feeds n fr) l)) = true).
  { apply Qltb_iff. rewrite CH. now apply Qmult_lt_0_compat. }
  split; [|split; [|split; [|split; [|split]]]].
  - rewrite (generate_eq E c p fr l R K H). fold n feeds. now rewrite CP.
  - apply map_length.
  - destruct (fed_dec l feeds) as [D|D]; [now apply total_fed|now apply total_unfed].
  - exact CH.
  - rewrite (validate_combine c l _ H (i_wf c (reachable_Inv E c R))) by now rewrite map_length. now rewrite CP.
  - assert (NC : forall s, In s l -> snd s <> 0%Z -> n_zero l feeds n fr s = n_start l feeds n fr s) by (intros; now apply n0_charged).
    split; [|split; [|split; [|split]]].
    + intros s x D S. apply density_map in D. destruct D as [I ->]. rewrite NC by (auto; lia). now apply n1_neg.
    + intros s x t y D D' S S'. apply density_map in D, D'. destruct D as [I ->], D' as [I' ->].
      rewrite !NC by (auto; lia). rewrite !n1_pos by auto. reflexivity.
    + intros s x D FD S Z. apply density_map in D. destruct D as [I ->]. apply fed_iff in FD; [|exact NF].
      unfold n_zero. rewrite (proj2 (Qltb_iff _ _) FD). destruct (Qltb 0 (feed_of feeds (fst s))) eqn:B; [apply Qltb_iff in B; lra|].
      unfold n_start. rewrite S. cbn [Z.ltb Z.compare]. now rewrite (proj2 (Qeq_bool_iff _ _) Z).
    + intros s x t y D D' S S'. apply density_map in D, D'. destruct D as [I ->], D' as [I' ->].
      assert (FD : fed l feeds) by (exists s; auto). apply fed_iff in FD; [|exact NF].
      unfold n_zero. rewrite (proj2 (Qltb_iff _ _) FD), (proj2 (Qltb_iff _ _) S), (proj2 (Qltb_iff _ _) S'). unfold Qdiv. ring.
    + intros s x t y D D' FD S S'. apply density_map in D, D'. destruct D as [I ->], D' as [I' ->].
      assert (B : Qltb 0 (feed_sum l feeds) = false).
      { apply Qltb_false. destruct (Qlt_le_dec 0 (feed_sum l feeds)) as [G|G]; [now apply (fed_iff l feeds NF) in G|exact G]. }
      unfold n_zero. rewrite B, S, S'. cbn [Z.eqb]. reflexivity.
Qed.

Theorem initial_nonneg E c p fr l d :
  reachable E c -> c_kind c = Plain -> heavy c = Ok l -> 0 < gp_temp p -> 0 < gp_press p ->
  neutral_feeds l (gp_feeds p) -> small_fractions l fr ->
  generate_initial_n c p fr = Ok d -> forall n x, In (n, x) d -> 0 <= x.
Proof.
  intros R K H T P NF S G n x I. rewrite (generate_eq E c p fr l R K H) in G.
  destruct (Qltb 0 _); [|discriminate]. injection G as <-. apply in_combine_r in I.
  apply in_map_iff in I. destruct I as (s & <- & I). pose proof (heavy_ion E c l R K H). pose proof (total_pos p T P).
  now apply n0_nonneg.
Qed.

Lemma same_names_refl a : same_names a a = true.
Proof. unfold same_names. apply forallb_forall. intros x _. apply Nat.eqb_refl. Qed.

(** PyGMol started from the generated densities starts from the same vector
    as on its own. *)
Theorem same_start E c p fr l d te :
  reachable E c -> c_kind c = Plain -> heavy c = Ok l -> 0 < gp_temp p -> 0 < gp_press p -> 0 < fr_ion fr ->
  neutral_feeds l (gp_feeds p) -> generate_initial_n c p fr = Ok d ->
  exists ns rho rho', y0_from_init_params c p te (Some d) = Ok (ns, rho) /\ build_y0 c p te fr = Ok (ns, rho') /\ rho == rho' /\
    ns = map snd d /\ rho == (3 # 2) * (total_density p * fr_ion fr) * te /\ validate_y0 c (ns, rho) = Ok tt.
Proof.
  intros R K H T P F NF G. pose proof (heavy_ion E c l R K H) as Ion. pose proof (total_pos p T P) as TP.
  rewrite (generate_eq E c p fr l R K H) in G.
  set (ns := map (n_zero l (gp_feeds p) (total_density p) fr) l) in *.
  assert (LN : List.length l = List.length ns) by (unfold ns; now rewrite map_length).
  destruct (Qltb 0 (charge_density l ns)) eqn:B; [|discriminate]. injection G as <-.
  assert (CH : charge_density l ns == total_density p * fr_ion fr).
  { unfold ns. rewrite charge_density_map. now apply charge_is_n_e. }
  exists ns, ((3 # 2) * charge_density l ns * te), ((3 # 2) * n_el (total_density p) fr * te).
  split; [|split; [|split; [|split; [|split]]]].
  - unfold y0_from_init_params. rewrite H. cbn [bind]. rewrite map_fst_combine by now rewrite map_length.
    rewrite same_names_refl. cbn [negb raise_if bind].
    pose proof (lookup_all (fun _ q => q) l ns (heavy_NoDup c l (i_wf c (reachable_Inv E c R)) H) LN) as M.
    cbv beta in M. rewrite M. cbn [bind].
    change (map (fun sn : string * Z * Q => snd sn) (combine l ns)) with (map snd (combine l ns)).
    rewrite map_snd_combine by exact LN. reflexivity.
  - unfold build_y0. rewrite H. cbn [bind]. rewrite densities_eq by exact Ion. reflexivity.
  - rewrite CH. reflexivity.
  - symmetry. apply map_snd_combine. now rewrite map_length.
  - rewrite CH. reflexivity.
  - unfold validate_y0. rewrite H. cbn [bind fst]. rewrite LN, Nat.eqb_refl. cbn [negb raise_if bind].
    fold (charge_density l ns). destruct (Qle_bool (charge_density l ns) 0) eqn:Z; [|reflexivity].
    apply Qle_bool_iff in Z. apply Qltb_iff in B. lra.
Qed.

(** The order of the user's dictionary does not matter. *)
Lemma sget_perm {V} (d d' : list (string * V)) k : NoDup (map fst d) -> Permutation d d' -> sget k d = sget k d'.
Proof.
  intros N P. assert (N' : NoDup (map fst d')) by (apply (Permutation_NoDup (Permutation_map fst P)), N).
  destruct (sget k d) as [v|] eqn:A.
  - symmetry. apply (In_aget String.eqb Seqb_spec); [exact N'|]. apply (Permutation_in _ P).
    clear -A. induction d as [|[k' v'] d IH]; [discriminate|]. cbn in A. destruct (String.eqb_spec k k') as [->|E]; [injection A as ->; now left|right; auto].
  - symmetry. apply (aget_None String.eqb Seqb_spec). apply (aget_None String.eqb Seqb_spec) in A. intros I. apply A.
    apply (Permutation_in _ (Permutation_map fst (Permutation_sym P))). exact I.
Qed.

Theorem y0_order c p te d d' : NoDup (map fst d) -> Permutation d d' ->
  y0_from_init_params c p te (Some d) = y0_from_init_params c p te (Some d') /\
  validate_initial_n c d = validate_initial_n c d'.
Proof.
  intros N P. assert (SN : forall l, same_names (map fst d) l = same_names (map fst d') l).
  { intros l. pose proof (Permutation_map fst P) as PM. unfold same_names.
    assert (C : forall n, count_occ string_dec (map fst d) n = count_occ string_dec (map fst d') n).
    { intros n. now apply (Permutation_count_occ string_dec). }
    assert (X : forall a b : list string, (forall n, (In n a -> In n b)) -> forall f, forallb f b = true -> forallb f a = true).
    { intros a b I f Fb. apply forallb_forall. intros x Hx. rewrite forallb_forall in Fb. auto. }
    apply eq_true_iff_eq. split; intros Hh.
    - apply (X _ (map fst d ++ l)%list).
      + intros n. rewrite !in_app_iff. intros [I|I]; [left; apply (Permutation_in _ (Permutation_sym PM)); exact I|now right].
      + rewrite forallb_forall in Hh |- *. intros x Hx. rewrite <- C. auto.
    - apply (X _ (map fst d' ++ l)%list).
      + intros n. rewrite !in_app_iff. intros [I|I]; [left; apply (Permutation_in _ PM); exact I|now right].
      + rewrite forallb_forall in Hh |- *. intros x Hx. rewrite C. auto. }
  assert (SG : forall k, sget k d = sget k d') by (intros k; now apply sget_perm).
  assert (SS : forall l, subsetS (map fst d) l = subsetS (map fst d') l /\ subsetS l (map fst d) = subsetS l (map fst d')).
  { pose proof (Permutation_map fst P) as PM. intros l. split; apply eq_true_iff_eq; rewrite !subsetS_incl; split; intros I x Hx.
    - apply I, (Permutation_in _ (Permutation_sym PM)), Hx.
    - apply I, (Permutation_in _ PM), Hx.
    - apply (Permutation_in _ PM), I, Hx.
    - apply (Permutation_in _ (Permutation_sym PM)), I, Hx. }
  split.
  - unfold y0_from_init_params. destruct (heavy c) as [l|]; [|reflexivity]. cbn [bind]. rewrite SN.
    match goal with |- bind ?r _ = _ => destruct r; [|reflexivity] end. cbn [bind].
    assert (M : mapM (fun s : string * Z => match sget (fst s) d with Some q => Ok q | None => Err EKey end) l
              = mapM (fun s : string * Z => match sget (fst s) d' with Some q => Ok q | None => Err EKey end) l).
    { apply mapM_ext. intros x _. now rewrite SG. }
    now rewrite M.
  - unfold validate_initial_n. destruct (heavy c) as [l|]; [|reflexivity]. cbn [bind].
    destruct (SS (map fst l)) as [S1 S2]. rewrite S1, S2.
    match goal with |- bind ?r _ = _ => destruct r; [|reflexivity] end. cbn [bind].
    assert (M : mapM (fun s : string * Z => match sget (fst s) d with Some q => Ok (inject_Z (snd s) * q) | None => Err EKey end) l
              = mapM (fun s : string * Z => match sget (fst s) d' with Some q => Ok (inject_Z (snd s) * q) | None => Err EKey end) l).
    { apply mapM_ext. intros x _. now rewrite SG. }
    now rewrite M.
Qed.
