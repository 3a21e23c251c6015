(** Proofs about the constructor of ChemistryGraph. *)
From Coq Require Import Lia Lqa.
From Verif Require Import Base BaseLemmas Species Reactions Chemistry ChemSpec ChemInv ChemHist ChemGetters Graph ChemGraph ChemGraphSpec
  Tables Workspace GraphInit GraphInitSpec.
Local Open Scope Q_scope.

Lemma listb_iff {A} (eqb : A -> A -> bool) (E : forall a b, eqb a b = true <-> a = b) : forall l m,
  listb eqb l m = true <-> l = m.
Proof.
  induction l as [|x l IH]; intros [|y m]; cbn; try (split; congruence).
  rewrite andb_true_iff, E, IH. split; [intros [-> ->]; reflexivity|]. intros H; inversion H; auto.
Qed.
Lemma listb_Qeq : forall l m, listb Qeq_bool l m = true <-> Forall2 Qeq l m.
Proof.
  induction l as [|x l IH]; intros [|y m]; cbn; try (split; [discriminate|intros H; inversion H]).
  - split; auto.
  - rewrite andb_true_iff, Qeq_bool_iff, IH. split; [intros [? ?]; auto|]. intros H; inversion H; auto.
Qed.
Lemma label_eqb_iff a b : label_eqb a b = true <-> a = b.
Proof.
  destruct a, b; cbn; try (split; congruence).
  - rewrite String.eqb_eq. split; congruence.
  - rewrite Z.eqb_eq. split; congruence.
Qed.
Lemma listb_Z l m : listb Z.eqb l m = true <-> l = m.
Proof. apply listb_iff, Z.eqb_eq. Qed.
Lemma listb_S l m : listb String.eqb l m = true <-> l = m.
Proof. apply listb_iff, String.eqb_eq. Qed.
Lemma listb_L l m : listb label_eqb l m = true <-> l = m.
Proof. apply listb_iff, label_eqb_iff. Qed.

Lemma sps_enabled c : get_species c false true true = enabled_species c.
Proof.
  unfold get_species, enabled_species. apply filter_ext. intros s. unfold sp_mask. cbn.
  now rewrite ?orb_true_r, ?andb_true_r.
Qed.
Lemma rxs_enabled c : get_reactions c false = enabled_reactions c.
Proof. reflexivity. Qed.
Lemma special_ordinary s : sp_special s = negb (ordinaryb s).
Proof.
  unfold sp_special, ordinaryb. cbn. rewrite negb_andb, !negb_involutive, orb_false_r. reflexivity.
Qed.
Lemma ordinary_iff s : ordinary s <-> ordinaryb s = true.
Proof.
  unfold ordinary, ordinaryb. rewrite andb_true_iff, !negb_true_iff, !String.eqb_neq. tauto.
Qed.
Lemma filter_filter {A} (p q : A -> bool) l : filter p (filter q l) = filter (fun x => q x && p x) l.
Proof.
  induction l as [|x l IH]; cbn; [reflexivity|]. destruct (q x); cbn; [|exact IH].
  destruct (p x); now rewrite IH.
Qed.
Lemma ord_enabled c : get_species c false false true = filter ordinaryb (enabled_species c).
Proof.
  unfold get_species, enabled_species. rewrite filter_filter. apply filter_ext. intros s.
  unfold sp_mask. rewrite special_ordinary. cbn [orb]. now rewrite negb_involutive, ?orb_true_l, ?orb_true_r, ?andb_true_r.
Qed.

(** ** The return matrix *)
Lemma rm_fill_cols c : forall l m m', rm_fill c l m = Ok m' -> rm_cols m' = rm_cols m.
Proof.
  assert (A : forall j d m m', rm_fill_col c j d m = Ok m' -> rm_cols m' = rm_cols m).
  { intros j. induction d as [|[n f] d IH]; cbn; intros m m' H; [congruence|].
    destruct (get_rp c (RName n)) as [s|]; [|discriminate]. cbn in H. apply IH in H. exact H. }
  induction l as [|[j [d|]] l IH]; cbn; intros m m' H; [congruence| |auto].
  destruct (rm_fill_col c j d m) as [m1|] eqn:E; [|discriminate]. cbn in H. apply IH in H. apply A in E. congruence.
Qed.

Section Built.
  Variable c : chem.
  Hypothesis I : Inv c.
  Hypothesis A : assert_consistency c = Ok tt.
  Hypothesis D : dict_rets c.

  Definition adhoc_enabled : Prop :=
    forall i, In i (map fst (c_ret c)) -> exists s, In s (enabled_species c) /\ sp_id s = i.

  Lemma adhoc_index : adhoc_enabled <-> ret_index_ok c false true true.
  Proof using.
    unfold adhoc_enabled, ret_index_ok. rewrite sps_enabled. split.
    - intros H. split; [|auto]. intros i Hi. destruct (H i Hi) as (s & Hs & <-). now apply in_map.
    - intros [H _] i Hi. apply H in Hi. apply in_map_iff in Hi. destruct Hi as (s & E & Hs). exists s. auto.
  Qed.

  Lemma return_ok : adhoc_enabled ->
    exists m, return_matrix_all c = Ok m /\
      rm_rows m = map sp_id (enabled_species c) /\ rm_cols m = map sp_id (enabled_species c) /\
      forall s t, In s (enabled_species c) -> In t (enabled_species c) ->
        rm_get m (sp_id s) (sp_id t) = coef_of (sp_name s) (shown_ret c t).
  Proof using I A D.
    intros H1. pose proof (i_wf c I) as W.
    assert (K : map fst (get_species_ret_coefs c false true true) = map sp_id (enabled_species c)).
    { rewrite <- sps_enabled. apply ret_rows; [exact I|]. now apply adhoc_index. }
    assert (ND : NoDup (map sp_id (enabled_species c))) by (unfold enabled_species; apply NoDup_map_filter, W).
    assert (Val : forall j o, In (j, o) (get_species_ret_coefs c false true true) ->
              exists s, In s (enabled_species c) /\ sp_id s = j /\ shown_ret c s = o).
    { intros j o Hin. assert (Hj : In j (map sp_id (enabled_species c))).
      { rewrite <- K. apply in_map_iff. now exists (j, o). }
      apply in_map_iff in Hj. destruct Hj as (s & E & Hs). exists s. split; [exact Hs|]. split; [exact E|].
      assert (Hs' : In s (get_species c false true true)) by now rewrite sps_enabled.
      pose proof (ret_value c false true true s I Hs') as V.
      apply (In_aget Z.eqb Zeqb_spec) in Hin; [|unfold akeys; now rewrite K]. rewrite <- E in Hin. congruence. }
    unfold return_matrix_all.
    destruct (rm_fill_spec c (get_species_ret_coefs c false true true)
                {| rm_rows := map fst (get_species_ret_coefs c false true true);
                   rm_cols := map fst (get_species_ret_coefs c false true true); rm_entries := [] |} W)
      as (m & E & R1 & R2 & R3).
    - now rewrite K.
    - intros j d Hin. destruct (Val j _ Hin) as (s & Hs & _ & Hr). now apply (D s d).
    - cbn [rm_rows]. rewrite K. intros j d n Hin Hn.
      apply (assert_ok_iff c W) in A. destruct A as (_ & _ & A').
      destruct (A' _ _ _ Hin Hn) as (t & T1 & T2 & T3).
      exists t. split; [exact T1|]. split; [exact T3|]. apply in_map. unfold enabled_species. now apply filter_In.
    - exists m. split; [exact E|]. cbn [rm_rows rm_cols] in *. rewrite K in R1, R2. split; [exact R1|]. split; [exact R2|].
      intros s t Hs Ht. rewrite (R3 s (sp_id t)) by (apply filter_In in Hs; tauto).
      assert (Ht' : In t (get_species c false true true)) by now rewrite sps_enabled.
      rewrite (ret_value c false true true t I Ht'). unfold coef_of, rm_get. cbn.
      destruct (shown_ret c t) as [d|]; reflexivity.
  Qed.

  Lemma return_only m : return_matrix_all c = Ok m -> rm_cols m = map sp_id (enabled_species c) -> adhoc_enabled.
  Proof using I.
    intros H K. apply adhoc_index. apply rm_fill_cols in H. cbn in H.
    apply ret_rows_only; [exact I|]. rewrite sps_enabled. congruence.
  Qed.

  (** ** The frames *)
  Variables (par : list (string * Q)) (rates : frame) (fluxes : table).
  Hypothesis RC : rectangular rates.

  Lemma combine_fst {X Y} : forall (l : list X) (m : list Y), List.length m = List.length l -> map snd (combine l m) = m.
  Proof using. induction l as [|x l IH]; intros [|y m]; cbn; intros H; try congruence. f_equal. apply IH. lia. Qed.

  Lemma no_t_ids ids (vals : list Q) : filter (fun x => is_t (fst x)) (combine (map LId ids) vals) = [].
  Proof using. revert vals. induction ids as [|i ids IH]; intros [|v vals]; cbn; auto. Qed.
  Lemma all_ids ids (vals : list Q) :
    filter (fun x => negb (is_t (fst x))) (combine (map LId ids) vals) = combine (map LId ids) vals.
  Proof using. revert vals. induction ids as [|i ids IH]; intros [|v vals]; cbn; auto. now rewrite IH. Qed.

  Let tcells (r : Z * list Q) := map snd (filter (fun x => is_t (fst x)) (combine (fr_cols rates) (snd r))).

  Lemma tcells_hd ids r : fr_cols rates = LName "t" :: map LId ids -> In r (fr_rows rates) ->
    exists q vals, snd r = q :: vals /\ tcells r = [q] /\ List.length vals = List.length ids /\
      map snd (filter (fun x => negb (is_t (fst x))) (combine (fr_cols rates) (snd r))) = vals.
  Proof using RC.
    intros C H. pose proof (RC r H) as L. rewrite C in L. unfold tcells. rewrite C. destruct r as [i [|q vals]]; [discriminate|].
    exists q, vals. cbn [snd combine filter fst] in *. cbn in L. rewrite map_length in L.
    change (is_t (LName "t")) with true. cbn [negb]. rewrite no_t_ids, all_ids. split; [reflexivity|]. split; [reflexivity|].
    split; [lia|]. apply combine_fst. rewrite map_length. lia.
  Qed.

  Lemma times_match ids : fr_cols rates = LName "t" :: map LId ids ->
    (Forall2 Qeq (flat_map tcells (fr_rows rates)) (map (fun r => snd r "t"%string) (tb_rows fluxes)) <->
     Forall2 (fun a b => exists q, hd_error (snd a) = Some q /\ q == snd b "t"%string) (fr_rows rates) (tb_rows fluxes)).
  Proof using RC.
    intros C. assert (G : forall r, In r (fr_rows rates) -> exists q vals, snd r = q :: vals /\ tcells r = [q]).
    { intros r Hr. destruct (tcells_hd ids r C Hr) as (q & vals & H1 & H2 & _). eauto. }
    clear C RC. revert G. generalize (tb_rows fluxes) as fl. induction (fr_rows rates) as [|r l IH]; intros [|f fl] G; cbn.
    - split; constructor.
    - split; intros H; inversion H.
    - destruct (G r (or_introl eq_refl)) as (q & vals & E1 & E2). rewrite E2. split; intros H; inversion H.
    - destruct (G r (or_introl eq_refl)) as (q & vals & E1 & E2). rewrite E2. cbn [app].
      assert (IH' := IH fl (fun r Hr => G r (or_intror Hr))).
      split; intros H; inversion H; subst; constructor.
      + exists q. rewrite E1. cbn. auto.
      + now apply IH'.
      + match goal with X : exists _, _ |- _ => destruct X as (q' & X1 & X2) end. rewrite E1 in X1. cbn in X1. congruence.
      + now apply IH'.
  Qed.
End Built.

Lemma filter_t_ids ids : filter is_t (map LId ids) = [].
Proof. induction ids; cbn; auto. Qed.
Lemma filter_t_names l : ~ In "t"%string l -> filter (String.eqb "t") l = [].
Proof.
  induction l as [|x l IH]; cbn [filter]; intros H; [reflexivity|]. destruct (String.eqb_spec "t" x) as [E|E].
  - exfalso. apply H. left. congruence.
  - apply IH. intros X. apply H. now right.
Qed.

Lemma t_names c : ~ In "t"%string (map sp_name (enabled_species c)) <->
  ~ In "t"%string (map sp_name (filter ordinaryb (enabled_species c))).
Proof.
  rewrite !in_map_iff. split; intros H (s & E & Hs); apply H; exists s; (split; [exact E|]).
  - apply filter_In in Hs. tauto.
  - apply filter_In. split; [exact Hs|]. unfold ordinaryb. now rewrite E.
Qed.

Lemma rates_t_ok rates ids : fr_cols rates = LName "t" :: map LId ids ->
  rates_t rates = Ok (inl (flat_map (fun r => map snd (filter (fun x => is_t (fst x)) (combine (fr_cols rates) (snd r)))) (fr_rows rates))).
Proof.
  intros C. unfold rates_t. rewrite C at 1. cbn [filter]. change (is_t (LName "t")) with true. cbn match.
  rewrite filter_t_ids. reflexivity.
Qed.

Lemma fluxes_t_iff fluxes names : tb_cols fluxes = "t"%string :: names ->
  forall vals, fluxes_t fluxes = Ok (inl vals) <->
    ~ In "t"%string names /\ vals = map (fun r => snd r "t"%string) (tb_rows fluxes).
Proof.
  intros C vals. unfold fluxes_t. rewrite C. cbn [filter]. rewrite String.eqb_refl. cbn [List.length column_t].
  destruct (filter (String.eqb "t") names) as [|x l] eqn:F; cbn [List.length]; split.
  - intros H. inversion H. split; [|reflexivity]. intros X.
    assert (Y : In "t"%string (filter (String.eqb "t") names)) by (apply filter_In; split; [exact X|apply String.eqb_refl]).
    rewrite F in Y. destruct Y.
  - intros [_ ->]. reflexivity.
  - discriminate.
  - intros [H _]. rewrite (filter_t_names names H) in F. discriminate.
Qed.

Section Whole.
  Variable c : chem.
  Hypothesis I : Inv c.
  Hypothesis A : assert_consistency c = Ok tt.
  Hypothesis D : dict_rets c.
  Variables (par : list (string * Q)) (rates : frame) (fluxes : table).
  Hypothesis RC : rectangular rates.

  Lemma stoich_labels m :
    forallb (fun r => listb Z.eqb (map fst (snd r)) (map sp_id (get_species c false true true)))
            (get_stoichiomatrix c false true m) = true /\
    listb Z.eqb (map fst (get_stoichiomatrix c false true m)) (map rx_id (get_reactions c false)) = true.
  Proof using I.
    destruct (stoichiomatrix_spec c false true m (i_wf c I)) as (K & Rw & _). split.
    - apply forallb_forall. intros [i row] H. apply listb_Z. exact (Rw i row H).
    - apply listb_Z, K.
  Qed.

  Lemma checks_iff : assert_input_consistency c rates fluxes = Ok tt <->
    fr_cols rates = LName "t" :: map (fun r => LId (rx_id r)) (enabled_reactions c) /\
    tb_cols fluxes = "t"%string :: map sp_name (filter ordinaryb (enabled_species c)) /\
    ~ In "t"%string (map sp_name (enabled_species c)) /\
    Forall2 (fun a b => exists q, hd_error (snd a) = Some q /\ q == snd b "t"%string) (fr_rows rates) (tb_rows fluxes) /\
    adhoc_enabled c.
  Proof using I A D RC.
    unfold assert_input_consistency. destruct (stoich_labels Lhs) as [L1 L2]. destruct (stoich_labels Rhs) as [R1 R2].
    rewrite L1, L2, R1, R2. rewrite <- (map_map rx_id LId). rewrite t_names.
    assert (ST : listb Z.eqb (map fst (get_species_stick_coef c false true true)) (map sp_id (get_species c false true true)) = true).
    { apply listb_Z, stick_rows. }
    rewrite ST. unfold get_species_name. rewrite (proj2 (by_species_rows sp_name c false false true)).
    rewrite sps_enabled, ord_enabled, rxs_enabled. split.
    - intros H. apply bind_Ok in H. destruct H as (a & Ha & H). apply bind_Ok in H. destruct H as (b & Hb & H).
      rewrite !raise_bind, !negb_false_iff in H. destruct H as (S & _ & _ & _ & _ & Cr & Cf & H).
      apply listb_L in Cr. apply listb_S in Cf. apply bind_Ok in H. destruct H as (m & Hm & H).
      rewrite !raise_bind, !negb_false_iff in H. destruct H as (_ & Cm & _). apply listb_Z in Cm.
      split; [exact Cr|]. split; [exact Cf|].
      rewrite (rates_t_ok rates _ Cr) in Ha. injection Ha as <-. destruct b as [vals|n]; [|discriminate].
      apply (fluxes_t_iff fluxes _ Cf) in Hb. destruct Hb as [Nt ->]. split; [exact Nt|].
      split; [|exact (return_only c I m Hm Cm)].
      cbn [same_t] in S. apply listb_Qeq in S. eapply (times_match rates fluxes RC); [exact Cr|exact S].
    - intros (Cr & Cf & Nt & T & Ad). rewrite (rates_t_ok rates _ Cr). cbn [bind].
      rewrite (proj2 (fluxes_t_iff fluxes _ Cf _) (conj Nt eq_refl)). cbn [bind same_t].
      eapply (times_match rates fluxes RC) in T; [|exact Cr].
      apply listb_Qeq in T. rewrite T. cbn [negb]. rewrite !raise_bind.
      rewrite (proj2 (listb_L _ _) Cr), (proj2 (listb_S _ _) Cf).
      destruct (return_ok c I A D Ad) as (m & -> & M1 & M2 & _). cbn [bind].
      rewrite (proj2 (listb_Z _ _) M1), (proj2 (listb_Z _ _) M2). repeat split.
  Qed.

  Lemma param_iff k : (exists q, param par k = Ok q) <-> In k (map fst par).
  Proof using.
    unfold param. destruct (sget k par) as [q|] eqn:E.
    - split; [|eauto]. intros _. apply (aget_In String.eqb Seqb_spec) in E. apply in_map_iff. now exists (k, q).
    - apply (aget_None String.eqb Seqb_spec) in E. split; [intros (q & H); discriminate|]. intros H. now elim E.
  Qed.

  Lemma init_iff : (exists k, cgraph_init c par rates fluxes = Ok k) <-> fitting c par rates fluxes.
  Proof using I A D RC.
    unfold cgraph_init. split.
    - intros (k & H). apply bind_Ok in H. destruct H as ([] & C & H). apply checks_iff in C.
      destruct C as (C1 & C2 & C3 & C4 & C5).
      apply bind_Ok in H. destruct H as (r & Hr & H). apply bind_Ok in H. destruct H as (z & Hz & _).
      split; auto; apply param_iff; eauto.
    - intros [F1 F2 F3 F4 F5 F6 F7]. rewrite (proj2 checks_iff) by auto. cbn [bind].
      apply param_iff in F6. destruct F6 as (r & ->). apply param_iff in F7. destruct F7 as (z & ->). cbn [bind].
      destruct (return_ok c I A D F5) as (m & -> & _). cbn [bind]. eauto.
  Qed.

  Lemma nth_times (f : Z * list Q -> list Q) : forall (l : list (Z * list Q)),
    (forall r, In r l -> exists q vals, snd r = q :: vals /\ f r = [q]) ->
    List.length (flat_map f l) = List.length l /\
    forall t i q vals, nth_error l t = Some (i, q :: vals) -> nth_error (flat_map f l) t = Some q.
  Proof using.
    induction l as [|r l IH]; intros H; cbn [flat_map].
    - split; [reflexivity|]. intros [|t]; discriminate.
    - destruct (H r (or_introl eq_refl)) as (q0 & v0 & E1 & E2). rewrite E2.
      destruct (IH (fun r Hr => H r (or_intror Hr))) as [L N]. split; [cbn; now rewrite L|].
      intros [|t] i q vals Hn; cbn in Hn |- *.
      + injection Hn as ->. cbn in E1. congruence.
      + eauto.
  Qed.

  Lemma cell_value m j r a s :
    nth_error (enabled_reactions c) j = Some r -> nth_error (enabled_species c) a = Some s ->
    match nth_error (get_stoichiomatrix c false true m) j with
    | Some row => match nth_error (snd row) a with Some x => snd x | None => 0%Z end
    | None => 0%Z
    end = stoich_entry m r (sp_id s).
  Proof using.
    intros Hj Ha. unfold get_stoichiomatrix. rewrite sps_enabled, rxs_enabled.
    rewrite (map_nth_error _ _ _ Hj). cbn [snd]. rewrite map_map.
    now rewrite (map_nth_error _ _ _ Ha).
  Qed.

  Lemma ord_not s : ~ ordinary s <-> ordinaryb s = false.
  Proof using. rewrite ordinary_iff. destruct (ordinaryb s); split; congruence. Qed.

  Lemma init_holds k : cgraph_init c par rates fluxes = Ok k -> holds c par rates fluxes k.
  Proof using I A D RC.
    intros H. assert (F : fitting c par rates fluxes) by (apply init_iff; eauto). destruct F as [F1 F2 F3 F4 F5 F6 F7].
    unfold cgraph_init in H. rewrite (proj2 checks_iff) in H by auto. cbn [bind] in H.
    apply bind_Ok in H. destruct H as (r & Hr & H). apply bind_Ok in H. destruct H as (z & Hz & H).
    destruct (return_ok c I A D F5) as (m & Em & M1 & M2 & M3). rewrite Em in H. cbn [bind] in H.
    injection H as <-. rewrite <- (map_map rx_id LId) in F1.
    pose proof (nth_times (fun row => map snd (filter (fun x => is_t (fst x)) (combine (fr_cols rates) (snd row)))) (fr_rows rates)) as T.
    assert (TH : forall row, In row (fr_rows rates) -> exists q vals, snd row = q :: vals /\
               map snd (filter (fun x => is_t (fst x)) (combine (fr_cols rates) (snd row))) = [q]).
    { intros row Hrow. destruct (tcells_hd rates RC _ row F1 Hrow) as (q & vals & X1 & X2 & _). eauto. }
    specialize (T TH). destruct T as [T1 T2].
    split; cbn [cg_species cg_special cg_reactions cg_times cg_radius cg_length cg_ret cg_rate cg_flux cg_lhs cg_rhs].
    - unfold get_species_name. rewrite (proj2 (by_species_rows sp_name c false true true)). now rewrite sps_enabled.
    - intros n. unfold special_species. rewrite in_map_iff. split.
      + intros (s & E & Hs). apply filter_In in Hs. destruct Hs as [H1 H2]. rewrite special_ordinary, negb_true_iff in H2.
        split; [|eauto]. rewrite <- E. unfold ordinaryb in H2. apply andb_false_iff in H2.
        rewrite !negb_false_iff, !String.eqb_eq in H2. tauto.
      + intros (E & s & Hs & Es). exists s. split; [exact Es|]. apply filter_In. split; [exact Hs|].
        rewrite special_ordinary. unfold ordinaryb. rewrite Es. destruct E as [E|E]; rewrite E; reflexivity.
    - reflexivity.
    - unfold param in Hr. destruct (sget "radius" par); congruence.
    - unfold param in Hz. destruct (sget "length" par); congruence.
    - exact T1.
    - exact T2.
    - intros t i q vals j v Ht Hv. rewrite Ht.
      destruct (tcells_hd rates RC _ (i, q :: vals) F1) as (q' & vals' & X1 & _ & _ & X4); [eapply nth_error_In; eauto|].
      rewrite X4. cbn in X1. injection X1 as _ <-. now apply nth_error_nth.
    - intros t i row b s Ht Hb. rewrite Ht, sps_enabled, Hb. cbn [snd]. rewrite F2.
      assert (Hs : In s (enabled_species c)) by (eapply nth_error_In; eauto).
      split; intros O.
      + assert (X : memS (sp_name s) ("t"%string :: map sp_name (filter ordinaryb (enabled_species c))) = true).
        { apply memS_In. right. apply in_map. apply filter_In. split; [exact Hs|]. now apply ordinary_iff. }
        now rewrite X.
      + destruct (memS (sp_name s) ("t"%string :: map sp_name (filter ordinaryb (enabled_species c)))) eqn:X; [|reflexivity].
        apply memS_In in X. destruct X as [X|X].
        * exfalso. apply F3. rewrite X. now apply in_map.
        * apply in_map_iff in X. destruct X as (u & E & Hu). apply filter_In in Hu. destruct Hu as [_ Hu].
          apply ord_not in O. unfold ordinaryb in *. rewrite E in Hu. congruence.
    - intros j r' a s Hj Ha. rewrite !(cell_value _ j r' a s Hj Ha). now rewrite !stoich_times.
    - intros a s b u Ha Hb. rewrite sps_enabled, Ha, Hb. unfold ret_entry. rewrite !special_ordinary. split.
      + intros Os Ou q Hq. apply ordinary_iff in Os. apply ordinary_iff in Ou. rewrite Os, Ou. cbn [negb orb].
        rewrite M3 by (eapply nth_error_In; eauto). now rewrite Hq.
      + rewrite !ord_not. intros [O|O]; rewrite O; cbn [negb]; rewrite ?orb_true_r; reflexivity.
  Qed.
End Whole.
