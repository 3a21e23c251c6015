(** Lookup, consistency and the invariant of reachable chemistries. *)
From Verif Require Import Base BaseLemmas Species Reactions Chemistry ChemSpec ChemDisable.
From Coq Require Import ZifyBool.

(** ** Lookup *)

Lemma get_rp_denotes c a s : wf c -> (get_rp c a = Ok s <-> denotes c a s).
Proof.
  intros W. unfold get_rp, denotes. destruct a as [z|n|u].
  - split.
    + destruct (find _ (c_species c)) as [s'|] eqn:F; intros H; inversion H; subst.
      apply find_some in F. destruct F as [F1 F2]. split; [exact F1|lia].
    + intros [H1 H2]. rewrite (find_unique _ _ s); auto; [lia|].
      intros y Hy Ey. apply (NoDup_map_inj sp_id (c_species c)); auto using (wf_ids c W). lia.
  - split.
    + destruct (find _ (c_species c)) as [s'|] eqn:F; intros H; inversion H; subst.
      apply find_some in F. destruct F as [F1 F2]. split; [exact F1|]. now apply String.eqb_eq.
    + intros [H1 H2]. rewrite (find_unique _ _ s); auto; [now apply String.eqb_eq|].
      intros y Hy Ey. apply (NoDup_map_inj sp_name (c_species c)); auto using (wf_names c W).
      apply String.eqb_eq in Ey. congruence.
  - split.
    + destruct (find _ (c_species c)) as [s'|] eqn:F; intros H; inversion H; subst.
      apply find_some in F. destruct F as [F1 F2]. split; [exact F1|]. now apply Nat.eqb_eq.
    + intros [H1 H2]. rewrite (find_unique _ _ s); auto; [now apply Nat.eqb_eq|].
      intros y Hy Ey. apply (NoDup_map_inj sp_uid (c_species c)); auto using (wf_uids c W).
      apply Nat.eqb_eq in Ey. congruence.
Qed.

Lemma get_rp_Err c a e : get_rp c a = Err e -> e = ESpeciesNotPresent /\ forall s, ~ denotes c a s.
Proof.
  unfold get_rp, denotes. destruct a as [z|n|u];
    destruct (find _ (c_species c)) as [s'|] eqn:F; intros H; inversion H; subst; split; auto;
    intros s [H1 H2]; pose proof (find_none _ _ F s H1) as X; cbn in X.
  - lia.
  - apply String.eqb_neq in X. congruence.
  - apply Nat.eqb_neq in X. congruence.
Qed.

Lemma get_reaction_denotes c z r : wf c -> (get_reaction c z = Ok r <-> denotes_r c z r).
Proof.
  intros W. unfold get_reaction, denotes_r. split.
  - destruct (find _ (c_reactions c)) as [s'|] eqn:F; intros H; inversion H; subst.
    apply find_some in F. destruct F as [F1 F2]. split; [exact F1|lia].
  - intros [H1 H2]. rewrite (find_unique _ _ r); auto; [lia|].
    intros y Hy Ey. apply (NoDup_map_inj rx_id (c_reactions c)); auto using (wf_rids c W). lia.
Qed.

Lemma get_reaction_Err c z e :
  get_reaction c z = Err e -> e = EReactionNotPresent /\ forall r, ~ denotes_r c z r.
Proof.
  unfold get_reaction, denotes_r.
  destruct (find _ (c_reactions c)) as [s'|] eqn:F; intros H; inversion H; subst; split; auto.
  intros s [H1 H2]. pose proof (find_none _ _ F s H1) as X. cbn in X. lia.
Qed.

(** Resolution of a list of arguments to species ids. *)
Definition resolve (c : chem) (a : ref) : res Z := let* s := get_rp c a in Ok (sp_id s).
Definition resolve_r (c : chem) (z : Z) : res Z := let* r := get_reaction c z in Ok (rx_id r).

Lemma resolve_Ok c a i : wf c -> (resolve c a = Ok i <-> exists s, denotes c a s /\ sp_id s = i).
Proof.
  intros W. unfold resolve. split.
  - destruct (get_rp c a) as [s|e] eqn:E; cbn; intros H; inversion H; subst.
    exists s. split; [now apply get_rp_denotes|reflexivity].
  - intros (s & H & <-). apply (get_rp_denotes c a s W) in H. rewrite H. reflexivity.
Qed.

Lemma mapM_resolve_Ok c l ids :
  wf c -> mapM (resolve c) l = Ok ids ->
  (forall i, In i ids <-> exists a s, In a l /\ denotes c a s /\ sp_id s = i) /\
  (forall a, In a l -> exists s, denotes c a s).
Proof.
  intros W H. apply mapM_Ok_inv in H. induction H as [|a i l ids Ha H [IH1 IH2]].
  - split; [|intros a []]. intros i. split; [intros []|intros (a & s & [] & _)].
  - apply (resolve_Ok c a i W) in Ha. destruct Ha as (s & Hs & Hi). split.
    + intros j. cbn. rewrite IH1. split.
      * intros [<-|(a' & s' & H1 & H2 & H3)]; [exists a, s; auto|exists a', s'; auto].
      * intros (a' & s' & [<-|H1] & H2 & H3).
        -- left. apply (get_rp_denotes c a s W) in Hs. apply (get_rp_denotes c a s' W) in H2. congruence.
        -- right. exists a', s'. auto.
    + intros a' [<-|H1]; [exists s; exact Hs|auto].
Qed.

Lemma mapM_resolve_r_Ok c l ids :
  wf c -> mapM (resolve_r c) l = Ok ids -> ids = l /\ incl l (r_ids c).
Proof.
  intros W H. apply mapM_Ok_inv in H. induction H as [|a i l ids Ha H [IH1 IH2]].
  - split; [reflexivity|intros x []].
  - unfold resolve_r in Ha. destruct (get_reaction c a) as [r|e] eqn:E; cbn in Ha; inversion Ha; subst.
    apply (get_reaction_denotes c a r W) in E. destruct E as [E1 E2]. subst a. split; [reflexivity|].
    intros x [<-|Hx]; [now apply in_map|auto].
Qed.

(** ** assert_consistency *)

(** Every return species counted by the chemistry is an enabled species. *)
Definition ret_ok (c : chem) : Prop :=
  forall i d n, In (i, Some d) (get_species_ret_coefs c false true true) -> In n (map fst d) ->
    exists s, In s (c_species c) /\ c_en c (sp_id s) = true /\ sp_name s = n.

Definition charge_ok (c : chem) : Prop :=
  match c_kind c with
  | Plain => (exists s, In s (c_species c) /\ sp_name s = "e" /\ c_en c (sp_id s) = true) /\
             (exists s, In s (c_species c) /\ c_en c (sp_id s) = true /\ pos_ion s)
  | Neutral => forall s, In s (c_species c) -> c_en c (sp_id s) = true ->
                 ~ In (sp_name s) ["e"; "M"] -> sp_charge s = Some 0
  end.

Lemma bind_Ok {A B} (x : res A) (f : A -> res B) b :
  bind x f = Ok b <-> exists a, x = Ok a /\ f a = Ok b.
Proof.
  destruct x as [a|e]; cbn; split.
  - intros H. exists a. auto.
  - intros (a' & H & H'). inversion H; subst. exact H'.
  - discriminate.
  - intros (a & H & _). discriminate.
Qed.

Lemma raise_if_Ok b e : raise_if b e = Ok tt <-> b = false.
Proof. unfold raise_if. destruct b; split; congruence. Qed.

Lemma raise_bind {A} b e (f : unit -> res A) a : bind (raise_if b e) f = Ok a <-> b = false /\ f tt = Ok a.
Proof.
  destruct b; cbn; split; intros H; try discriminate; try tauto. destruct H; discriminate.
Qed.

Lemma unit_bind {A} (x : res unit) (f : unit -> res A) a : bind x f = Ok a <-> x = Ok tt /\ f tt = Ok a.
Proof. rewrite bind_Ok. split; [intros ([] & H)|intros H; exists tt]; exact H. Qed.

Lemma In_name_pool c n :
  In n (name_pool c) <-> exists s, In s (c_species c) /\ c_en c (sp_id s) = true /\ sp_name s = n.
Proof.
  unfold name_pool. rewrite in_map_iff. split.
  - intros (s & E & H). apply In_get_species_special in H. exists s. tauto.
  - intros (s & H1 & H2 & H3). exists s. rewrite In_get_species_special. tauto.
Qed.

Lemma ret_ok_iff c :
  subsetS (flat_map (fun kv => match snd kv with Some d => map fst d | None => [] end)
                    (get_species_ret_coefs c false true true)) (name_pool c) = true <-> ret_ok c.
Proof.
  rewrite subsetS_incl. unfold ret_ok, incl. split.
  - intros H i d n Hi Hn. apply In_name_pool, H, in_flat_map. exists (i, Some d). auto.
  - intros H n Hn. apply in_flat_map in Hn. destruct Hn as ([i [d|]] & Hi & Hn); [|destruct Hn].
    apply In_name_pool. eapply H; eauto.
Qed.

Lemma rx_sps_takes_part s r : In s (rx_sps r) <-> takes_part s r.
Proof. unfold rx_sps, takes_part. apply in_app_iff. Qed.

Definition involved (c : chem) : list sp := flat_map rx_sps (get_reactions c false).

Lemma In_involved c s :
  In s (involved c) <-> exists r, In r (c_reactions c) /\ c_enr c (rx_id r) = true /\ takes_part s r.
Proof.
  unfold involved. rewrite in_flat_map. split.
  - intros (r & Hr & Hs). apply In_get_reactions in Hr. apply rx_sps_takes_part in Hs. exists r. tauto.
  - intros (r & H1 & H2 & H3). exists r. rewrite In_get_reactions, rx_sps_takes_part. tauto.
Qed.

(** The two instance checks of assert_consistency. *)
Lemma involved_checks c :
  wf c ->
  (forallb (fun s => memN (sp_uid s) (map sp_uid (get_species c false true true))) (involved c) = true /\
   Nat.eqb (List.length (get_species c false true true))
           (count_distinct (map sp_name (involved c))) = true)
  <-> closed c.
Proof.
  intros W.
  set (en := get_species c false true true).
  assert (Hen : forall s, In s en <-> In s (c_species c) /\ c_en c (sp_id s) = true)
    by (intros; apply In_get_species_special).
  assert (Hinc : forall s, In s (involved c) -> In s (c_species c)).
  { intros s Hs. apply In_involved in Hs. destruct Hs as (r & H1 & _ & H3). apply (wf_inst c W r); auto. }
  assert (F : forallb (fun s => memN (sp_uid s) (map sp_uid en)) (involved c) = true
              <-> incl (involved c) en).
  { rewrite forallb_forall. split.
    - intros H s Hs. specialize (H s Hs). apply memN_In, in_map_iff in H.
      destruct H as (s' & E & Hs'). pose proof (proj1 (Hen s') Hs') as [Hs'' _].
      rewrite (NoDup_map_inj sp_uid (c_species c) s s'); auto using (wf_uids c W).
    - intros H s Hs. apply memN_In, in_map, H, Hs. }
  rewrite F.
  assert (NDn : NoDup (map sp_name en)) by (apply NoDup_map_filter, (wf_names c W)).
  assert (Hcl : closed c <-> incl (involved c) en /\ incl en (involved c)).
  { unfold closed, subnetwork, on_sp, on_r. split.
    - intros [C1 C2]. split.
      + intros s Hs. pose proof (Hinc s Hs). apply In_involved in Hs. destruct Hs as (r & H1 & H2 & H3).
        apply Hen. split; [auto|]. eapply C1; eauto.
      + intros s Hs. apply Hen in Hs. destruct Hs as [H1 H2]. apply In_involved.
        destruct (C2 s H1 H2) as (r & ? & ? & ?). exists r. auto.
    - intros [I1 I2]. split.
      + intros r s Hr Hon Htp. apply (Hen s), I1, In_involved. exists r. auto.
      + intros s Hs Hon. assert (In s (involved c)) as X by (apply I2, Hen; auto).
        apply In_involved in X. destruct X as (r & ? & ? & ?). exists r. auto. }
  rewrite Hcl. split.
  - intros [I1 Hc]. split; [exact I1|].
    apply Nat.eqb_eq in Hc. unfold count_distinct in Hc.
    assert (Hincl : incl (map sp_name en) (odedupS (map sp_name (involved c)))).
    { apply NoDup_length_incl.
      - apply odedupS_NoDup.
      - rewrite map_length. lia.
      - intros n Hn. rewrite odedupS_In in Hn. apply in_map_iff in Hn. destruct Hn as (s & <- & Hs).
        apply in_map, I1, Hs. }
    intros s Hs. assert (In (sp_name s) (odedupS (map sp_name (involved c)))) as X by (apply Hincl, in_map, Hs).
    rewrite odedupS_In in X. apply in_map_iff in X. destruct X as (s' & E & Hs').
    rewrite (NoDup_map_inj sp_name (c_species c) s s'); auto using (wf_names c W).
    apply Hen in Hs. tauto.
  - intros [I1 I2]. split; [exact I1|]. apply Nat.eqb_eq. unfold count_distinct.
    assert (List.length (map sp_name en) <= List.length (odedupS (map sp_name (involved c))))%nat.
    { apply NoDup_incl_length; [exact NDn|]. intros n Hn. apply odedupS_In.
      apply in_map_iff in Hn. destruct Hn as (s & <- & Hs). apply in_map, I2, Hs. }
    assert (List.length (odedupS (map sp_name (involved c))) <= List.length (map sp_name en))%nat.
    { apply NoDup_incl_length; [apply odedupS_NoDup|]. intros n Hn. rewrite odedupS_In in Hn.
      apply in_map_iff in Hn. destruct Hn as (s & <- & Hs). apply in_map, I1, Hs. }
    rewrite map_length in *. lia.
Qed.

Lemma special_e : memS "e" special_names = true.
Proof. reflexivity. Qed.

Lemma assert_ok_iff c :
  wf c -> (assert_consistency c = Ok tt <-> closed c /\ charge_ok c /\ ret_ok c).
Proof.
  intros W.
  assert (B : assert_consistency_base c = Ok tt <->
    (requires_charge (c_kind c) = true ->
       In "e" (name_pool c) /\ existsb positive (get_species c false false true) = true) /\
    closed c /\ ret_ok c).
  { unfold assert_consistency_base. fold (name_pool c). fold (involved c).
    rewrite unit_bind.
    rewrite !raise_bind, raise_if_Ok, !negb_false_iff.
    rewrite ret_ok_iff.
    assert (nodupSb (name_pool c) = true) as N1.
    { apply nodupSb_NoDup, NoDup_map_filter, (wf_names c W). }
    assert (nodupZb (map sp_id (get_species c false true true)) = true) as N2.
    { apply nodupZb_NoDup, NoDup_map_filter, (wf_ids c W). }
    rewrite <- (involved_checks c W).
    destruct (requires_charge (c_kind c)).
    - rewrite raise_bind, raise_if_Ok, !negb_false_iff, memS_In. tauto.
    - split; [|intuition]. intros (_ & H). split; [discriminate|tauto]. }
  unfold assert_consistency, charge_ok in *. destruct (c_kind c) eqn:K; cbn [requires_charge] in B.
  - rewrite B, In_name_pool, existsb_exists.
    split.
    + intros (H1 & H2 & H3). destruct (H1 eq_refl) as [(s & A1 & A2 & A3) (s' & B1 & B2)].
      split; [exact H2|split; [split|exact H3]].
      * exists s. auto.
      * apply In_get_species in B1. destruct B1 as (B1 & B3 & B4). exists s'. auto using positive_pos_ion.
    + intros (H1 & [(s & A1 & A2 & A3) (s' & B1 & B2 & B3)] & H3). split; [|auto]. intros _. split.
      * exists s. auto.
      * exists s'. rewrite In_get_species. apply pos_ion_positive in B3. tauto.
  - rewrite raise_bind, negb_false_iff, forallb_forall, B. split.
    + intros (H0 & H1 & H2 & H3). repeat split; auto; try apply H2.
      intros s Hs He Hn. assert (In s (get_species c false false true)) as X.
      { apply In_get_species. repeat split; auto. apply memS_false. exact Hn. }
      specialize (H0 s X). destruct (sp_charge s) as [z|]; [|discriminate]. f_equal. lia.
    + intros (H1 & H2 & H3). repeat split; auto; try apply H1; try discriminate.
      intros s Hs. apply In_get_species in Hs. destruct Hs as (A1 & A2 & A3).
      rewrite (H2 s); auto. apply memS_false. exact A3.
Qed.

Lemma assert_errors c e : assert_consistency c = Err e -> e = EChemConsistency.
Proof.
  assert (R : forall b (k : unit -> res unit) e', bind (raise_if b EChemConsistency) k = Err e' ->
              e' = EChemConsistency \/ k tt = Err e').
  { intros b k e'. destruct b; cbn; [|auto]. intros H. inversion H. auto. }
  assert (R' : forall b e', raise_if b EChemConsistency = Err e' -> e' = EChemConsistency).
  { intros b e'. destruct b; cbn; congruence. }
  assert (B : forall e', assert_consistency_base c = Err e' -> e' = EChemConsistency).
  { intros e'. unfold assert_consistency_base. destruct (requires_charge (c_kind c)).
    - destruct (raise_if (negb (memS "e" (map sp_name (get_species c false true true)))) EChemConsistency) as [u|x] eqn:X; cbn [bind].
      + destruct (raise_if (negb (existsb positive (get_species c false false true))) EChemConsistency) as [u'|x] eqn:X'; cbn [bind].
        * intros H. repeat (apply R in H; destruct H as [H|H]; [exact H|]). now apply R' in H.
        * intros H. inversion H; subst. now apply R' in X'.
      + intros H. inversion H; subst. now apply R' in X.
    - intros H. cbn [bind] in H. repeat (apply R in H; destruct H as [H|H]; [exact H|]). now apply R' in H. }
  unfold assert_consistency. destruct (c_kind c); [apply B|].
  intros H. apply R in H. destruct H as [H|H]; auto.
Qed.

(** ** Return coefficients in the presence of disabled species *)

Lemma any_disabled_true c :
  any_disabled c = true <-> exists s, In s (c_species c) /\ c_en c (sp_id s) = false.
Proof.
  unfold any_disabled. rewrite existsb_exists. split; intros (s & H1 & H2); exists s; split; auto.
  - now apply negb_true_iff.
  - now apply negb_true_iff.
Qed.

Lemma ret_ok_some_disabled c : any_disabled c = true -> ret_ok c.
Proof.
  intros H i d n Hi Hn. unfold get_species_ret_coefs in Hi. rewrite H in Hi.
  apply in_map_iff in Hi. destruct Hi as ([j [d'|]] & E & Hj); cbn in E; inversion E; subst.
  apply in_map_iff in Hn. destruct Hn as ([n' f] & <- & Hn). apply filter_In in Hn.
  destruct Hn as [_ Hn]. apply memS_In, In_name_pool in Hn. exact Hn.
Qed.

(** With everything enabled the return coefficients depend only on the data. *)
Lemma filter_ext_in {A} (p q : A -> bool) l :
  (forall x, In x l -> p x = q x) -> filter p l = filter q l.
Proof.
  induction l as [|a l IH]; cbn; intros H; [reflexivity|].
  rewrite (H a (or_introl eq_refl)), IH; [reflexivity|]. intros; apply H; auto.
Qed.

Lemma any_disabled_false c :
  any_disabled c = false <-> forall s, In s (c_species c) -> c_en c (sp_id s) = true.
Proof.
  unfold any_disabled. rewrite existsb_false. split; intros H s Hs; specialize (H s Hs).
  - now apply negb_false_iff.
  - now apply negb_false_iff.
Qed.

Lemma get_species_all_on c :
  any_disabled c = false -> get_species c false true true = c_species c.
Proof.
  intros H. rewrite any_disabled_false in H. unfold get_species, sp_mask.
  rewrite (filter_ext_in _ (fun _ => true)).
  - induction (c_species c) as [|a l IH]; cbn; [reflexivity|]. rewrite IH; [reflexivity|]. intros; apply H; now right.
  - intros s Hs. rewrite (H s Hs). reflexivity.
Qed.

Lemma ret_ok_same c c' :
  same_data c c' -> any_disabled c = false -> any_disabled c' = false -> ret_ok c -> ret_ok c'.
Proof.
  intros (Hk & Hs & Hr & Hx & Hst & Hrt & Har) D D' H i d n Hi Hn.
  pose proof (get_species_all_on c D) as G. pose proof (get_species_all_on c' D') as G'.
  assert (get_species_ret_coefs c' false true true = get_species_ret_coefs c false true true) as E.
  { unfold get_species_ret_coefs, get_species_stick_coef, by_species. rewrite D, D', G, G', Hs, Hst, Hrt. reflexivity. }
  rewrite E in Hi. destruct (H i d n Hi Hn) as (s & H1 & H2 & H3). exists s. rewrite Hs. repeat split; auto.
  rewrite any_disabled_false in D'. apply D'. now rewrite Hs.
Qed.

(** ** disable at the level of the public method *)

Lemma chem_eta c : MkChem (c_kind c) (c_species c) (c_reactions c) (c_xml c) (c_en c) (c_prot c) (c_adprot c)
                          (c_enr c) (c_stick c) (c_ret c) (c_arrh c) = c.
Proof. destruct c. reflexivity. Qed.

(** The possible outcomes of [disable]. *)
Inductive disable_outcome (c : chem) (ss : list ref) (rs : list Z) : chem * res unit -> Prop :=
| DO_no_species a : In a ss -> (forall s, ~ denotes c a s) ->
    disable_outcome c ss rs (c, Err ESpeciesNotPresent)
| DO_no_reaction z : In z rs -> (forall r, ~ denotes_r c z r) ->
    (forall a, In a ss -> exists s, denotes c a s) ->
    disable_outcome c ss rs (c, Err EReactionNotPresent)
| DO_refused si c1 :
    mapM (resolve c) ss = Ok si -> incl rs (r_ids c) ->
    disable_recursively (disable_fuel c) c si rs = (c1, Err EChemDisable) ->
    disable_outcome c ss rs (c, Err EChemDisable)
| DO_done si c' :
    mapM (resolve c) ss = Ok si -> incl rs (r_ids c) ->
    disable_recursively (disable_fuel c) c si rs = (c', Ok tt) ->
    disable_outcome c ss rs (c', assert_consistency c').

Lemma disable_cases c ss rs : wf c -> disable_outcome c ss rs (disable c ss rs).
Proof.
  intros W. unfold disable. fold (resolve c). fold (resolve_r c).
  change (mapM (fun a : ref => let* s := get_rp c a in Ok (sp_id s)) ss) with (mapM (resolve c) ss).
  change (mapM (fun z : Z => let* r := get_reaction c z in Ok (rx_id r)) rs) with (mapM (resolve_r c) rs).
  destruct (mapM (resolve c) ss) as [si|e] eqn:Es; cbn [bind].
  - destruct (mapM (resolve_r c) rs) as [ri|e] eqn:Er; cbn [bind].
    + apply mapM_resolve_r_Ok in Er; [|exact W]. destruct Er as [-> Hr].
      destruct (disable_recursively (disable_fuel c) c si rs) as [c' o] eqn:D.
      destruct o as [[]|e].
      * eapply DO_done; eauto.
      * assert (e = EChemDisable) as ->.
        { eapply dr_errors; [apply n_on_fuel| |exact Hr|exact D].
          intros i Hi. apply (mapM_resolve_Ok c ss si W Es) in Hi.
          destruct Hi as (a & s & _ & [Hs _] & <-). now apply in_map. }
        pose proof (dr_frame _ _ _ _ _ _ D) as ((Hk & Hs & Hrx & Hx & Hst & Hrt & Har) & Hp & _).
        assert (with_adprot (with_prot (with_enr (with_en c' (c_en c)) (c_enr c)) (c_prot c)) (c_adprot c) = c) as ->.
        { unfold with_adprot, with_prot, with_enr, with_en. cbn.
          rewrite Hk, Hs, Hrx, Hx, Hst, Hrt, Har. apply chem_eta. }
        eapply DO_refused; eauto.
    + apply mapM_Err_In in Er. destruct Er as (z & Hz & Ez). unfold resolve_r in Ez.
      destruct (get_reaction c z) as [r|e'] eqn:G; cbn in Ez; inversion Ez; subst.
      apply get_reaction_Err in G. destruct G as [-> Hn]. eapply DO_no_reaction; eauto.
      apply (mapM_resolve_Ok c ss si W Es).
  - apply mapM_Err_In in Es. destruct Es as (a & Ha & Ea). unfold resolve in Ea.
    destruct (get_rp c a) as [s|e'] eqn:G; cbn in Ea; inversion Ea; subst.
    apply get_rp_Err in G. destruct G as [-> Hn]. eapply DO_no_species; eauto.
Qed.
