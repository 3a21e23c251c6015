(** Imports from the QDB database into any builder. *)
From Verif Require Import Base BaseLemmas Species Reactions MolSpec SpeciesProofs Classification Xml XmlSpec XmlIds XmlBuilder Hpem HpemBuilder
  Qdb QdbSpec QdbProofs QdbMain.

Section Builder.
  Variables (E : env) (so : pyval -> string).

  Lemma qdb_name_nonempty q : q_formula q <> "" -> qdb_name q <> "".
  Proof.
    intros H. destruct (proj2 (stateless_eq q (qdb_stateless q)) eq_refl) as [[_ Hn]|[(x & sh & lg & Hi & _ & Hn)|(_ & _ & Hn)]];
      unfold qdb_name; rewrite Hn; [discriminate| |destruct (q_formula q); [congruence|discriminate]].
    cbn in Hi. repeat (destruct Hi as [Hi|Hi]; [injection Hi as <- <-; destruct x; discriminate|]). contradiction.
  Qed.

  Lemma qdb_items q us : exists items, mapM (rp_item E so (qdb_attrs q) us) rp_attr_keys = Ok items.
  Proof.
    destruct (mapM (rp_item E so (qdb_attrs q) us) rp_attr_keys) as [its|e] eqn:Em; [eauto|]. exfalso.
    apply mapM_Err_In in Em as (k & Hk & He). unfold rp_item in He.
    destruct (String.eqb_spec k "ret_coefs") as [->|N].
    - assert (sget "ret_coefs" (qdb_attrs q) = None) as Hn; [|rewrite Hn in He; discriminate].
      unfold qdb_attrs. rewrite !get_app, !get_entry, !get_if. shrink.
      destruct (q_states q), (q_hpem q) as [h|]; shrink; try destruct (String.eqb h ""); destruct (q_charge q =? 0); reflexivity.
    - destruct (sget k (qdb_attrs q)) as [v|]; [|discriminate]. destruct (negb (given v)); discriminate.
  Qed.

  Lemma add_qdb q b ns : BInv b ns -> q_formula q <> "" ->
    (known b (SStr (qdb_name q)) = true -> add_rp_from_qdb E so q b = (b, Err EXml)) /\
    (known b (SStr (qdb_name q)) = false -> exists b', add_rp_from_qdb E so q b = (b', Ok tt) /\ BInv b' (ns ++ [qdb_name q]) /\ extends b b' /\ b_reactions b' = b_reactions b).
  Proof.
    intros I Hf. pose proof (qdb_name_nonempty q Hf) as Hn. destruct (qdb_items q (qdb_units q)) as (its & Hi).
    unfold add_rp_from_qdb, add_rp_from_attributes. cbv zeta. change (supdate (qdb_attrs q) []) with (qdb_attrs q).
    assert (Hs : sget "name" (qdb_attrs q) = Some (VStr (qdb_name q))) by reflexivity. rewrite Hs, Hi. unfold VStr.
    split; intros K; rewrite K; [reflexivity|]. eexists. split; [reflexivity|].
    assert (Hni : ~ In (qdb_name q) ns) by (intros H; apply (known_ns b ns _ I) in H; congruence).
    split; [|split; [split; cbn; [eexists; reflexivity|exists []; now rewrite app_nil_r]|reflexivity]].
    apply add_inv; [exact I|exact Hni|]. eapply added_named; [exact Hn|exact Hs|exact Hi].
  Qed.

  Lemma missing_inv l : (forall q, In q l -> q_formula q <> "") -> forall b ns, BInv b ns ->
    exists b' ns', add_missing_qdb E so l b = (b', Ok tt) /\ BInv b' ns' /\ extends b b' /\ b_reactions b' = b_reactions b /\ incl ns ns' /\
      (forall q, In q l -> In (qdb_name q) ns').
  Proof.
    induction l as [|q l IH]; intros W b ns I; cbn [add_missing_qdb].
    - exists b, ns. split; [reflexivity|]. split; [exact I|]. split; [apply extends_refl|]. split; [reflexivity|]. split; [intros x H; exact H|intros q []].
    - assert (Wl : forall q, In q l -> q_formula q <> "") by (intros; apply W; now right).
      destruct (known b (SStr (qdb_name q))) eqn:K.
      + destruct (IH Wl b ns I) as (b' & ns' & H1 & H2 & H3 & H4 & H5 & H6). exists b', ns'. repeat (split; [assumption|]).
        intros q' [<-|Hq]; [apply H5; now apply (known_ns b ns _ I)|now apply H6].
      + destruct (add_qdb q b ns I (W q (or_introl eq_refl))) as [_ A]. destruct (A K) as (b1 & -> & I1 & X1 & R1).
        destruct (IH Wl b1 _ I1) as (b' & ns' & H1 & H2 & H3 & H4 & H5 & H6). exists b', ns'. split; [exact H1|]. split; [exact H2|].
        split; [eapply extends_trans; eassumption|]. split; [congruence|]. split; [intros x Hx; apply H5, in_app_iff; now left|].
        intros q' [<-|Hq]; [apply H5, in_app_iff; right; now left|now apply H6].
  Qed.

  Lemma names_spec l : Forall2 qname l (map qdb_name l).
  Proof. induction l as [|q l IH]; constructor; [now apply qname_eq|exact IH]. Qed.

  Lemma rate_given_of n d x : rate_data n d = Ok x -> let '(a, ua, b, c, uc) := x in rate_given n d a ua b c uc.
  Proof.
    unfold rate_data, rate_given. destruct (ds_xsec d).
    - destruct (ds_fit d) as [[a b] c]. destruct n as [|[|[|[|n]]]]; try discriminate; intros H; injection H as <-; left; repeat split; cbn; auto.
    - destruct (ds_arrhenius d); [|discriminate]. destruct (filter starts_A (ds_params d)) as [|pa la] eqn:EA; [discriminate|].
      destruct (filter is_n (ds_params d)) as [|pb lb] eqn:EB; [discriminate|]. destruct (filter ends_E (ds_params d)) as [|pc lc] eqn:EC; [discriminate|].
      intros H; injection H as <-. right. split; [reflexivity|]. split; [reflexivity|]. exists pa, pb, pc.
      split; [apply (first_filter _ _ _ _ starts_spec); eauto|]. split; [apply (first_filter _ _ _ _ is_n_spec); eauto|].
      split; [apply (first_filter _ _ _ _ ends_spec); eauto|]. auto.
  Qed.

  Lemma rate_kind n d x : rate_data n d = Ok x -> ds_xsec d = true \/ ds_arrhenius d = true.
  Proof. unfold rate_data. destruct (ds_xsec d), (ds_arrhenius d); auto; discriminate. Qed.

  Lemma qdb_rx_error n ls rs d x c e : rate_data n d = Ok x -> energy_loss ls rs d c = Err e -> False.
  Proof.
    intros R H. unfold energy_loss in H. destruct (_ && _ && _); [|discriminate]. destruct (rate_kind _ _ _ R) as [X|X].
    - rewrite X in H. destruct (ds_arrhenius d); discriminate.
    - rewrite X in H. discriminate.
  Qed.

  Lemma leaf_inv m ch ds b ns : (forall s p, In s (m :: ch) -> (In p (m_all s) -> q_formula p <> "") /\ (In p (m_lhs s ++ m_rhs s) -> In p (m_all s))) ->
    BInv b ns -> exists b' ns' r, add_resolved E so m ch ds b = (b', r) /\ BInv b' ns' /\ extends b b' /\
      ((r = Ok tt /\ importable m ch ds /\ List.length (b_reactions b') = S (List.length (b_reactions b))) \/
       (r = Err EXml /\ ~ importable m ch ds /\ b_reactions b' = b_reactions b)).
  Proof.
    intros W I. unfold add_resolved.
    assert (U : forall x y l, ~ importable m (x :: y :: l) ds).
    { intros x y l (master & ls & d & a & ua & b0 & c & uc & [H|[H _]] & _); discriminate. }
    assert (G : forall master, (ch = [master] \/ (ch = [] /\ master = m)) ->
      exists b' ns' r, match add_missing_qdb E so (m_all master) b with
        | (b', Err e) => (b', Err e)
        | (b', Ok _) =>
            match (let* d := choose (memS "e" (map qdb_name (m_lhs master))) ds in qdb_rx master m d) with
            | Err e => (b', Err e)
            | Ok (attrs, units) => add_reaction_from_attributes E so (map qdb_name (m_lhs master)) (map qdb_name (m_rhs master)) (Some (m_pk m)) attrs [] units b'
            end
        end = (b', r) /\ BInv b' ns' /\ extends b b' /\
        ((r = Ok tt /\ importable m ch ds /\ List.length (b_reactions b') = S (List.length (b_reactions b))) \/
         (r = Err EXml /\ ~ importable m ch ds /\ b_reactions b' = b_reactions b))).
    { intros master CH. assert (Hm : In master (m :: ch)) by (destruct CH as [->|[-> ->]]; cbn; auto).
      destruct (missing_inv (m_all master)) with (b := b) (ns := ns) as (b1 & ns1 & -> & I1 & X1 & R1 & J & K); [intros q Hq; now apply (W master)|exact I|].
      set (ls := map qdb_name (m_lhs master)). set (rs := map qdb_name (m_rhs master)).
      assert (IMP : importable m ch ds -> exists d x, choose (memS "e" ls) ds = Ok d /\ rate_data (List.length ls) d = Ok x).
      { intros (ma & ls' & d & a & ua & b0 & c & uc & CH' & NL & HC & HR).
        assert (ma = master) as -> by (destruct CH as [->|[-> ->]], CH' as [H|[H ->]]; congruence).
        apply qnames_eq in NL. fold ls in NL. subst ls'. exists d, (a, ua, b0, c, uc). split; [now apply choose_spec|now apply rate_ok]. }
      destruct (choose (memS "e" ls) ds) as [d|e] eqn:HC; cbn [bind].
      2: { assert (e = EXml) as -> by (clear -HC; unfold choose in HC; destruct ds as [|d1 [|d2 l]]; try congruence; match type of HC with match ?x with _ => _ end = _ => destruct x end; discriminate).
           exists b1, ns1, (Err EXml). split; [reflexivity|]. split; [exact I1|]. split; [exact X1|]. right. split; [reflexivity|]. split; [|exact R1].
           intros H. destruct (IMP H) as (d & x & H1 & _). discriminate. }
      unfold qdb_rx. cbv zeta. fold ls rs. destruct (rate_data (List.length ls) d) as [x|e] eqn:HR; cbn [bind].
      2: { assert (e = EXml) as ->.
           { clear -HR. unfold rate_data in HR. destruct (ds_xsec d).
             - destruct (ds_fit d) as [[? ?] ?]. destruct (List.length ls) as [|[|[|[|]]]]; congruence.
             - destruct (ds_arrhenius d); [|congruence]. destruct (filter starts_A (ds_params d)), (filter is_n (ds_params d)), (filter ends_E (ds_params d)); congruence. }
           exists b1, ns1, (Err EXml). split; [reflexivity|]. split; [exact I1|]. split; [exact X1|]. right. split; [reflexivity|]. split; [|exact R1].
           intros H. destruct (IMP H) as (d' & x & H1 & H2). injection H1 as <-. congruence. }
      pose proof (rate_given_of _ _ _ HR) as RG. destruct x as [[[[a ua] b0] c] uc].
      destruct (energy_loss ls rs d c) as [loss|e] eqn:HL; [|exfalso; exact (qdb_rx_error _ _ _ _ _ _ _ HR HL)]. cbn [bind].
      match goal with |- context [add_reaction_from_attributes E so ls rs ?i ?aa [] ?us b1] => pose proof (rx_attrs_inv E so b1 ns1 ls rs i aa [] us I1) as I2; set (ats := aa) in *; set (uu := us) in * end.
      unfold add_reaction_from_attributes in *. cbv zeta in *.
      assert (forallb (fun n => known b1 (SStr n)) (ls ++ rs) = true) as F.
      { apply forallb_forall. intros n Hn. apply (known_ns b1 ns1 n I1). unfold ls, rs in Hn. rewrite <- map_app in Hn. apply in_map_iff in Hn as (q & <- & Hq).
        apply K. now apply (W master q Hm). }
      rewrite F in *. cbn [negb fst] in *. eexists _, ns1, (Ok tt). split; [reflexivity|]. split; [exact I2|].
      split; [eapply extends_trans; [exact X1|]; split; cbn [b_species b_reactions]; [exists []; now rewrite app_nil_r|eexists; reflexivity]|].
      left. split; [reflexivity|]. split.
      - exists master, ls, d, a, ua, b0, c, uc. split; [exact CH|]. split; [apply names_spec|]. split; [now apply choose_spec|exact RG].
      - cbn [b_reactions]. rewrite app_length, R1. cbn [List.length]. lia. }
    destruct ch as [|x [|y l]].
    - apply (G m). now right.
    - apply (G x). now left.
    - exists b, ns, (Err EXml). split; [reflexivity|]. split; [exact I|]. split; [apply extends_refl|]. right. split; [reflexivity|]. split; [apply U|reflexivity].
  Qed.

  Definition leaf_wf (x : qrx) : Prop :=
    match x with QRx m ch ds _ => forall s p, In s (m :: ch) -> (In p (m_all s) -> q_formula p <> "") /\ (In p (m_lhs s ++ m_rhs s) -> In p (m_all s)) end.
  Definition leaf_imp (x : qrx) : Prop := match x with QRx m ch ds _ => importable m ch ds end.

  Lemma leaves_inv l : (forall x, In x l -> leaf_wf x) -> forall b ns, BInv b ns ->
    exists b' ns' r, add_leaves E so l b = (b', r) /\ BInv b' ns' /\ extends b b' /\ (r = Ok tt \/ r = Err EXml) /\
      (r = Ok tt <-> forall x, In x l -> leaf_imp x) /\
      (r = Ok tt -> List.length (b_reactions b') = (List.length l + List.length (b_reactions b))%nat).
  Proof.
    induction l as [|[m ch ds ps] l IH]; intros W b ns I; cbn [add_leaves add_leaf].
    - exists b, ns, (Ok tt). split; [reflexivity|]. split; [exact I|]. split; [apply extends_refl|]. split; [now left|]. split; [|reflexivity].
      split; [intros _ x []|reflexivity].
    - destruct (leaf_inv m ch ds b ns (W _ (or_introl eq_refl)) I) as (b1 & ns1 & r1 & -> & I1 & X1 & [(-> & M & N)|(-> & M & N)]).
      + destruct (IH (fun x Hx => W x (or_intror Hx)) b1 ns1 I1) as (b' & ns' & r & H1 & H2 & H3 & H4 & H5 & H6). exists b', ns', r.
        split; [exact H1|]. split; [exact H2|]. split; [eapply extends_trans; eassumption|]. split; [exact H4|]. split.
        * rewrite H5. split; [intros H x [<-|Hx]; [exact M|now apply H]|intros H x Hx; apply H; now right].
        * intros Hr. rewrite (H6 Hr), N. cbn [List.length]. lia.
      + exists b1, ns1, (Err EXml). split; [reflexivity|]. split; [exact I1|]. split; [exact X1|]. split; [now right|]. split; [|discriminate].
        split; [discriminate|]. intros H. exfalso. apply M. exact (H _ (or_introl eq_refl)).
  Qed.

  Lemma wf_leaves r x : well_formed r -> In x (resolved r) -> leaf_wf x.
  Proof. intros H Hx. destruct x as [m ch ds ps]. intros s p Hs. apply (H m ch ds s p); [now exists ps|exact Hs]. Qed.
  Lemma wf_all_leaves l x : (forall r, In r l -> well_formed r) -> In x (flat_map resolved l) -> leaf_wf x.
  Proof. intros H Hx. apply in_flat_map in Hx as (r & Hr & Hx). exact (wf_leaves r x (H r Hr) Hx). Qed.

  Lemma qstep_inv o b ns : op_well_formed o -> BInv b ns -> exists ns', BInv (fst (qstep E so b o)) ns'.
  Proof.
    destruct o as [[o|skip lines]|q|r|l]; cbn [qstep op_well_formed hstep]; intros W I.
    - exact (step_inv E so b ns o I W).
    - destruct (import_inv E so skip lines b ns I) as (ns' & H & _). eauto.
    - destruct (add_qdb q b ns I W) as [A B]. destruct (known b (SStr (qdb_name q))); [rewrite (A eq_refl); eauto|].
      destruct (B eq_refl) as (b' & -> & H & _). eauto.
    - rewrite add_reaction_leaves. destruct (leaves_inv (resolved r) (fun x => wf_leaves r x W) b ns I) as (b' & ns' & r' & -> & H & _). eauto.
    - rewrite add_chemistry_leaves. destruct (leaves_inv (flat_map resolved l) (fun x => wf_all_leaves l x W) b ns I) as (b' & ns' & r' & -> & H & _). eauto.
  Qed.

  Lemma qhistory_inv l : (forall o, In o l -> op_well_formed o) -> forall b ns, BInv b ns -> exists ns', BInv (qhistory E so b l) ns'.
  Proof.
    unfold qhistory. induction l as [|o l IH]; intros W b ns I; cbn [fold_left]; [eauto|].
    destruct (qstep_inv o b ns (W o (or_introl eq_refl)) I) as (ns1 & H1). apply (IH (fun t Ht => W t (or_intror Ht)) _ ns1 H1).
  Qed.

  Theorem qdb_consistent l : (forall o, In o l -> op_well_formed o) -> exists ns, species_named E so (qhistory E so b_empty l) ns.
  Proof. intros W. destruct (qhistory_inv l W b_empty [] BInv_empty) as (ns & I). exists ns. now apply BInv_named. Qed.

  Theorem qdb_accepts h l b b' r : (forall o, In o h -> op_well_formed o) -> b = qhistory E so b_empty h -> (forall x, In x l -> well_formed x) ->
    add_chemistry_from_qdb E so l b = (b', r) ->
    (exists k, b_species b' = b_species b ++ k) /\ (exists k, b_reactions b' = b_reactions b ++ k) /\
    (r = Ok tt \/ r = Err EXml) /\
    (r = Ok tt <-> forall x m ch ds, In x l -> leaf_of x m ch ds -> importable m ch ds) /\
    (r = Ok tt -> List.length (b_reactions b') = (List.length (flat_map resolved l) + List.length (b_reactions b))%nat).
  Proof.
    intros W -> WL H. destruct (qhistory_inv h W b_empty [] BInv_empty) as (ns & I). rewrite add_chemistry_leaves in H.
    destruct (leaves_inv (flat_map resolved l) (fun x => wf_all_leaves l x WL) _ ns I) as (b1 & ns1 & r1 & H1 & _ & [X1 X2] & R & A & N).
    rewrite H in H1. injection H1 as -> ->. split; [exact X1|]. split; [exact X2|]. split; [exact R|]. split; [|exact N].
    rewrite A. split.
    - intros G x m ch ds Hx (ps & Hl). apply (G (QRx m ch ds ps)). apply in_flat_map. eauto.
    - intros G [m ch ds ps] Hl. apply in_flat_map in Hl as (x & Hx & Hl). apply (G x m ch ds Hx). now exists ps.
  Qed.
End Builder.
