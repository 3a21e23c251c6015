(** Imports into a builder that may already hold something. *)
From Verif Require Import Base BaseLemmas Species Reactions MolSpec SpeciesProofs Classification Xml XmlSpec XmlIds XmlBuilder Hpem HpemSpec HpemText HpemProofs.

Lemma word_nonempty {A} d (k : list ascii -> option A) l w x : word d k l = Some (w, x) -> w <> [].
Proof.
  destruct l as [|c l]; cbn [word]; [discriminate|]. destruct (is_space c); [discriminate|].
  destruct (word d k l) as [[w' x']|]; [intros H; injection H as <- _; discriminate|].
  destruct (lstrip_l is_space l) as [|e rest]; [discriminate|]. destruct (Ascii.eqb e d); [|discriminate].
  destruct (k rest); [|discriminate]. intros H; injection H as <- _; discriminate.
Qed.

Lemma In_aset {V} k (v : V) n x d : In (n, x) (sset k v d) -> (n, x) = (k, v) \/ In (n, x) d.
Proof.
  induction d as [|[k' v'] d IH]; cbn [aset]; [intros [H|[]]; auto|].
  destruct (String.eqb k k'); cbn [In]; intros [H|H]; auto. destruct (IH H); auto.
Qed.
Lemma In_supdate {V} n (x : V) e : forall d, In (n, x) (supdate d e) -> In (n, x) d \/ In (n, x) e.
Proof.
  unfold supdate. induction e as [|[k v] e IH]; intros d H; cbn [fold_left] in H; [now left|].
  apply IH in H as [H|H]; [|right; now right]. apply In_aset in H as [H|H]; [right; left; now symmetry|now left].
Qed.

Lemma mapM_In_inv {A B} (f : A -> res B) l bs : mapM f l = Ok bs -> forall y, In y bs -> exists x, In x l /\ f x = Ok y.
Proof.
  intros H. apply mapM_Ok_inv in H. induction H as [|x y l bs H F IH]; [intros y []|]. intros z [<-|Hz]; [exists x; split; [now left|exact H]|].
  destruct (IH z Hz) as (w & Hw & Hf). exists w. split; [now right|exact Hf].
Qed.

Section Builder.
  Variables (E : env) (so : pyval -> string).

  Lemma species_line_name line h : species_line E line = Ok h -> h_name h <> "".
  Proof.
    unfold species_line. destruct (match_species line) as [ws|] eqn:Em; [|discriminate].
    unfold match_species in Em. cbn [words] in Em.
    match type of Em with context [match ?x with Some _ => _ | None => None end] => destruct x as [[w rest]|] eqn:Ew; [|discriminate] end.
    apply word_nonempty in Ew. injection Em as <-.
    destruct rest as [|q [|m [|s [|f [|rc [|rn [|cm [|]]]]]]]]; try discriminate.
    destruct (to_int E q); cbn [bind]; [|discriminate]. destruct (to_float E m); cbn [bind]; [|discriminate].
    destruct (to_float E s); cbn [bind]; [|discriminate]. destruct (to_int E f); cbn [bind]; [|discriminate].
    destruct (to_float E rc); cbn [bind]; [|discriminate]. intros H. injection H as <-. cbn [h_name].
    apply rename_nonempty. destruct w; [congruence|discriminate].
  Qed.

  Lemma read_names skip lines sps rxs : read_hpem E skip lines = Ok (sps, rxs) -> forall n h, In (n, h) sps -> n = h_name h /\ n <> "".
  Proof.
    unfold read_hpem. destruct (cut_at_star _) as [p|]; cbn [bind]; [|discriminate].
    destruct (mapM (species_line E) (fst p)) as [hs|] eqn:Em; cbn [bind]; [|discriminate].
    destruct (mapM (reaction_line E) (snd p)) as [rs|]; cbn [bind]; [|discriminate]. intros H. injection H as <- _.
    intros n h Hi. apply In_supdate in Hi as [[]|Hi]. apply in_map_iff in Hi as (h' & H & Hh). injection H as <- ->. split; [reflexivity|].
    destruct (mapM_In_inv _ _ _ Em h Hh) as (l & _ & Hl). eapply species_line_name, Hl.
  Qed.

  Lemma hsp_items h us : exists items, mapM (rp_item E so (hsp_attrs h) us) rp_attr_keys = Ok items.
  Proof.
    destruct (mapM (rp_item E so (hsp_attrs h) us) rp_attr_keys) as [its|e] eqn:Em; [eauto|]. exfalso.
    apply mapM_Err_In in Em as (k & Hk & He). unfold rp_item in He. cbn in Hk. unfold hsp_attrs in He.
    destruct (truthy (VFlt (h_stick h)));
      repeat (destruct Hk as [<-|Hk]; [cbn in He; try discriminate He; try (destruct (String.eqb _ _); discriminate He)|]); contradiction.
  Qed.

  Lemma add_one h b : h_name h <> "" ->
    (known b (SStr (h_name h)) = true -> add_rp_from_attributes E so None (hsp_attrs h) [] [("charge", "e"); ("mass", "amu")] b = (b, Err EXml)) /\
    (known b (SStr (h_name h)) = false -> exists e, named e (h_name h) /\
       add_rp_from_attributes E so None (hsp_attrs h) [] [("charge", "e"); ("mass", "amu")] b =
       (MkB (b_keys b ++ [SStr (h_name h)]) (b_species b ++ [e]) (b_reactions b), Ok tt)).
  Proof.
    intros Hn. destruct (hsp_items h [("charge", "e"); ("mass", "amu")]) as (its & Hi).
    unfold add_rp_from_attributes. cbv zeta. change (supdate (hsp_attrs h) []) with (hsp_attrs h).
    assert (Hs : sget "name" (hsp_attrs h) = Some (VStr (h_name h))) by reflexivity. rewrite Hs, Hi. unfold VStr.
    split; intros ->; [reflexivity|]. eexists. split; [|reflexivity]. eapply added_named; [exact Hn|exact Hs|exact Hi].
  Qed.

  Lemma add_inv b ns n e : BInv b ns -> ~ In n ns -> named e n ->
    BInv (MkB (b_keys b ++ [SStr n]) (b_species b ++ [e]) (b_reactions b)) (ns ++ [n]).
  Proof.
    intros I Hni Hne. constructor; cbn [b_keys b_species b_reactions].
    - apply Forall2_app; [apply I|]. constructor; [exact Hne|constructor].
    - apply NoDup_snoc; [apply I|exact Hni].
    - intros k. rewrite in_app_iff, (bi_keys _ _ I). split.
      + intros [(x & -> & H)|[<-|[]]]; [exists x|exists n]; split; auto; apply in_or_app; [now left|right; now left].
      + intros (x & -> & H). apply in_app_or in H as [H|[<-|[]]]; [left; eauto|right; now left].
    - intros e' He. apply (refers_incl ns); [now apply incl_appl|]. now apply (bi_rx _ _ I).
  Qed.

  Definition extends (b b' : builder) : Prop :=
    (exists l, b_species b' = b_species b ++ l) /\ (exists l, b_reactions b' = b_reactions b ++ l).
  Lemma extends_refl b : extends b b.
  Proof. split; exists []; now rewrite app_nil_r. Qed.
  Lemma extends_trans a b c : extends a b -> extends b c -> extends a c.
  Proof. intros [(x & H1) (y & H2)] [(z & H3) (w & H4)]. split; eexists; [rewrite H3, H1|rewrite H4, H2]; rewrite <- app_assoc; reflexivity. Qed.

  Lemma species_added rxs l : (forall n h, In (n, h) l -> n = h_name h /\ n <> "") -> forall b ns, BInv b ns ->
    exists ns', BInv (fst (add_hpem_species E so rxs l b)) ns' /\ extends b (fst (add_hpem_species E so rxs l b)) /\
      b_reactions (fst (add_hpem_species E so rxs l b)) = b_reactions b /\
      (snd (add_hpem_species E so rxs l b) = Ok tt \/ snd (add_hpem_species E so rxs l b) = Err EXml) /\
      (snd (add_hpem_species E so rxs l b) = Ok tt -> forall x, In x ns' <-> In x ns \/ In x (map fst l) /\ present rxs x = true) /\
      (NoDup (map fst l) -> snd (add_hpem_species E so rxs l b) = Ok tt <-> forall n, In n (map fst l) -> present rxs n = true -> ~ In n ns).
  Proof.
    induction l as [|[n h] l IH]; intros W b ns I; cbn [add_hpem_species].
    - exists ns. cbn [fst snd map In]. split; [exact I|]. split; [apply extends_refl|]. split; [reflexivity|]. split; [now left|].
      split; [intros _ x; tauto|]. intros _. split; [intros _ n []|reflexivity].
    - destruct (W n h (or_introl eq_refl)) as [-> Hn]. assert (Wl : forall n h, In (n, h) l -> n = h_name h /\ n <> "") by (intros; apply W; now right).
      destruct (present rxs (h_name h)) eqn:Ep.
      + destruct (add_one h b Hn) as [A1 A2]. destruct (known b (SStr (h_name h))) eqn:Ek.
        * rewrite (A1 eq_refl). cbn [fst snd]. exists ns. split; [exact I|]. split; [apply extends_refl|]. split; [reflexivity|]. split; [now right|].
          split; [discriminate|]. intros _. split; [discriminate|]. intros H. exfalso. apply (H (h_name h)); [now left|exact Ep|now apply (known_ns b ns _ I)].
        * destruct (A2 eq_refl) as (e & He & ->). assert (Hni : ~ In (h_name h) ns) by (intros H; apply (known_ns b ns _ I) in H; congruence).
          destruct (IH Wl _ _ (add_inv b ns _ e I Hni He)) as (ns' & H1 & H2 & H3 & H4 & H5 & H6). exists ns'. split; [exact H1|].
          split; [eapply extends_trans; [|exact H2]; split; cbn [b_species b_reactions]; [eexists; reflexivity|exists []; now rewrite app_nil_r]|].
          split; [exact H3|]. split; [exact H4|]. cbn [map fst In]. split.
          -- intros Hok x. rewrite (H5 Hok), in_app_iff. cbn [In]. split.
             ++ intros [[H|[<-|[]]]|[H H']]; [now left|right; split; [now left|exact Ep]|right; split; [now right|exact H']].
             ++ intros [H|[[<-|H] H']]; [left; now left|left; right; now left|now right].
          -- intros ND. inversion ND as [|? ? ND1 ND2]; subst. rewrite (H6 ND2). split.
             ++ intros H x [<-|Hx] Hp; [exact Hni|]. specialize (H x Hx Hp). intros Hc. apply H, in_or_app. now left.
             ++ intros H x Hx Hp Hc. apply in_app_or in Hc as [Hc|[<-|[]]]; [|contradiction]. now apply (H x (or_intror Hx) Hp).
      + destruct (IH Wl b ns I) as (ns' & H1 & H2 & H3 & H4 & H5 & H6). exists ns'. split; [exact H1|]. split; [exact H2|]. split; [exact H3|]. split; [exact H4|].
        cbn [map fst In]. split.
        * intros Hok x. rewrite (H5 Hok). split; [intuition|]. intros [H|[[<-|H] H']]; [now left|congruence|now right].
        * intros ND. inversion ND as [|? ? ND1 ND2]; subst. rewrite (H6 ND2). split; intros H x Hx; [destruct Hx as [<-|Hx]; [congruence|now apply H]|apply H; now right].
  Qed.

  Lemma reactions_added l : forall b ns, BInv b ns ->
    BInv (fst (add_hpem_reactions E so l b)) ns /\ extends b (fst (add_hpem_reactions E so l b)) /\
    b_species (fst (add_hpem_reactions E so l b)) = b_species b /\
    (forall e, snd (add_hpem_reactions E so l b) = Err e -> e = EXml \/ e = EKey) /\
    (snd (add_hpem_reactions E so l b) = Ok tt ->
       List.length (b_reactions (fst (add_hpem_reactions E so l b))) = (List.length (b_reactions b) + List.length l)%nat) /\
    (snd (add_hpem_reactions E so l b) = Ok tt <-> forall r, In r l -> (1 <= List.length (h_lhs r) <= 3)%nat /\ incl (h_lhs r ++ h_rhs r) ns).
  Proof.
    induction l as [|r l IH]; intros b ns I; cbn [add_hpem_reactions].
    - cbn [fst snd]. split; [exact I|]. split; [apply extends_refl|]. split; [reflexivity|]. split; [discriminate|]. split; [cbn; lia|]. split; [intros _ r []|reflexivity].
    - assert (LU : match a_unit (List.length (h_lhs r)) with Ok _ => (1 <= List.length (h_lhs r) <= 3)%nat | Err e => e = EKey /\ ~ (1 <= List.length (h_lhs r) <= 3)%nat end).
      { destruct (List.length (h_lhs r)) as [|[|[|[|n]]]]; cbn; try split; try reflexivity; lia. }
      destruct (a_unit (List.length (h_lhs r))) as [u|e].
      + unfold add_reaction_from_attributes. cbv zeta. destruct (forallb _ (h_lhs r ++ h_rhs r)) eqn:Ef; cbn [negb].
        * set (b1 := MkB _ _ _). assert (I1 : BInv b1 ns).
          { pose proof (rx_attrs_inv E so b ns (h_lhs r) (h_rhs r) None (hrx_attrs r) []
              [("gas_heat_contrib", "eV"); ("arrh_a", u); ("arrh_c", if memS "e" (h_lhs r) then "eV" else "K")] I) as H.
            unfold add_reaction_from_attributes in H. cbv zeta in H. rewrite Ef in H. cbn [negb fst] in H. exact H. }
          destruct (IH b1 ns I1) as (H1 & H2 & H3 & H4 & H5 & H6). split; [exact H1|].
          split; [eapply extends_trans; [|exact H2]; split; cbn [b1 b_species b_reactions]; [exists []; now rewrite app_nil_r|eexists; reflexivity]|].
          split; [exact H3|]. split; [exact H4|]. split.
          -- intros Hok. rewrite (H5 Hok). cbn [b1 b_reactions]. rewrite app_length. cbn [List.length]. lia.
          -- rewrite H6. rewrite forallb_forall in Ef. split.
             ++ intros H x [<-|Hx]; [|now apply H]. split; [exact LU|]. intros n Hn. apply (known_ns b ns n I). now apply Ef.
             ++ intros H x Hx. apply H. now right.
        * cbn [fst snd]. split; [exact I|]. split; [apply extends_refl|]. split; [reflexivity|]. split; [intros e [= <-]; now left|]. split; [discriminate|].
          split; [discriminate|]. intros H. exfalso. destruct (H r (or_introl eq_refl)) as [_ Hi]. apply Bool.not_true_iff_false in Ef. apply Ef.
          apply forallb_forall. intros n Hn. apply (known_ns b ns n I). now apply Hi.
      + destruct LU as [-> LU]. cbn [fst snd]. split; [exact I|]. split; [apply extends_refl|]. split; [reflexivity|]. split; [intros e [= <-]; now right|]. split; [discriminate|].
        split; [discriminate|]. intros H. exfalso. apply LU, H. now left.
  Qed.

  Lemma import_inv skip lines b ns : BInv b ns -> exists ns', BInv (fst (add_chemistry_from_hpem E so skip lines b)) ns' /\
    extends b (fst (add_chemistry_from_hpem E so skip lines b)).
  Proof.
    intros I. unfold add_chemistry_from_hpem. destruct (read_hpem E skip lines) as [[sps rxs]|e] eqn:Er; cbn [fst]; [|eauto using extends_refl].
    destruct (species_added rxs sps (read_names _ _ _ _ Er) b ns I) as (ns1 & H1 & H2 & _).
    destruct (add_hpem_species E so rxs sps b) as [b1 [[]|e]]; cbn [fst] in *; [|eauto].
    destruct (reactions_added rxs b1 ns1 H1) as (H3 & H4 & _). exists ns1. split; [exact H3|]. eapply extends_trans; eassumption.
  Qed.

  Lemma hhistory_inv l : (forall o, In (HCall o) l -> well_named o) -> forall b ns, BInv b ns -> exists ns', BInv (hhistory E so b l) ns'.
  Proof.
    unfold hhistory. induction l as [|o l IH]; intros W b ns I; cbn [fold_left]; [eauto|].
    assert (exists ns1, BInv (fst (hstep E so b o)) ns1) as (ns1 & H1).
    { destruct o as [o|skip lines]; cbn [hstep]; [apply (step_inv E so b ns o I); apply W; now left|]. destruct (import_inv skip lines b ns I) as (ns1 & H1 & _). eauto. }
    apply (IH (fun t Ht => W t (or_intror Ht)) _ ns1 H1).
  Qed.

  Theorem imports_consistent l : (forall o, In (HCall o) l -> well_named o) -> exists ns, species_named E so (hhistory E so b_empty l) ns.
  Proof. intros W. destruct (hhistory_inv l W b_empty [] BInv_empty) as (ns & I). exists ns. now apply BInv_named. Qed.

  Theorem import_extends l skip lines b b' r : (forall o, In (HCall o) l -> well_named o) -> b = hhistory E so b_empty l ->
    add_chemistry_from_hpem E so skip lines b = (b', r) ->
    (exists m, b_species b' = b_species b ++ m) /\ (exists m, b_reactions b' = b_reactions b ++ m).
  Proof.
    intros W -> H. destruct (hhistory_inv l W b_empty [] BInv_empty) as (ns & I). destruct (import_inv skip lines _ ns I) as (_ & _ & X). rewrite H in X. exact X.
  Qed.

  (** When a file is imported. *)
  Theorem import_accepts l skip sps rxs lines ns fns :
    (forall o, In (HCall o) l -> well_named o) -> species_named E so (hhistory E so b_empty l) ns ->
    dat_file E sps rxs lines -> Forall2 (fun d n => renamed (d_name d) n) sps fns -> NoDup fns ->
    let taking := filter (taken skip) rxs in
    let uses n := exists d n0, In d taking /\ In n0 (d_lhs d ++ d_rhs d) /\ renamed n0 n in
    (exists b', add_chemistry_from_hpem E so skip lines (hhistory E so b_empty l) = (b', Ok tt)) <->
    (forall d n, In d sps -> renamed (d_name d) n -> uses n -> ~ In n ns) /\
    (forall d, In d taking -> (List.length (d_lhs d) <= 3)%nat) /\
    (forall n, uses n -> In n ns \/ exists d, In d sps /\ renamed (d_name d) n).
  Proof.
    intros W SN D FN ND taking uses.
    assert (map (fun d => rename (d_name d)) sps = fns) as MN by (clear -FN; induction FN as [|d n sps fns H F IH]; [reflexivity|]; cbn; f_equal; [now apply renamed_eq in H|exact IH]).
    rewrite <- MN in ND. clear FN MN fns. destruct (hhistory_inv l W b_empty [] BInv_empty) as (ns0 & I).
    set (b := hhistory E so b_empty l) in *.
    assert (NS : forall x, In x ns <-> In x ns0).
    { assert (ns = ns0) as ->; [|tauto]. pose proof (sn_names _ _ _ _ SN) as F1. pose proof (bi_named _ _ I) as F2. revert F1 F2. clear.
      generalize (b_species b) as es. intros es F1. revert ns0. induction F1 as [|e n es ns He F IH]; intros ns0 F2; inversion F2; subst; [reflexivity|].
      f_equal; [unfold named in *; congruence|now apply IH]. }
    unfold add_chemistry_from_hpem. rewrite (read_ok E skip sps rxs lines D ND). fold taking.
    set (hs := map (fun d => (rename (d_name d), hsp_of d)) sps). set (ks := map hrx_of taking).
    assert (Wn : forall n h, In (n, h) hs -> n = h_name h /\ n <> "").
    { intros n h Hi. assert (read_hpem E skip lines = Ok (hs, ks)) as R by (apply read_ok; assumption). eapply read_names; eassumption. }
    assert (NDh : NoDup (map fst hs)) by (unfold hs; rewrite map_map; exact ND).
    assert (PU : forall n, present ks n = true <-> uses n).
    { intros n. unfold present. rewrite memS_In, in_flat_map. unfold ks, uses. split.
      - intros (r & Hr & Hn). apply in_map_iff in Hr as (d & <- & Hd). cbn [hrx_of h_lhs h_rhs] in Hn. rewrite <- map_app in Hn.
        apply in_map_iff in Hn as (n0 & <- & H0). exists d, n0. auto using renamed_rename.
      - intros (d & n0 & Hd & H0 & Hr). exists (hrx_of d). split; [now apply in_map|]. cbn [hrx_of h_lhs h_rhs]. rewrite <- map_app.
        apply renamed_eq in Hr. subst n. now apply in_map. }
    assert (HS : forall n, In n (map fst hs) <-> exists d, In d sps /\ renamed (d_name d) n).
    { intros n. unfold hs. rewrite map_map, in_map_iff. cbn [fst]. split; intros (d & H1 & H2); exists d; [subst n|apply renamed_eq in H2]; auto using renamed_rename. }
    destruct (species_added ks hs Wn b ns0 I) as (ns1 & H1 & _ & _ & _ & H5 & H6). specialize (H6 NDh).
    destruct (add_hpem_species E so ks hs b) as [b1 [[]|e]]; cbn [fst snd] in *.
    - destruct H6 as [H6 _]. specialize (H6 eq_refl). specialize (H5 eq_refl). destruct (reactions_added ks b1 ns1 H1) as (_ & _ & _ & _ & _ & H).
      destruct (add_hpem_reactions E so ks b1) as [b2 [[]|e]]; cbn [snd] in H.
      + destruct H as [H _]. specialize (H eq_refl). split; [|eauto]. intros _. split; [|split].
        * intros d n Hd Hr Hu. rewrite NS. apply H6; [apply HS; eauto|now apply PU].
        * intros d Hd. specialize (H (hrx_of d) (in_map _ _ _ Hd)). cbn [hrx_of h_lhs] in H. rewrite map_length in H. lia.
        * intros n (d & n0 & Hd & H0 & Hr). specialize (H (hrx_of d) (in_map _ _ _ Hd)) as [_ H]. cbn [hrx_of h_lhs h_rhs] in H. rewrite <- map_app in H.
          apply renamed_eq in Hr. subst n. specialize (H (rename n0) (in_map _ _ _ H0)). apply H5 in H as [H|[H _]]; [left; now apply NS|right; now apply HS].
      + split; [intros (b' & Hb); discriminate Hb|]. intros (G1 & G2 & G3). exfalso. enough (Err e = Ok tt) by discriminate. apply H.
        intros r Hr. apply in_map_iff in Hr as (d & <- & Hd). cbn [hrx_of h_lhs h_rhs]. split.
        * rewrite map_length. split; [|now apply G2]. destruct D as (l1 & st & l2 & _ & _ & _ & F). apply filter_In in Hd as [Hd _]. clear -F Hd.
          induction F as [|d' ln rxs l2 T F IH]; [destruct Hd|]. destruct Hd as [->|Hd]; [|now apply IH].
          destruct T as (? & ? & ? & ? & ? & ? & ? & ? & ? & ? & ? & ? & ? & N & _). destruct (d_lhs d); [congruence|cbn; lia].
        * intros n Hn. rewrite <- map_app in Hn. apply in_map_iff in Hn as (n0 & <- & H0). apply H5.
          assert (U : uses (rename n0)) by (exists d, n0; auto using renamed_rename).
          destruct (G3 _ U) as [G|G]; [left; now apply NS|right; split; [now apply HS|now apply PU]].
    - split; [intros (b' & Hb); discriminate Hb|]. intros (G1 & _). exfalso. enough (Err e = Ok tt) by discriminate. apply H6.
      intros n Hn Hp. apply HS in Hn as (d & Hd & Hr). rewrite <- NS. apply (G1 d); [exact Hd|exact Hr|now apply PU].
  Qed.

  (** Files that cannot be read are not imported; every kept reaction is added. *)
  Theorem unread_unchanged skip lines b b' e : add_chemistry_from_hpem E so skip lines b = (b', Err e) -> In e [EIndex; EValue] -> b' = b.
  Proof.
    unfold add_chemistry_from_hpem. destruct (read_hpem E skip lines) as [[sps rxs]|e0]; [|congruence].
    assert (forall l b b' e, add_hpem_species E so rxs l b = (b', Err e) -> e = EXml \/ e = EKey \/ e = EType) as HS.
    { clear. induction l as [|[n h] l IH]; cbn [add_hpem_species]; intros b b' e H; [discriminate|]. destruct (present rxs n); [|eauto].
      destruct (add_rp_from_attributes _ _ _ _ _ _ b) as [b1 [[]|e1]] eqn:Ea; [eauto|]. injection H as <- <-.
      unfold add_rp_from_attributes in Ea. cbv zeta in Ea. destruct (sget "name" _) as [[k|d|]|]; try (injection Ea as <- <-; auto; fail).
      destruct (known b k); [injection Ea as <- <-; auto|]. destruct (mapM _ rp_attr_keys) as [its|e] eqn:Em; [discriminate|].
      apply rp_items_errors in Em. injection Ea as <- <-. auto. }
    assert (forall l b b' e, add_hpem_reactions E so l b = (b', Err e) -> e = EXml \/ e = EKey) as HR.
    { clear. induction l as [|r l IH]; cbn [add_hpem_reactions]; intros b b' e H; [discriminate|].
      destruct (a_unit _) as [u|e1] eqn:Eu.
      - destruct (add_reaction_from_attributes _ _ _ _ _ _ _ _ b) as [b1 [[]|e1]] eqn:Ea; [eauto|]. injection H as <- <-.
        unfold add_reaction_from_attributes in Ea. cbv zeta in Ea. destruct (negb _); [injection Ea as <- <-; auto|discriminate].
      - injection H as <- <-. destruct (List.length (h_lhs r)) as [|[|[|[|]]]]; try discriminate; injection Eu as <-; auto. }
    destruct (add_hpem_species E so rxs sps b) as [b1 [[]|e1]] eqn:Es.
    - intros H I. apply HR in H. destruct H as [->| ->]; cbn in I; intuition discriminate.
    - intros H I. injection H as <- <-. apply HS in Es. destruct Es as [->|[->| ->]]; cbn in I; intuition discriminate.
  Qed.
End Builder.
