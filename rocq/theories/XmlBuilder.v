(** The builder over histories of calls. *)
From Coq Require Import Sorting.Permutation.
From Verif Require Import Base BaseLemmas Species Reactions MolSpec SortLemmas Classification Xml XmlSpec XmlIds.

Record BInv (b : builder) (ns : list string) : Prop := {
  bi_named : Forall2 named (b_species b) ns;
  bi_nodup : NoDup ns;
  bi_keys : forall k, In k (b_keys b) <-> exists n, k = SStr n /\ In n ns;
  bi_rx : forall e, In e (b_reactions b) -> refers ns e
}.

Lemma NoDup_snoc {A} (l : list A) x : NoDup l -> ~ In x l -> NoDup (l ++ [x]).
Proof.
  intros H Hx. apply NoDup_rev in H. rewrite <- (rev_involutive (l ++ [x])), rev_app_distr. apply NoDup_rev. cbn.
  constructor; [now rewrite <- in_rev|exact H].
Qed.

Lemma key_str n k : key_eqb (SStr n) k = true <-> k = SStr n.
Proof.
  destruct k as [| | | | |s]; cbn; try (split; [discriminate|intros H; discriminate]).
  rewrite String.eqb_eq. split; [now intros ->|now intros [= ->]].
Qed.

Lemma known_ns b ns n : BInv b ns -> known b (SStr n) = true <-> In n ns.
Proof.
  intros I. unfold known. rewrite existsb_exists. split.
  - intros (k & Hk & He). apply key_str in He. subst. apply (bi_keys _ _ I) in Hk as (m & [= ->] & H). exact H.
  - intros H. exists (SStr n). split; [apply (bi_keys _ _ I); eauto|now apply key_str].
Qed.

Lemma refers_incl ns ns' e : incl ns ns' -> refers ns e -> refers ns' e.
Proof. intros H (ls & rs & H1 & H2 & H3). exists ls, rs. split; [exact H1|]. split; [exact H2|]. intros n Hn. auto. Qed.

Lemma named_perm l l' : Permutation l l' -> forall ns, Forall2 named l ns -> exists ns', Forall2 named l' ns' /\ Permutation ns ns'.
Proof.
  induction 1 as [|x l l' P IH|x y l|l1 l2 l3 P1 IH1 P2 IH2]; intros ns F.
  - inversion F; subst. exists []. auto.
  - inversion F as [|? n ? ms N F']; subst. destruct (IH ms F') as (ms' & G & Q). exists (n :: ms'). split; [now constructor|now constructor].
  - inversion F as [|? n ? ms N F']; subst. inversion F' as [|? n2 ? ms2 N2 F2]; subst. exists (n2 :: n :: ms2). split; [now repeat constructor|constructor].
  - destruct (IH1 ns F) as (m & G & Q). destruct (IH2 m G) as (m' & G' & Q'). exists m'. split; [exact G'|]. now rewrite Q.
Qed.

Lemma named_items l l' ns : map el_items l' = map el_items l -> Forall2 named l ns -> Forall2 named l' ns.
Proof.
  revert l' ns. induction l as [|e l IH]; intros [|e' l'] ns H F; try discriminate; [exact F|]. cbn in H. injection H as H1 H2.
  inversion F as [|? n ? ms N F']; subst. constructor; [|now apply IH]. unfold named, el_name, find_tag in *. now rewrite H1.
Qed.

Lemma refers_items ns e e' : el_items e' = el_items e -> refers ns e -> refers ns e'.
Proof.
  intros H (ls & rs & (i & H1 & T1) & (j & H2 & T2) & H3). exists ls, rs. unfold side_lists, find_tag in *. rewrite H. eauto 10.
Qed.

Lemma BInv_perm b ns b' : BInv b ns -> b_keys b' = b_keys b -> (exists l, Permutation (map el_items (b_species b)) l /\ map el_items (b_species b') = l) ->
  (forall e', In e' (b_reactions b') -> exists e, In e (b_reactions b) /\ el_items e' = el_items e) ->
  exists ns', BInv b' ns' /\ Permutation ns ns'.
Proof.
  intros [I1 I2 I3 I4] Hk (l & P & Hl) Hr.
  assert (exists m, Permutation (b_species b) m /\ map el_items m = l) as (m & Pm & Hm).
  { symmetry in P. destruct (Permutation_map_inv _ _ P) as (m & Hm & Pm). exists m. split; [exact Pm|]. now symmetry. }
  destruct (named_perm _ _ Pm ns I1) as (ns' & F & Q). exists ns'. split; [|exact Q].
  assert (S : incl ns ns') by (intros x; apply Permutation_in; exact Q).
  constructor.
  - apply (named_items m); [congruence|exact F].
  - now apply (Permutation_NoDup Q).
  - intros k. rewrite Hk, I3. split; intros (n & -> & H); exists n; (split; [reflexivity|]);
      [exact (Permutation_in _ Q H)|exact (Permutation_in _ (Permutation_sym Q) H)].
  - intros e' He'. destruct (Hr e' He') as (e & He & Hi). apply (refers_items _ e); [exact Hi|]. apply (refers_incl ns); auto.
Qed.

Lemma sort_by_perm {A K} (leb : K -> K -> bool) key (l m : list A) : sort_by leb key l = Ok m -> Permutation l m.
Proof.
  unfold sort_by. destruct (mapM _ l) as [ks|] eqn:Ek; cbn [bind]; [|discriminate]. intros [= <-].
  apply mapM_Ok_inv in Ek.
  assert (map snd ks = l) as <-.
  { clear -Ek. induction Ek as [|a x l ks H F IH]; [reflexivity|]. cbn. rewrite IH. destruct (key a); cbn in H; [|discriminate]. injection H as <-. reflexivity. }
  apply Permutation_map, isort_perm.
Qed.

Section Histories.
  Variables (E : env) (so : pyval -> string).

  Lemma added_named id attrs units items n : n <> "" -> sget "name" attrs = Some (VStr n) -> mapM (rp_item E so attrs units) rp_attr_keys = Ok items ->
    named (MkEl id (List.concat items)) n.
  Proof.
    intros Hn Hs H. assert (exists ks, rp_attr_keys = "name" :: ks) as [ks Hk] by (eexists; reflexivity). rewrite Hk in H.
    cbn [mapM] in H. unfold rp_item at 1 in H. rewrite Hs in H. unfold VStr in H. cbn [given] in H. apply String.eqb_neq in Hn. rewrite Hn in H. cbn in H.
    destruct (mapM _ ks) as [rest|]; cbn in H; [|discriminate]. injection H as <-. reflexivity.
  Qed.

  Lemma attrs_inv b ns id a m u : BInv b ns -> well_named (ORpAttrs id a m u) ->
    exists ns', BInv (fst (add_rp_from_attributes E so id a m u b)) ns' /\ incl ns ns' /\
      forall n, snd (add_rp_from_attributes E so id a m u b) = Ok tt -> sget "name" (supdate a m) = Some (VStr n) -> In n ns'.
  Proof.
    intros I W. cbn in W. unfold add_rp_from_attributes. cbv zeta. destruct (sget "name" (supdate a m)) as [v|] eqn:Es.
    - destruct (W v eq_refl) as (n & -> & Hn). unfold VStr in *. destruct (known b (SStr n)) eqn:Ek.
      { cbn [fst snd]. exists ns. split; [exact I|]. split; [intros x H; exact H|discriminate]. }
      destruct (mapM (rp_item E so (supdate a m) u) rp_attr_keys) as [items|e] eqn:Ei; cbn [fst snd].
      + exists (ns ++ [n]). assert (~ In n ns) as Hni by (intros H; apply (known_ns b ns n I) in H; congruence).
        split; [constructor; cbn [b_species b_keys b_reactions]|].
        * apply Forall2_app; [apply I|]. constructor; [|constructor]. eapply added_named; eauto.
        * apply NoDup_snoc; [apply I|exact Hni].
        * intros k. rewrite in_app_iff, (bi_keys _ _ I). split.
          -- intros [(x & -> & H)|[<-|[]]]; [exists x|exists n]; split; auto; apply in_or_app; [now left|right; now left].
          -- intros (x & -> & H). apply in_app_or in H as [H|[<-|[]]]; [left; eauto|right; now left].
        * intros e He. apply (refers_incl ns); [now apply incl_appl|]. now apply (bi_rx _ _ I).
        * split; [now apply incl_appl|]. intros x _ [= <-]. apply in_or_app. right. now left.
      + exists ns. split; [exact I|]. split; [intros x H; exact H|discriminate].
    - cbn [fst snd]. exists ns. split; [exact I|]. split; [intros x H; exact H|discriminate].
  Qed.

  Lemma instance_name s n : get_name s = Ok n -> sget "name" (supdate (map (fun k => (k, rattr s k)) rp_attr_keys) []) = Some (VStr n).
  Proof.
    intros H. assert (sget "name" (supdate (map (fun k => (k, rattr s k)) rp_attr_keys) []) = Some (rattr s "name")) as -> by reflexivity.
    unfold get_name, rstr in H. destruct (rattr s "name") as [[]| |]; try discriminate. injection H as ->. reflexivity.
  Qed.

  Lemma instance_inv b ns s : BInv b ns -> nonempty_name s ->
    exists ns', BInv (fst (add_rp_from_instance E so s b)) ns' /\ incl ns ns' /\
      (snd (add_rp_from_instance E so s b) = Ok tt -> forall n, get_name s = Ok n -> In n ns').
  Proof.
    intros I (n & Hn & Hne). unfold add_rp_from_instance.
    edestruct (attrs_inv b ns (Some (rp_id s)) (map (fun k => (k, rattr s k)) rp_attr_keys) []) as (ns' & H1 & H2 & H3); [exact I| |].
    - cbn [well_named]. intros v Hv. rewrite (instance_name s n Hn) in Hv. injection Hv as <-. eauto.
    - exists ns'. split; [exact H1|]. split; [exact H2|]. intros Hok m Hm. apply H3; [exact Hok|]. now apply instance_name.
  Qed.

  Lemma missing_inv l : (forall s, In s l -> nonempty_name s) -> forall b ns, BInv b ns ->
    exists ns', BInv (fst (add_missing E so l b)) ns' /\ incl ns ns' /\
      (snd (add_missing E so l b) = Ok tt -> forall s n, In s l -> get_name s = Ok n -> In n ns').
  Proof.
    induction l as [|s l IH]; intros W b ns I; cbn [add_missing].
    - exists ns. split; [exact I|]. split; [intros x H; exact H|]. intros _ s n [].
    - destruct (W s (or_introl eq_refl)) as (n & Hn & Hne). rewrite Hn. assert (Wl : forall t, In t l -> nonempty_name t) by (intros t Ht; apply W; now right).
      destruct (known b (SStr n)) eqn:Ek.
      + destruct (IH Wl b ns I) as (ns' & H1 & H2 & H3). exists ns'. split; [exact H1|]. split; [exact H2|].
        intros Hok t m [<-|Ht] Hm; [|now apply (H3 Hok t)]. rewrite Hn in Hm. injection Hm as <-. apply H2. now apply (known_ns b ns n I).
      + destruct (instance_inv b ns s I (W s (or_introl eq_refl))) as (ns1 & G1 & G2 & G3).
        destruct (add_rp_from_instance E so s b) as [b1 [[]|e]] eqn:Ea; cbn [fst snd] in *.
        * destruct (IH Wl b1 ns1 G1) as (ns' & H1 & H2 & H3). exists ns'. split; [exact H1|]. split; [intros x Hx; auto|].
          intros Hok t m [<-|Ht] Hm; [apply H2; now apply G3|now apply (H3 Hok t)].
        * exists ns1. split; [exact G1|]. split; [exact G2|discriminate].
  Qed.

  Lemma rx_attrs_inv b ns ls rs id a m u : BInv b ns -> BInv (fst (add_reaction_from_attributes E so ls rs id a m u b)) ns.
  Proof.
    intros I. unfold add_reaction_from_attributes. cbv zeta. destruct (forallb _ (ls ++ rs)) eqn:Ef; cbn [negb fst]; [|exact I].
    constructor; cbn [b_species b_keys b_reactions]; try apply I. intros e He. apply in_app_or in He as [He|[<-|[]]]; [now apply I|].
    exists ls, rs. split; [eexists; split; reflexivity|]. split; [eexists; split; reflexivity|].
    intros n Hn. rewrite forallb_forall in Ef. apply (known_ns b ns n I). now apply Ef.
  Qed.

  Lemma rx_inv b ns r : BInv b ns -> (forall s, In s (r_lhs r ++ r_rhs r) -> nonempty_name s) ->
    exists ns', BInv (fst (add_reaction_from_instance E so r b)) ns' /\ incl ns ns'.
  Proof.
    intros I W. unfold add_reaction_from_instance. destruct (missing_inv _ W b ns I) as (ns' & H1 & H2 & _).
    destruct (add_missing E so (r_lhs r ++ r_rhs r) b) as [b1 [[]|e]]; cbn [fst] in *; [|eauto].
    destruct (names_of (r_lhs r)) as [ls|]; [|cbn [fst]; eauto]. destruct (names_of (r_rhs r)) as [rs|]; [|cbn [fst]; eauto].
    exists ns'. split; [now apply rx_attrs_inv|exact H2].
  Qed.

  Lemma reactions_inv l : (forall r s, In r l -> In s (r_lhs r ++ r_rhs r) -> nonempty_name s) -> forall b ns, BInv b ns ->
    exists ns', BInv (fst (add_reactions E so l b)) ns'.
  Proof.
    induction l as [|r l IH]; intros W b ns I; cbn [add_reactions]; [eauto|].
    destruct (rx_inv b ns r I (fun s => W r s (or_introl eq_refl))) as (ns1 & G & _).
    destruct (add_reaction_from_instance E so r b) as [b1 [[]|e]]; cbn [fst] in *; [|eauto].
    apply (IH (fun t s Ht => W t s (or_intror Ht)) b1 ns1 G).
  Qed.

  Lemma elements_inv l ns0 : Forall2 named l ns0 -> forall b ns, BInv b ns ->
    exists ns', BInv (fst (add_elements l b)) ns' /\ snd (add_elements l b) = Ok tt /\ incl ns ns' /\ incl ns0 ns'.
  Proof.
    induction 1 as [|e n l ns0 N F IH]; intros b ns I; cbn [add_elements].
    - exists ns. split; [exact I|]. split; [reflexivity|]. split; [intros x H; exact H|intros x []].
    - rewrite N. cbn [text_scalar]. destruct (known b (SStr n)) eqn:Ek.
      + destruct (IH b ns I) as (ns' & H1 & H2 & H3 & H4). exists ns'. repeat (split; [assumption|]). intros x [<-|Hx]; [|now apply H4].
        apply H3. now apply (known_ns b ns n I).
      + assert (~ In n ns) as Hni by (intros H; apply (known_ns b ns n I) in H; congruence).
        edestruct (IH (MkB (b_keys b ++ [SStr n]) (b_species b ++ [e]) (b_reactions b)) (ns ++ [n])) as (ns' & H1 & H2 & H3 & H4).
        * constructor; cbn [b_species b_keys b_reactions].
          -- apply Forall2_app; [apply I|]. constructor; [exact N|constructor].
          -- apply NoDup_snoc; [apply I|exact Hni].
          -- intros k. rewrite in_app_iff, (bi_keys _ _ I). split.
             ++ intros [(x & -> & H)|[<-|[]]]; [exists x|exists n]; split; auto; apply in_or_app; [now left|right; now left].
             ++ intros (x & -> & H). apply in_app_or in H as [H|[<-|[]]]; [left; eauto|right; now left].
          -- intros e' He. apply (refers_incl ns); [now apply incl_appl|]. now apply (bi_rx _ _ I).
        * exists ns'. split; [exact H1|]. split; [exact H2|]. split; [intros x Hx; apply H3, in_or_app; now left|].
          intros x [<-|Hx]; [apply H3, in_or_app; right; now left|now apply H4].
  Qed.

  (** Ids and sorting change neither names nor contents. *)
  Definition same_contents (b b' : builder) : Prop :=
    b_keys b' = b_keys b /\ Permutation (map el_items (b_species b)) (map el_items (b_species b')) /\
    Permutation (map el_items (b_reactions b)) (map el_items (b_reactions b')).

  Lemma same_refl b : same_contents b b.
  Proof. split; [reflexivity|]. split; reflexivity. Qed.
  Lemma same_trans a b c : same_contents a b -> same_contents b c -> same_contents a c.
  Proof. intros (H1 & H2 & H3) (G1 & G2 & G3). split; [congruence|]. split; [now rewrite H2|now rewrite H3]. Qed.

  Lemma assign_items l : forall z, map el_items (fst (assign_from E z l)) = map el_items l.
  Proof.
    induction l as [|e l IH]; intros z; cbn [assign_from]; [reflexivity|]. destruct (el_name e) as [t|x]; [|reflexivity].
    destruct (match match t with Some n => _ | None => _ end with Some z0 => (z0, z) | None => (z, z + 1) end) as [new next].
    specialize (IH next). destruct (assign_from E next l) as [l1 r]. cbn [fst map el_items] in *. now rewrite IH.
  Qed.
  Lemma species_ids_same b : same_contents b (fst (assign_species_ids E b)).
  Proof.
    unfold assign_species_ids. pose proof (assign_items (b_species b) 1) as H. destruct (assign_from E 1 (b_species b)) as [l r]. cbn [fst] in *.
    split; [reflexivity|]. cbn [b_species b_reactions]. rewrite H. split; reflexivity.
  Qed.
  Lemma reaction_ids_same b : same_contents b (fst (assign_reactions_ids E b)).
  Proof.
    split; [reflexivity|]. cbn [assign_reactions_ids fst b_species b_reactions]. rewrite (proj1 (number_spec E _ _)). split; reflexivity.
  Qed.
  Lemma ids_same b : same_contents b (fst (assign_ids E b)).
  Proof.
    unfold assign_ids. pose proof (species_ids_same b) as H. destruct (assign_species_ids E b) as [b1 [[]|e]]; cbn [fst] in *; [|exact H].
    apply (same_trans _ b1 _ H). apply reaction_ids_same.
  Qed.

  Lemma sort_same uid b : same_contents b (fst (sort_elements E uid b)).
  Proof.
    unfold sort_elements. cbv zeta. set (again1 := negb _). set (again2 := negb _).
    assert (H1 : same_contents b (fst (if again1 then assign_species_ids E b else (b, Ok tt)))) by (destruct again1; [apply species_ids_same|apply same_refl]).
    destruct (if again1 then assign_species_ids E b else (b, Ok tt)) as [b1 [[]|e]]; cbn [fst] in *; [|exact H1].
    set (b2 := if again2 then fst (assign_reactions_ids E b1) else b1).
    assert (H2 : same_contents b b2) by (apply (same_trans _ b1 _ H1); subst b2; destruct again2; [apply reaction_ids_same|apply same_refl]).
    clearbody b2. clear H1. destruct (sorted_ids E uid b2) as [[sp_ids r_ids]|e]; [|exact H2].
    destruct (sort_by Z.leb _ (b_species b2)) as [ls|e] eqn:Es; [|exact H2]. apply sort_by_perm in Es. cbn [b_reactions b_keys b_species].
    assert (H3 : same_contents b (MkB (b_keys b2) ls (b_reactions b2))).
    { apply (same_trans _ b2 _ H2). split; [reflexivity|]. cbn [b_species b_reactions]. split; [now apply Permutation_map|reflexivity]. }
    destruct (sort_by Z.leb _ (b_reactions b2)) as [lr|e] eqn:Er; [|exact H3]. apply sort_by_perm in Er.
    set (b4 := MkB (b_keys b2) ls lr).
    assert (H4 : same_contents b b4).
    { apply (same_trans _ _ _ H3). split; [reflexivity|]. cbn [b4 b_species b_reactions]. split; [reflexivity|now apply Permutation_map]. }
    clearbody b4. assert (H5 : same_contents b (fst (if again1 then assign_species_ids E b4 else (b4, Ok tt))))
      by (apply (same_trans _ _ _ H4); destruct again1; [apply species_ids_same|apply same_refl]).
    destruct (if again1 then assign_species_ids E b4 else (b4, Ok tt)) as [b5 [[]|e]]; cbn [fst] in *; [|exact H5].
    apply (same_trans _ _ _ H5). destruct again2; [apply reaction_ids_same|apply same_refl].
  Qed.

  (** With distinct ids, whole elements are permuted. *)
  Lemma sort_perm uid b : NoDup (map el_id (b_species b)) -> NoDup (map el_id (b_reactions b)) ->
    let b' := fst (sort_elements E uid b) in Permutation (b_species b) (b_species b') /\ Permutation (b_reactions b) (b_reactions b').
  Proof.
    intros N1 N2. apply nodupSb_NoDup in N1, N2. cbv zeta. unfold sort_elements. cbv zeta. rewrite N1, N2. cbn [negb].
    destruct (sorted_ids E uid b) as [[sp_ids r_ids]|e]; cbn [fst]; [|split; reflexivity].
    destruct (sort_by Z.leb _ (b_species b)) as [ls|e] eqn:Es; [|split; reflexivity]. apply sort_by_perm in Es. cbn [b_reactions b_keys b_species].
    destruct (sort_by Z.leb _ (b_reactions b)) as [lr|e] eqn:Er; cbn [fst b_species b_reactions]; [|split; [exact Es|reflexivity]].
    apply sort_by_perm in Er. auto.
  Qed.

  Lemma same_inv b b' ns : same_contents b b' -> BInv b ns -> exists ns', BInv b' ns' /\ Permutation ns ns'.
  Proof.
    intros (H1 & H2 & H3) I. apply (BInv_perm b ns b' I H1); [eauto|].
    intros e' He'. apply (in_map el_items) in He'. apply (Permutation_in _ (Permutation_sym H3)) in He'.
    apply in_map_iff in He' as (e & He & Hi). eauto.
  Qed.

  Lemma step_inv b ns o : BInv b ns -> well_named o -> exists ns', BInv (fst (bstep E so b o)) ns'.
  Proof.
    intros I W. destruct o as [id a m u|s|ls rs id a m u|r|ids rxs|sps rxs|uid| | | |]; cbn [bstep].
    - destruct (attrs_inv b ns id a m u I W) as (ns' & H & _). eauto.
    - destruct (instance_inv b ns s I W) as (ns' & H & _). eauto.
    - exists ns. now apply rx_attrs_inv.
    - destruct (rx_inv b ns r I W) as (ns' & H & _). eauto.
    - unfold add_chemistry_from_instance. destruct (reactions_inv rxs W b ns I) as (ns1 & H).
      destruct (add_reactions E so rxs b) as [b1 [[]|e]]; cbn [fst] in *; [|eauto].
      destruct (sort_by Z.leb _ (b_species b1)) as [l|e] eqn:Es; cbn [fst]; [|eauto]. apply sort_by_perm in Es.
      edestruct (same_inv b1 (MkB (b_keys b1) l (b_reactions b1))) as (ns' & G & _); [|exact H|eauto].
      split; [reflexivity|]. split; [now apply Permutation_map|reflexivity].
    - destruct W as (ns0 & F & R). unfold add_chemistry_from_xml. destruct (elements_inv sps ns0 F b ns I) as (ns' & H1 & H2 & H3 & H4).
      destruct (add_elements sps b) as [b1 [[]|e]]; cbn [fst snd] in *; [|discriminate]. exists ns'.
      constructor; cbn [b_keys b_species b_reactions]; try apply H1. intros e He. apply in_app_or in He as [He|He]; [now apply H1|].
      apply (refers_incl ns0); auto.
    - edestruct (same_inv b) as (ns' & G & _); [apply (sort_same uid)|exact I|eauto].
    - edestruct (same_inv b) as (ns' & G & _); [apply species_ids_same|exact I|eauto].
    - edestruct (same_inv b) as (ns' & G & _); [apply reaction_ids_same|exact I|eauto].
    - edestruct (same_inv b) as (ns' & G & _); [apply ids_same|exact I|eauto].
    - exists []. constructor; cbn; [constructor|constructor| |intros e []]. intros k. split; [intros []|intros (n & _ & [])].
  Qed.

  Lemma BInv_empty : BInv b_empty [].
  Proof. constructor; cbn; [constructor|constructor| |intros e []]. intros k. split; [intros []|intros (n & _ & [])]. Qed.

  Lemma history_builder l : (forall o, In o l -> well_named o) -> forall b ns, BInv b ns -> exists ns', BInv (bhistory E so b l) ns'.
  Proof.
    unfold bhistory. induction l as [|o l IH]; intros W b ns I; cbn [fold_left]; [eauto|].
    destruct (step_inv b ns o I (W o (or_introl eq_refl))) as (ns1 & H1). apply (IH (fun t Ht => W t (or_intror Ht)) _ ns1 H1).
  Qed.

  Lemma rp_item_errors attrs units k e : rp_item E so attrs units k = Err e -> e = EType.
  Proof.
    unfold rp_item. destruct (sget k attrs) as [v|]; [|discriminate]. destruct (given v); cbn [negb]; [|discriminate].
    destruct (String.eqb k "ret_coefs"); [|discriminate]. destruct v; [|discriminate|]; now intros [= <-].
  Qed.

  Lemma rp_items_errors attrs units l : forall e, mapM (rp_item E so attrs units) l = Err e -> e = EType.
  Proof.
    induction l as [|k l IH]; intros e H; cbn [mapM] in H; [discriminate|]. destruct (rp_item E so attrs units k) eqn:Ek; cbn [bind] in H.
    - destruct (mapM _ l) eqn:El; cbn [bind] in H; [discriminate|]. injection H as <-. now apply IH.
    - injection H as <-. eapply rp_item_errors, Ek.
  Qed.

  Lemma BInv_named b ns : BInv b ns -> species_named E so b ns.
  Proof.
    intros I. constructor; try apply I.
    - intros id a m u n Hn. unfold add_rp_from_attributes. cbv zeta. rewrite Hn. unfold VStr. rewrite <- (known_ns b ns n I).
      destruct (known b (SStr n)); cbn [snd]; [tauto|]. destruct (mapM _ rp_attr_keys) as [its|e] eqn:Em; cbn [snd]; [split; discriminate|].
      apply rp_items_errors in Em. subst e. split; discriminate.
    - intros ls rs id a m u. unfold add_reaction_from_attributes. cbv zeta.
      assert (forallb (fun n => known b (SStr n)) (ls ++ rs) = true <-> incl (ls ++ rs) ns) as <-.
      { rewrite forallb_forall. split; intros H n Hn; [apply (known_ns b ns n I)|apply (known_ns b ns n I)]; auto. }
      destruct (forallb _ (ls ++ rs)); cbn [negb snd]; [tauto|]. split; discriminate.
  Qed.

  Theorem builder_consistent l : (forall o, In o l -> well_named o) -> exists ns, species_named E so (bhistory E so b_empty l) ns.
  Proof. intros W. destruct (history_builder l W b_empty [] BInv_empty) as (ns & I). exists ns. now apply BInv_named. Qed.

  (** ** Refused calls *)
  Lemma rejected_unchanged b o e : match o with ORpAttrs _ _ _ _ | ORp _ | ORxAttrs _ _ _ _ _ _ => True | _ => False end ->
    snd (bstep E so b o) = Err e -> fst (bstep E so b o) = b.
  Proof.
    assert (A : forall id a m u, snd (add_rp_from_attributes E so id a m u b) = Err e -> fst (add_rp_from_attributes E so id a m u b) = b).
    { intros id a m u. unfold add_rp_from_attributes. cbv zeta. destruct (sget "name" (supdate a m)) as [[k|d|]|]; try reflexivity.
      destruct (known b k); [reflexivity|]. destruct (mapM _ rp_attr_keys); [discriminate|reflexivity]. }
    destruct o; intros [] H; cbn [bstep] in *; [now apply A|now apply A|].
    unfold add_reaction_from_attributes in *. cbv zeta in *. destruct (negb _); [reflexivity|discriminate].
  Qed.
End Histories.
