(** Importing an HPEM file gives the species and reactions it describes. *)
From Verif Require Import Base BaseLemmas Species Reactions MolSpec SpeciesProofs ReactionProofs Classification Xml XmlSpec XmlProofs XmlRead XmlReact XmlRound
  XmlMain Hpem HpemSpec HpemText HpemProofs.

Section Objects.
  Variables (E : env) (so : pyval -> string).

  (** What the object of a species holds. *)
  Definition sp_attrs (d : sp_data) : list (string * pyval) :=
    [("name", VStr (rename (d_name d))); ("charge", VInt (d_charge d)); ("mass", VFlt (d_mass d)); ("stick_coef", VFlt (d_stick d))] ++
    (if feqb (d_stick d) fzero then [] else [("ret_coefs", VDict [(rename (d_rname d), SFlt (d_rcoef d))])]) ++
    (if String.eqb (d_comment d) "" then [] else [("comments", VStr (d_comment d))]).
  Definition rx_attrs (d : rx_data) : list (string * pyval) :=
    [("arrh_a", VFlt (d_a d)); ("arrh_b", VFlt (d_b d)); ("arrh_c", VFlt (d_c d)); ("gas_heat_contrib", VFlt (d_heat d));
     ("special_number", VInt (d_special d))] ++
    (if String.eqb (d_rcomment d) "" then [] else [("comments", VStr (d_rcomment d))]).

  Lemma sp_object_init d s : sp_object d s ->
    exists uid, rp_init uid (VInt 999) (sp_attrs d) [] [("charge", Some "e"); ("mass", Some "amu")] = Ok s.
  Proof. intros (uid & n & rn & Hn & Hr & H). apply renamed_eq in Hn, Hr. subst n rn. exists uid. exact H. Qed.

  Lemma sp_object_facts d s : sp_object d s -> rp_id s = 999 /\ sp_history s /\ nm s = rename (d_name d) /\
    (forall k, In k rp_attr_keys -> rattr s k = match sget k (sp_attrs d) with Some v => v | None => VNone end).
  Proof.
    intros H. destruct (sp_object_init d s H) as (uid & Hi). destruct (rp_init_spec _ _ _ _ _ _ Hi) as (_ & Id & _ & A & _); [constructor|].
    cbn [aget] in A. split; [unfold VInt in Id; congruence|]. split; [eapply sp_new, Hi|]. split; [|exact A].
    unfold nm, get_name, rstr. rewrite (A "name") by (now left). reflexivity.
  Qed.

  Lemma sp_object_writable d s : name_token (d_name d) -> sp_object d s -> writable_species s.
  Proof.
    intros N O. pose proof (sp_object_facts d s O) as (_ & H & Hn & A). destruct (sp_object_init d s O) as (uid & Hi).
    destruct (rp_init_spec _ _ _ _ _ _ Hi) as (_ & _ & _ & _ & _ & n0 & Hn0 & L1 & L2); [constructor|].
    assert (n0 = rename (d_name d)) as ->.
    { rewrite (A "name") in Hn0 by (now left). injection Hn0 as ->. reflexivity. }
    destruct (rename_writable _ N) as (R1 & R2 & R3).
    constructor.
    - exact H.
    - exists (rename (d_name d)). split; [unfold get_name, rstr; now rewrite Hn0|]. split.
      + split; [exact R1|]. split; [exact R2|]. split; [exact R3|].
        split; intros (a & b & Hc); [apply Bool.not_true_iff_false in L1; apply L1|apply Bool.not_true_iff_false in L2; apply L2];
          rewrite Hc; unfold has_char; apply existsb_exists; eexists; (split; [rewrite !chars_app; cbn; apply in_app_iff; right; left; reflexivity|reflexivity]).
      + intros _. rewrite (A "mass") by (cbn; tauto). discriminate.
    - rewrite (A "state") by (cbn; tauto). unfold sp_attrs. destruct (feqb _ _), (String.eqb _ _); cbn; congruence.
    - intros k Hk. rewrite (A k Hk). cbn in Hk. unfold sp_attrs.
      destruct (feqb (d_stick d) fzero), (String.eqb_spec (d_comment d) "") as [EC|NC];
        repeat (destruct Hk as [<-|Hk]; [cbn; try discriminate; unfold VStr; congruence|]); contradiction.
    - intros l. rewrite (A "ret_coefs") by (cbn; tauto). unfold sp_attrs.
      destruct (feqb (d_stick d) fzero), (String.eqb (d_comment d) ""); cbn; intros Hl; try discriminate Hl; injection Hl as <-;
        (split; [repeat constructor; intros []|]; intros n x [Hx|[]]; injection Hx as <- <-; repeat split; discriminate).
  Qed.

  Lemma sp_units_of d s : sp_object d s -> forall k, In k ["charge"; "mass"] ->
    sget k (units_of (fun k => let* u := rp_get_unit s k in Ok (Some u)) rp_attr_keys) = sget k [("charge", "e"); ("mass", "amu")].
  Proof.
    intros O k Hk. pose proof (sp_object_facts d s O) as (_ & H & _).
    rewrite units_of_get.
    destruct Hk as [<-|[<-|[]]]; cbn [memS existsb rp_attr_keys String.eqb Ascii.eqb Bool.eqb orb];
      (erewrite history_get_unit; [reflexivity|exact H|cbn; tauto| |reflexivity]);
      pose proof (sp_object_facts d s O) as (_ & _ & _ & A); rewrite A by (cbn; tauto); discriminate.
  Qed.

  Lemma add_object d s b : sp_object d s ->
    add_rp_from_attributes E so None (hsp_attrs (hsp_of d)) [] [("charge", "e"); ("mass", "amu")] b = add_rp_from_instance E so s b.
  Proof.
    intros O. pose proof (sp_object_facts d s O) as (Id & H & Hn & A). unfold add_rp_from_instance, add_rp_from_attributes. cbv zeta.
    change (supdate ?x []) with x at 1.
    rewrite (attrs_get s). change (memS "name" rp_attr_keys) with true. cbv iota. rewrite (A "name") by (now left).
    change (sget "name" (hsp_attrs (hsp_of d))) with (Some (VStr (rename (d_name d)))).
    change (match sget "name" (sp_attrs d) with Some v => v | None => VNone end) with (VStr (rename (d_name d))).
    unfold VStr. cbv iota. destruct (known b (SStr (rename (d_name d)))); [reflexivity|].
    rewrite Id. match goal with |- context [mapM (rp_item E so ?a ?us) rp_attr_keys] => assert (mapM (rp_item E so a us) rp_attr_keys =
      mapM (rp_item E so (supdate (map (fun k => (k, rattr s k)) rp_attr_keys) []) (units_of (fun k => let* u := rp_get_unit s k in Ok (Some u)) rp_attr_keys)) rp_attr_keys) as -> end; [|reflexivity].
    apply mapM_ext. intros k Hk. unfold rp_item. rewrite (attrs_get s), (proj2 (memS_In k _) Hk), (A k Hk).
    pose proof (sp_units_of d s O) as U. unfold sp_attrs, hsp_attrs, hsp_of.
    cbn [h_name h_charge h_mass h_stick h_flag h_rcoef h_rname h_comments truthy VFlt].
    assert (UN : forall k, In k rp_attr_keys -> sget k rp_default_units = None ->
      sget k (units_of (fun k => let* u := rp_get_unit s k in Ok (Some u)) rp_attr_keys) = None).
    { clear. intros k Hk Hu. rewrite units_of_get, (proj2 (memS_In k _) Hk). unfold rp_get_unit. now rewrite Hu. }
    revert U UN. generalize (units_of (fun k => let* u := rp_get_unit s k in Ok (Some u)) rp_attr_keys) as us. intros us U UN.
    match goal with |- context [supdate ?x []] => change (supdate x []) with x end.
    assert (Uk : In k ["charge"; "mass"] \/ sget k us = None \/ In k ["h_form"; "lj_epsilon"; "lj_sigma"]).
    { cbn in Hk. repeat (destruct Hk as [<-|Hk]; [first [left; cbn; tauto|right; left; apply UN; [cbn; tauto|reflexivity]|right; right; cbn; tauto]|]). contradiction. }
    cbn in Hk.
    destruct Uk as [Uk|[Uk|Uk]]; [rewrite (U k Uk)|rewrite Uk|]; clear UN;
    destruct (feqb (d_stick d) fzero), (String.eqb (d_comment d) "") eqn:EC; cbn [negb app];
      repeat (destruct Hk as [<-|Hk]; [cbn; rewrite ?EC; cbn; try reflexivity; first [cbn in Uk; intuition discriminate|rewrite U in Uk by (cbn; tauto); discriminate Uk]|]); contradiction.
  Qed.

  Lemma rx_object_init sps d r : rx_object E sps d r -> exists lhs rhs ua uc,
    Forall2 (fun n s => In s sps /\ nm s = rename n) (d_lhs d) lhs /\ Forall2 (fun n s => In s sps /\ nm s = rename n) (d_rhs d) rhs /\
    a_unit (List.length (d_lhs d)) = Ok ua /\ uc = (if memS "e" (map rename (d_lhs d)) then "eV" else "K") /\
    reaction_init E (VInt 999) lhs rhs (rx_attrs d) [] [("arrh_a", Some ua); ("arrh_c", Some uc); ("gas_heat_contrib", Some "eV")] = Ok r.
  Proof.
    intros (lhs & rhs & ua & uc & FL & FR & U & C & H). exists lhs, rhs, ua, uc.
    assert (G : forall ns l, Forall2 (fun n s => In s sps /\ exists n', renamed n n' /\ get_name s = Ok n') ns l ->
      Forall2 (fun n s => In s sps /\ nm s = rename n /\ get_name s = Ok (nm s)) ns l).
    { induction 1 as [|n s ns l (I & n' & R & N) F IH]; constructor; [|exact IH]. apply renamed_eq in R. unfold nm. rewrite N. subst n'. auto. }
    apply G in FL, FR.
    assert (LL : List.length (d_lhs d) = List.length lhs) by (clear -FL; induction FL; cbn; congruence).
    split; [clear -FL; induction FL as [|n s ns l (I & N & _) F IH]; constructor; auto|].
    split; [clear -FR; induction FR as [|n s ns l (I & N & _) F IH]; constructor; auto|].
    rewrite LL. split.
    { clear -U. cbn in U. destruct U as [U|[U|[U|[]]]]; injection U as <- <-; reflexivity. }
    split; [|exact H].
    assert (In "e" (map rename (d_lhs d)) <-> exists s, In s lhs /\ get_name s = Ok "e") as Q.
    { clear -FL. induction FL as [|n s ns l (I & N & G) F IH]; cbn; [split; [tauto|intros (s & [] & _)]|]. split.
      - intros [H|H]; [exists s; split; [now left|rewrite G, N, H; reflexivity]|]. apply IH in H. destruct H as (t & Ht & Ge). exists t. split; [now right|exact Ge].
      - intros (t & [->|Ht] & Ge); [left; rewrite <- N; rewrite G in Ge; now injection Ge|]. right. apply IH. now exists t. }
    destruct C as [[-> C]|[-> C]].
    - apply Q, memS_In in C. now rewrite C.
    - destruct (memS "e" (map rename (d_lhs d))) eqn:M; [|reflexivity]. apply memS_In, Q in M. destruct M as (s & Hs & He). now apply C in Hs.
  Qed.

  Lemma rx_object_writable sps d r : rx_object E sps d r -> writable_reaction E r /\ incl (r_lhs r ++ r_rhs r) sps /\
    map nm (r_lhs r) = map rename (d_lhs d) /\ map nm (r_rhs r) = map rename (d_rhs d).
  Proof.
    intros O. destruct (rx_object_init sps d r O) as (lhs & rhs & ua & uc & FL & FR & _ & _ & H).
    destruct (reaction_init_parts _ _ _ _ _ _ _ _ H) as (Id & _ & L & R & _ & _ & _ & _ & A). change (supdate (rx_attrs d) []) with (rx_attrs d) in A.
    assert (G : forall ns l, Forall2 (fun n s => In s sps /\ nm s = rename n) ns l -> incl l sps /\ map nm l = map rename ns).
    { induction 1 as [|n s ns l (I & N) F [I1 I2]]; cbn; [split; [intros x []|reflexivity]|]. split; [intros x [<-|Hx]; auto|congruence]. }
    apply G in FL, FR. rewrite L, R. split; [|split; [intros x Hx; apply in_app_iff in Hx as [Hx|Hx]; [now apply FL|now apply FR]|split; [apply FL|apply FR]]].
    constructor.
    - change r with (assigns E r []). eapply rx_new, H.
    - left. rewrite (proj1 (A "arrh_a" ltac:(cbn; tauto))). discriminate.
    - intros k Hk. rewrite (proj1 (A k Hk)). unfold rx_attrs. cbn in Hk.
      destruct (String.eqb_spec (d_rcomment d) "") as [EC|NC];
        repeat (destruct Hk as [<-|Hk]; [cbn; try discriminate; unfold VStr; congruence|]); contradiction.
  Qed.

  Lemma add_rx_object sps u q d r : rx_object E sps d r -> (forall n, In n (map rename (d_lhs d ++ d_rhs d)) -> In n (map nm u)) ->
    exists ua, a_unit (List.length (d_lhs d)) = Ok ua /\
    add_reaction_from_attributes E so (map rename (d_lhs d)) (map rename (d_rhs d)) None (hrx_attrs (hrx_of d)) []
      [("gas_heat_contrib", "eV"); ("arrh_a", ua); ("arrh_c", if memS "e" (map rename (d_lhs d)) then "eV" else "K")] (holding E so u q)
    = (holding E so u (q ++ [r]), Ok tt).
  Proof.
    intros O K. destruct (rx_object_writable sps d r O) as (W & _ & NL & NR). destruct (rx_object_init sps d r O) as (lhs & rhs & ua & uc & FL & FR & U & C & H).
    exists ua. split; [exact U|]. destruct (reaction_init_parts _ _ _ _ _ _ _ _ H) as (Id & _ & L & R & _ & _ & _ & _ & A).
    change (supdate (rx_attrs d) []) with (rx_attrs d) in A.
    unfold add_reaction_from_attributes. cbv zeta.
    assert (forallb (fun n => known (holding E so u q) (SStr n)) (map rename (d_lhs d) ++ map rename (d_rhs d)) = true) as ->.
    { apply forallb_forall. intros n Hn. apply known_holding. apply K. now rewrite map_app. }
    cbn [negb]. unfold holding. cbn [b_keys b_species b_reactions]. rewrite map_app. cbn [map]. do 4 f_equal.
    unfold rx_written, rx_el. rewrite NL, NR. unfold VInt in Id. injection Id as <-. do 4 f_equal.
    rewrite <- (rx_items_written E so r W). rewrite !flat_map_concat_map. f_equal. apply map_ext_in. intros k Hk. unfold rx_item.
    change (supdate ?x []) with x. 
    assert (map (fun k => (k, xattr r k)) rx_attr_keys = keyed (fun k => Some (xattr r k)) rx_attr_keys) as -> by reflexivity.
    rewrite keyed_get, units_of_get, (proj2 (memS_In k _) Hk). destruct (A k Hk) as [-> A2]. unfold rx_get_unit. rewrite A2, <- C. clear A2.
    unfold rx_attrs, hrx_attrs, hrx_of. cbn [h_a h_b h_c h_heat h_special h_rcomments].
    cbn in Hk. destruct (String.eqb (d_rcomment d) "") eqn:EC;
      repeat (destruct Hk as [<-|Hk]; [cbn; rewrite ?EC; reflexivity|]); contradiction.
  Qed.

  (** ** The loops *)
  Lemma add_all_objects rxs ds objs : Forall2 sp_object ds objs -> (forall d, In d ds -> name_token (d_name d)) ->
    forall u q, NoDup (map nm (u ++ objs)) ->
    add_hpem_species E so rxs (map (fun d => (rename (d_name d), hsp_of d)) ds) (holding E so u q)
    = (holding E so (u ++ filter (fun s => present rxs (nm s)) objs) q, Ok tt).
  Proof.
    induction 1 as [|d s ds objs O F IH]; intros N u q ND; cbn [map add_hpem_species filter]; [now rewrite app_nil_r|].
    assert (Hn : nm s = rename (d_name d)) by (now apply sp_object_facts). rewrite <- Hn.
    assert (N' : forall d, In d ds -> name_token (d_name d)) by (intros; apply N; now right).
    destruct (present rxs (nm s)).
    - rewrite (add_object d s _ O). rewrite (add_species E so u q s).
      + rewrite IH; [now rewrite <- app_assoc|exact N'|]. now rewrite <- app_assoc.
      + apply (sp_object_writable d); [apply N; now left|exact O].
      + rewrite map_app in ND. cbn in ND. apply NoDup_remove_2 in ND. intros Hi. apply ND, in_app_iff. now left.
    - apply IH; [exact N'|]. rewrite map_app in *. cbn in ND. now apply NoDup_remove_1 in ND.
  Qed.

  Lemma add_all_rx_objects sps u ds robjs : Forall2 (rx_object E sps) ds robjs ->
    (forall d n, In d ds -> In n (map rename (d_lhs d ++ d_rhs d)) -> In n (map nm u)) ->
    forall q, add_hpem_reactions E so (map hrx_of ds) (holding E so u q) = (holding E so u (q ++ robjs), Ok tt).
  Proof.
    induction 1 as [|d r ds robjs O F IH]; intros K q; cbn [map add_hpem_reactions]; [now rewrite app_nil_r|].
    destruct (add_rx_object sps u q d r O) as (ua & U & A); [intros n; apply K; now left|].
    change (h_lhs (hrx_of d)) with (map rename (d_lhs d)). change (h_rhs (hrx_of d)) with (map rename (d_rhs d)).
    rewrite map_length, U, A. rewrite IH; [now rewrite <- app_assoc|]. intros; eapply K; [right|]; eassumption.
  Qed.

  Hypothesis NR : numbers_readable E.

  Theorem import_read_back uid skip sps rxs lines objs robjs :
    dat_file E sps rxs lines -> Forall2 sp_object sps objs -> NoDup (map get_name objs) ->
    Forall2 (rx_object E objs) (filter (taken skip) rxs) robjs ->
    exists b f sps' rxs', add_chemistry_from_hpem E so skip lines b_empty = (b, Ok tt) /\
      (forall s, In s objs -> f s = true <-> exists r, In r robjs /\ In s (r_lhs r ++ r_rhs r)) /\
      reads E uid b sps' rxs' /\ Forall2 (same_species E) (filter f objs) sps' /\ Forall2 (same_reaction E) robjs rxs' /\
      (forall r', In r' rxs' -> incl (r_lhs r' ++ r_rhs r') sps').
  Proof using NR.
    intros D FO ND FR.
    assert (NT : forall d, In d sps -> name_token (d_name d)).
    { destruct D as (l1 & star & l2 & _ & _ & F1 & _). intros d Hd. clear -F1 Hd. induction F1 as [|d' l sps l1 T F IH]; [destruct Hd|].
      destruct Hd as [->|Hd]; [|now apply IH]. destruct T as (? & ? & ? & ? & ? & ? & ? & ? & ? & ? & ? & ? & ? & N & _). exact N. }
    assert (W : forall s, In s objs -> writable_species s).
    { clear -FO NT. induction FO as [|d s ds objs O F IH]; intros t Ht; [destruct Ht|]. destruct Ht as [<-|Ht].
      - apply (sp_object_writable d); [apply NT; now left|exact O].
      - apply IH; [intros; apply NT; now right|exact Ht]. }
    assert (NN : NoDup (map nm objs)) by (now apply names_distinct).
    assert (MN : map nm objs = map (fun d => rename (d_name d)) sps).
    { clear -FO. induction FO as [|d s ds objs O F IH]; [reflexivity|]. cbn. f_equal; [now apply sp_object_facts|exact IH]. }
    assert (RW : forall r, In r robjs -> writable_reaction E r /\ incl (r_lhs r ++ r_rhs r) objs).
    { clear -FR. induction FR as [|d r ds robjs O F IH]; intros t Ht; [destruct Ht|]. destruct Ht as [<-|Ht]; [|now apply IH].
      destruct (rx_object_writable objs d r O) as (Wr & I & _). auto. }
    set (ks := map hrx_of (filter (taken skip) rxs)).
    assert (PT : forall s, present ks (nm s) = takes_part robjs s).
    { intros s. unfold present, takes_part, ks. clear -FR. induction FR as [|d r ds robjs O F IH]; [reflexivity|]. cbn [map flat_map existsb]. rewrite <- IH.
      destruct (rx_object_writable objs d r O) as (_ & _ & NL & NR'). rewrite map_app, NL, NR'. unfold memS. rewrite existsb_app. reflexivity. }
    unfold add_chemistry_from_hpem. rewrite (read_ok E skip sps rxs lines D) by (rewrite <- MN; exact NN). fold ks.
    change b_empty with (holding E so [] []). rewrite (add_all_objects ks sps objs FO NT [] []) by exact NN. cbn [app].
    assert (filter (fun s => present ks (nm s)) objs = filter (takes_part robjs) objs) as -> by (apply filter_ext; exact PT).
    unfold ks. rewrite (add_all_rx_objects objs _ _ robjs FR).
    2: { intros d n Hd Hn. clear -FR NN Hd Hn RW.
         assert (exists r, In r robjs /\ In n (map nm (r_lhs r ++ r_rhs r))) as (r & Hr & Hi).
         { clear RW NN. induction FR as [|d' r ds robjs' O F IH]; [destruct Hd|]. destruct Hd as [->|Hd].
           - exists r. split; [now left|]. destruct (rx_object_writable objs d r O) as (_ & _ & NL & NR'). now rewrite map_app, NL, NR', <- map_app.
           - destruct (IH Hd) as (r' & H1 & H2). exists r'. split; [now right|exact H2]. }
         apply in_map_iff in Hi. destruct Hi as (s & <- & Hs). apply in_map. apply filter_In. assert (Ho : In s objs) by (now apply (RW r Hr)).
         split; [exact Ho|]. apply (takes_part_spec objs NN); [intros; now apply RW|exact Ho|]. now exists r. }
    cbn [app].
    destruct (reads_elements E so NR uid (holding E so (filter (takes_part robjs) objs) robjs) (filter (takes_part robjs) objs) robjs) as (u' & q' & G & B); auto.
    - intros s Hs. apply filter_In in Hs as [Hs _]. now apply W.
    - now apply NoDup_map_filter.
    - intros r Hr. destruct (RW r Hr) as [Wr I]. split; [exact Wr|]. intros s Hs. apply filter_In. split; [now apply I|].
      apply (takes_part_spec objs NN); [intros; now apply RW|now apply I|]. now exists r.
    - eexists _, (takes_part robjs), u', q'. split; [reflexivity|]. split; [intros s Hs; apply (takes_part_spec objs NN); [intros; now apply RW|exact Hs]|].
      split; [exact G|]. destruct B as (B1 & B2 & B3 & _). auto.
  Qed.
End Objects.
