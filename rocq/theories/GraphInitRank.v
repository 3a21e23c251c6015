(** Graphs of chemistries: admissible data, edges and ranked species. *)
From Coq Require Import Lia Lqa.
From Verif Require Import Base BaseLemmas Species Reactions Chemistry ChemSpec ChemInv ChemHist ChemGetters Graph GraphSpec GraphProofs GraphPaths
  ChemGraph ChemGraphSpec ChemGraphProofs ChemRanking Tables Workspace GraphInit GraphInitSpec GraphInitProofs.
Local Open Scope Q_scope.

Lemma times_pos c s l : wf c -> In s (c_species c) -> (forall u, In u l -> In u (c_species c)) ->
  ((0 < times s l)%Z <-> In s l).
Proof.
  intros W Hs Hl. unfold times. split.
  - intros H. destruct (filter (fun t => (sp_id t =? sp_id s)%Z) l) as [|u m] eqn:E; [cbn in H; lia|].
    assert (Hu : In u (filter (fun t => (sp_id t =? sp_id s)%Z) l)) by (rewrite E; now left).
    apply filter_In in Hu. destruct Hu as [Hu Eu]. apply Z.eqb_eq in Eu.
    replace s with u; [exact Hu|]. apply (NoDup_map_inj sp_id (c_species c)); auto. apply W.
  - intros H. assert (X : In s (filter (fun t => (sp_id t =? sp_id s)%Z) l)).
    { apply filter_In. split; [exact H|apply Z.eqb_refl]. }
    destruct (filter (fun t => (sp_id t =? sp_id s)%Z) l); [destruct X|]. cbn [List.length]. lia.
Qed.

Lemma times_nonneg s l : (0 <= times s l)%Z.
Proof. unfold times. lia. Qed.

Section Rank.
  Variable c : chem.
  Hypothesis I : Inv c.
  Hypothesis A : assert_consistency c = Ok tt.
  Hypothesis D : dict_rets c.
  Variables (par : list (string * Q)) (rates : frame) (fluxes : table) (k : cgraph).
  Hypothesis RC : rectangular rates.
  Hypothesis K : cgraph_init c par rates fluxes = Ok k.

  Lemma k_fit : fitting c par rates fluxes.
  Proof using I A D RC K. apply (init_iff c I A D par rates fluxes RC). eauto. Qed.
  Lemma k_holds : holds c par rates fluxes k.
  Proof using I A D RC K. exact (init_holds c I A D par rates fluxes RC k K). Qed.

  Lemma cell_nonneg m j a : m = Lhs \/ m = Rhs ->
    (0 <= match nth_error (get_stoichiomatrix c false true m) j with
          | Some row => match nth_error (snd row) a with Some x => snd x | None => 0 end
          | None => 0
          end)%Z.
  Proof using.
    intros Hm. destruct (nth_error (get_stoichiomatrix c false true m) j) as [row|] eqn:E; [|lia].
    destruct (nth_error (snd row) a) as [x|] eqn:Ex; [|lia].
    apply nth_error_In in E. apply nth_error_In in Ex. unfold get_stoichiomatrix in E. apply in_map_iff in E.
    destruct E as (r & <- & _). cbn in Ex. apply in_map_iff in Ex. destruct Ex as (i & <- & Hi).
    apply in_map_iff in Hi. destruct Hi as (s & <- & _). cbn [snd]. rewrite stoich_times.
    destruct Hm as [-> | ->]; apply times_nonneg.
  Qed.

  Lemma k_admissible r z : rates_nonneg rates -> sget "radius" par = Some r -> sget "length" par = Some z -> 0 < r -> 0 < z ->
    admissible k.
  Proof using I A D RC K.
    intros RN Er Ez Pr Pz. pose proof k_holds as Hk. pose proof k_fit as Fk. split.
    - rewrite (h_species _ _ _ _ _ Hk). unfold enabled_species. apply NoDup_map_filter, (i_wf c I).
    - intros j a. pose proof K as H. unfold cgraph_init in H. apply bind_Ok in H. destruct H as ([] & _ & H).
      apply bind_Ok in H. destruct H as (r0 & _ & H). apply bind_Ok in H. destruct H as (z0 & _ & H).
      apply bind_Ok in H. destruct H as (m & _ & H). injection H as <-. cbn [cg_lhs]. apply cell_nonneg. auto.
    - intros j a. pose proof K as H. unfold cgraph_init in H. apply bind_Ok in H. destruct H as ([] & _ & H).
      apply bind_Ok in H. destruct H as (r0 & _ & H). apply bind_Ok in H. destruct H as (z0 & _ & H).
      apply bind_Ok in H. destruct H as (m & _ & H). injection H as <-. cbn [cg_rhs]. apply cell_nonneg. auto.
    - intros t j. pose proof K as H. unfold cgraph_init in H. apply bind_Ok in H. destruct H as ([] & _ & H).
      apply bind_Ok in H. destruct H as (r0 & _ & H). apply bind_Ok in H. destruct H as (z0 & _ & H).
      apply bind_Ok in H. destruct H as (m & _ & H). injection H as <-. cbn [cg_rate].
      destruct (nth_error (fr_rows rates) t) as [row|] eqn:E; [|lra]. apply nth_error_In in E.
      pose proof (fit_rates _ _ _ _ Fk) as F1. rewrite <- (map_map rx_id LId) in F1.
      destruct (tcells_hd rates RC _ row F1 E) as (q & vals & X1 & _ & _ & X4). rewrite X4.
      destruct (nth_in_or_default j vals 0) as [Hv|Hv]; [|rewrite Hv; lra].
      apply (RN row); [exact E|]. rewrite X1. exact Hv.
    - pose proof (h_radius _ _ _ _ _ Hk). replace (cg_radius k) with r by congruence. exact Pr.
    - pose proof (h_length _ _ _ _ _ Hk). replace (cg_length k) with z by congruence. exact Pz.
  Qed.

  Lemma at_index a n : species_at k a n <-> exists s, nth_error (enabled_species c) a = Some s /\ sp_name s = n.
  Proof using I A D RC K.
    unfold species_at. rewrite (h_species _ _ _ _ _ k_holds). split.
    - intros H. rewrite nth_error_map in H. destruct (nth_error (enabled_species c) a) as [s|]; [|discriminate].
      exists s. cbn in H. split; congruence.
    - intros (s & H & <-). now apply map_nth_error.
  Qed.

  Hypothesis FR : finite_rets c.

  Lemma rates_row t : (t < List.length (fr_rows rates))%nat ->
    exists i q vals, nth_error (fr_rows rates) t = Some (i, q :: vals) /\ List.length vals = List.length (enabled_reactions c).
  Proof using I A D RC K.
    intros Ht. destruct (nth_error (fr_rows rates) t) as [[i vs]|] eqn:E; [|apply nth_error_None in E; lia].
    pose proof (fit_rates _ _ _ _ k_fit) as F1. rewrite <- (map_map rx_id LId) in F1.
    destruct (tcells_hd rates RC _ (i, vs) F1 (nth_error_In _ _ E)) as (q & vals & X1 & _ & X3 & _). cbn in X1. subst vs.
    exists i, q, vals. rewrite map_length in X3. auto.
  Qed.

  Lemma linked_influences surface t a b x y : (t < List.length (fr_rows rates))%nat ->
    nth_error (enabled_species c) b = Some x -> nth_error (enabled_species c) a = Some y ->
    (linked k surface t b a <-> influences c rates fluxes surface t x y).
  Proof using I A D RC K FR.
    intros Ht Hb Ha. pose proof k_holds as Hk. pose proof k_fit as Fk. pose proof (i_wf c I) as W.
    destruct (rates_row t Ht) as (i & q & vals & Hrow & Hlen).
    assert (Ex : In x (enabled_species c)) by (eapply nth_error_In; eauto).
    assert (Ey : In y (enabled_species c)) by (eapply nth_error_In; eauto).
    assert (Cx : In x (c_species c)) by (apply filter_In in Ex; tauto).
    assert (Part : forall r, In r (enabled_reactions c) ->
              ((0 < times x (rx_lhs r))%Z <-> In x (rx_lhs r)) /\ ((0 < times x (rx_rhs r))%Z <-> In x (rx_rhs r))).
    { intros r Hr. apply filter_In in Hr. destruct Hr as [Hr _].
      split; apply (times_pos c); auto; intros u Hu; apply (wf_inst c W r u Hr); unfold takes_part; rewrite ?in_app_iff; auto. }
    assert (Hfl : exists fi row, nth_error (tb_rows fluxes) t = Some (fi, row)).
    { destruct (nth_error (tb_rows fluxes) t) as [[fi row]|] eqn:E; [eauto|]. apply nth_error_None in E.
      pose proof (fit_times _ _ _ _ Fk) as F4. exfalso. revert F4 E Ht. clear.
      intros F4. enough (List.length (fr_rows rates) = List.length (tb_rows fluxes)) by lia.
      induction F4; cbn; congruence. }
    destruct Hfl as (fi & row & Hfl). destruct (h_flux _ _ _ _ _ Hk t fi row b x Hfl Hb) as [Fx1 Fx2].
    destruct (h_ret _ _ _ _ _ Hk a y b x Ha Hb) as [R1 R2]. destruct (FR y x Ey Ex) as (rq & Hrq).
    unfold linked, influences, involves, changes. split.
    - intros [(j & Hj & Hr & Inv & Ch)|(Sf & Nf & Nr)].
      + left. rewrite (h_reactions _ _ _ _ _ Hk) in Hj.
        destruct (nth_error (enabled_reactions c) j) as [r|] eqn:Er; [|apply nth_error_None in Er; lia].
        destruct (nth_error vals j) as [v|] eqn:Ev; [|apply nth_error_None in Ev; lia].
        destruct (h_lhs _ _ _ _ _ Hk j r b x Er Hb) as [B1 B2]. destruct (h_lhs _ _ _ _ _ Hk j r a y Er Ha) as [A1 A2].
        rewrite (h_rate _ _ _ _ _ Hk t i q vals j v Hrow Ev) in Hr. rewrite B1, B2 in Inv. rewrite A1, A2 in Ch.
        destruct (Part r (nth_error_In _ _ Er)) as [P1 P2]. rewrite P1, P2 in Inv.
        exists j, r, i, q, vals, v. repeat (split; [assumption|]). exact Ch.
      + right. assert (Ox : ordinary x).
        { apply ordinary_iff. destruct (ordinaryb x) eqn:O; [reflexivity|]. exfalso. apply Nf. rewrite Fx2; [reflexivity|].
          now apply ord_not. }
        assert (Oy : ordinary y).
        { apply ordinary_iff. destruct (ordinaryb y) eqn:O; [reflexivity|]. exfalso. apply Nr. rewrite R2; [reflexivity|].
          left. now apply ord_not. }
        repeat (split; [assumption|]). exists fi, row, rq. split; [exact Hfl|].
        rewrite (Fx1 Ox) in Nf. rewrite (R1 Oy Ox rq Hrq) in Nr. auto.
    - intros [(j & r & i' & q' & vals' & v & Er & Hrow' & Ev & Pv & Inv & Ch)|(Sf & Ox & Oy & fi' & row' & q' & Hfl' & Nf & Hq' & Nq)].
      + left. rewrite Hrow in Hrow'. injection Hrow' as <- <- <-. exists j.
        destruct (h_lhs _ _ _ _ _ Hk j r b x Er Hb) as [B1 B2]. destruct (h_lhs _ _ _ _ _ Hk j r a y Er Ha) as [A1 A2].
        rewrite (h_reactions _ _ _ _ _ Hk), (h_rate _ _ _ _ _ Hk t i q vals j v Hrow Ev), B1, B2, A1, A2.
        destruct (Part r (nth_error_In _ _ Er)) as [P1 P2]. rewrite P1, P2.
        split; [apply nth_error_Some; congruence|]. auto.
      + right. rewrite Hfl in Hfl'. injection Hfl' as <- <-. rewrite (Fx1 Ox), (R1 Oy Ox q' Hq'). auto.
  Qed.

  Lemma names_inj x x' : In x (enabled_species c) -> In x' (enabled_species c) -> sp_name x = sp_name x' -> x = x'.
  Proof using I.
    intros H H' E. apply filter_In in H. apply filter_In in H'.
    apply (NoDup_map_inj sp_name (c_species c)); try tauto. apply (i_wf c I).
  Qed.

  Lemma chem_edges r z surface : rates_nonneg rates -> sget "radius" par = Some r -> sget "length" par = Some z -> 0 < r -> 0 < z ->
    exists gs, distribute_weights k DRG surface = Ok gs /\ List.length gs = List.length (fr_rows rates) /\
      forall t g, nth_error gs t = Some g -> forall x y,
        In x (enabled_species c) -> In y (enabled_species c) ->
        (In (sp_name x, sp_name y) (g_edges g) <-> x <> y /\ influences c rates fluxes surface t x y).
  Proof using I A D RC K FR.
    intros RN Er Ez Pr Pz. pose proof (k_admissible r z RN Er Ez Pr Pz) as AD.
    destruct (drg_graphs k AD surface) as (gs & Hgs & Hl & Hg). exists gs. split; [exact Hgs|].
    rewrite (h_times _ _ _ _ _ k_holds) in Hl. split; [exact Hl|].
    intros t g Hn x y Hx Hy. destruct (Hg t g Hn) as [He _]. rewrite He.
    assert (Ht : (t < List.length (fr_rows rates))%nat) by (rewrite <- Hl; apply nth_error_Some; congruence).
    split.
    - intros (Nxy & a & b & Ha & Hb & L). apply at_index in Ha. apply at_index in Hb.
      destruct Ha as (y' & Ha & Ey). destruct Hb as (x' & Hb & Ex).
      assert (x' = x) by (apply names_inj; auto; eapply nth_error_In; eauto).
      assert (y' = y) by (apply names_inj; auto; eapply nth_error_In; eauto). subst x' y'.
      split; [intros ->; congruence|]. now apply (linked_influences surface t a b x y).
    - intros (Nxy & L). split; [intros E; apply Nxy; now apply names_inj|].
      apply In_nth_error in Hx as Hb. destruct Hb as (b & Hb). apply In_nth_error in Hy as Ha. destruct Ha as (a & Ha).
      exists a, b. split; [apply at_index; eauto|]. split; [apply at_index; eauto|].
      now apply (linked_influences surface t a b x y).
  Qed.

  Lemma assessed_names important :
    assessed k important = map sp_name (filter (fun s => ordinaryb s && negb (memS (sp_name s) important)) (enabled_species c)).
  Proof using I A D RC K.
    unfold assessed. rewrite (h_species _ _ _ _ _ k_holds).
    assert (G : forall l, incl l (enabled_species c) ->
      filter (fun s => negb (memS s important || memS s (cg_special k))) (map sp_name l) =
      map sp_name (filter (fun s => ordinaryb s && negb (memS (sp_name s) important)) l)).
    { induction l as [|s l IH]; intros Hi; [reflexivity|]. cbn [map filter].
      assert (E : memS (sp_name s) (cg_special k) = negb (ordinaryb s)).
      { assert (Hs : In s (c_species c)).
        { assert (X : In s (enabled_species c)) by (apply Hi; now left). apply filter_In in X. tauto. }
        destruct (memS (sp_name s) (cg_special k)) eqn:M.
        - apply memS_In in M. apply (h_special _ _ _ _ _ k_holds) in M. destruct M as [M _]. unfold ordinaryb.
          destruct M as [-> | ->]; reflexivity.
        - symmetry. apply negb_false_iff. destruct (ordinaryb s) eqn:O; [reflexivity|]. exfalso.
          assert (X : memS (sp_name s) (cg_special k) = true); [|congruence].
          apply memS_In, (h_special _ _ _ _ _ k_holds). split; [|eauto].
          unfold ordinaryb in O. apply andb_false_iff in O. rewrite !negb_false_iff, !String.eqb_eq in O. exact O. }
      rewrite E, negb_orb, negb_involutive, andb_comm. rewrite IH by (intros u Hu; apply Hi; now right).
      destruct (ordinaryb s && negb (memS (sp_name s) important)); reflexivity. }
    apply G, incl_refl.
  Qed.

  Lemma chem_ranking r z label it surface important :
    rates_nonneg rates -> sget "radius" par = Some r -> sget "length" par = Some z -> 0 < r -> 0 < z ->
    permuting it -> fr_rows rates <> [] ->
    NoDup (map (fun x => label (fst x) (snd x)) (list_prod important (cg_times k))) ->
    exists gs rk, distribute_weights k DRG surface = Ok gs /\
      ranking_values k Qltb label (scores_shortest it) gs important = Ok rk /\
      map fst rk = map sp_name (filter (fun s => ordinaryb s && negb (memS (sp_name s) important)) (enabled_species c)) /\
      forall x, In x (enabled_species c) -> ordinary x -> ~ In (sp_name x) important ->
        exists o, sget (sp_name x) rk = Some o /\
          (o = None <-> important = [] \/
             forall t y, (t < List.length (fr_rows rates))%nat -> In y (enabled_species c) -> y <> x ->
               ~ influences c rates fluxes surface t x y /\ ~ influences c rates fluxes surface t y x).
  Proof using I A D RC K FR.
    intros RN Er Ez Pr Pz Hit Hne Hl. pose proof (k_admissible r z RN Er Ez Pr Pz) as AD.
    destruct (chem_edges r z surface RN Er Ez Pr Pz) as (gs & Hgs & Hlen & He).
    assert (Hsp : forall t g u v, nth_error gs t = Some g -> In (u, v) (g_edges g) ->
              exists su sv, In su (enabled_species c) /\ In sv (enabled_species c) /\ sp_name su = u /\ sp_name sv = v).
    { intros t g u v Hn Huv. destruct (drg_graphs k AD surface) as (gs' & Hgs' & _ & Hg).
      assert (gs' = gs) by congruence. subst gs'. destruct (Hg t g Hn) as [H _]. apply H in Huv.
      destruct Huv as (_ & a & b & Ha & Hb & _). apply at_index in Ha. apply at_index in Hb.
      destruct Ha as (sv & Ha & Ev). destruct Hb as (su & Hb & Eu). apply nth_error_In in Ha. apply nth_error_In in Hb.
      exists su, sv. auto. }
    assert (Ht : cg_times k <> []).
    { intros X. pose proof (h_times _ _ _ _ _ k_holds) as Y. rewrite X in Y. destruct (fr_rows rates); [auto|discriminate]. }
    destruct (rank_shortest k AD label it Hit DRG surface gs important Hgs Ht Hl) as (rk & Hr & Hk & Hv).
    exists gs, rk. split; [exact Hgs|]. split; [exact Hr|]. split; [rewrite Hk; apply assessed_names|].
    intros x Hx Ox Nx. destruct (Hv (sp_name x)) as (o & Ho & Hnone & _).
    - rewrite (h_species _ _ _ _ _ k_holds). now apply in_map.
    - exact Nx.
    - intros X. apply (h_special _ _ _ _ _ k_holds) in X. destruct X as [X _], Ox. tauto.
    - exists o. split; [exact Ho|]. rewrite Hnone. split; (intros [N|N]; [now left|right]).
      + intros t y Hlt Hy Nyx. destruct (nth_error gs t) as [g|] eqn:Hg; [|apply nth_error_None in Hg; lia].
        specialize (N t g Hg). split; intros Inf; apply N.
        * exists (sp_name y). left. apply (He t g Hg); auto.
        * exists (sp_name y). right. apply (He t g Hg); auto.
      + intros t g Hg (u & Hu). assert (Hlt : (t < List.length (fr_rows rates))%nat) by (rewrite <- Hlen; apply nth_error_Some; congruence).
        destruct Hu as [Hu|Hu]; destruct (Hsp t g _ _ Hg Hu) as (sa & sb & Ha & Hb & Ea & Eb).
        * assert (sa = x) by (now apply names_inj). subst sa. rewrite <- Eb in Hu. apply (He t g Hg x sb Hx Hb) in Hu.
          destruct Hu as [Nab Inf]. destruct (N t sb Hlt Hb (fun e => Nab (eq_sym e))) as [N1 _]. auto.
        * assert (sb = x) by (now apply names_inj). subst sb. rewrite <- Ea in Hu. apply (He t g Hg sa x Ha Hx) in Hu.
          destruct Hu as [Nab Inf]. destruct (N t sa Hlt Ha Nab) as [_ N2]. auto.
  Qed.
End Rank.
