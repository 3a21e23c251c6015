(** The arrays of the rate equations and the objects they come from. *)
From Coq Require Import Reals Qreals Lra.
From Verif Require Import Base BaseLemmas Species Reactions Chemistry ChemSpec ChemDisable ChemInv ChemHist ChemLoad ChemGetters
  MolSpec ReactionProofs ExtReal Equations Views ConserveSpec Conserve LinkSpec.
Open Scope Z_scope.

Lemma nth_map {A B} (f : A -> B) l k a : nth_error l k = Some a -> nth_error (map f l) k = Some (f a).
Proof. intros H. rewrite nth_error_map, H. reflexivity. Qed.

Lemma nth_mapM {A B} (f : A -> res B) l m k a : mapM f l = Ok m -> nth_error l k = Some a ->
  exists b, f a = Ok b /\ nth_error m k = Some b.
Proof.
  intros H. apply mapM_Ok_inv in H. revert k. induction H as [|x y l m Hx F IH]; intros [|k] Hk; try discriminate Hk.
  - cbn in Hk. injection Hk as <-. exists y. split; [exact Hx|reflexivity].
  - cbn in Hk |- *. apply IH, Hk.
Qed.

Lemma real_number x r : real_sc x = Ok r -> denotes_number x r.
Proof. destruct x as [|[]|z|[]|[]|s]; cbn; intros H; inversion H; constructor. Qed.

Lemma si_unit u q : sget u si_factors = Some q -> unit_in_si u (Q2R q).
Proof.
  intros H. cbn in H.
  destruct (String.eqb_spec u "s-1") as [->|_]; [injection H as <-; replace (Q2R 1) with 1%R by (unfold Q2R; cbn; lra); constructor|].
  destruct (String.eqb_spec u "m3.s-1") as [->|_]; [injection H as <-; replace (Q2R 1) with 1%R by (unfold Q2R; cbn; lra); constructor|].
  destruct (String.eqb_spec u "m6.s-1") as [->|_]; [injection H as <-; replace (Q2R 1) with 1%R by (unfold Q2R; cbn; lra); constructor|].
  destruct (String.eqb_spec u "cm3.s-1") as [->|_]; [injection H as <-; replace (Q2R (1 # 1000000)) with (/ 1000000)%R by (unfold Q2R; cbn; lra); constructor|].
  destruct (String.eqb_spec u "cm6.s-1") as [->|_]; [injection H as <-; replace (Q2R (1 # 1000000000000)) with (/ 1000000000000)%R by (unfold Q2R; cbn; lra); constructor|].
  discriminate.
Qed.

Section Links.
  Variables (E : env) (objs : list rp) (rxs : list reaction) (c : chem) (v : view).
  Hypothesis RE : reachable E c.
  Hypothesis OB : objects E objs rxs c.
  Hypothesis VO : view_of E objs c = Ok v.
  Let I : Inv c := reachable_Inv E c RE.

  Lemma times_occurrences r s side : In r (c_reactions c) -> In s (c_species c) -> (side = rx_lhs r \/ side = rx_rhs r) ->
    times s side = occurrences (sp_name s) side.
  Proof using RE.
    intros Hr Hs Hside. unfold times, occurrences. do 2 f_equal. apply filter_ext_in. intros t Ht.
    assert (Hin : In t (c_species c)).
    { apply (wf_inst c (i_wf c I) r t Hr). destruct Hside as [->| ->]; [now left|now right]. }
    destruct (string_dec (sp_name t) (sp_name s)) as [e|n].
    - rewrite (NoDup_map_inj sp_name (c_species c) t s (wf_names c (i_wf c I)) Hin Hs e). apply Z.eqb_refl.
    - apply Z.eqb_neq. intros e. apply n. now rewrite (NoDup_map_inj sp_id (c_species c) t s (wf_ids c (i_wf c I)) Hin Hs e).
  Qed.

  Lemma occurrences_absent r side n : In r (c_reactions c) -> (side = rx_lhs r \/ side = rx_rhs r) ->
    (forall s, In s (c_species c) -> sp_name s <> n) -> occurrences n side = 0.
  Proof using RE.
    intros Hr Hside H. unfold occurrences.
    rewrite (filter_ext_in _ (fun _ => false)); [clear; now induction side|].
    intros t Ht. destruct (string_dec (sp_name t) n) as [e|]; [|reflexivity].
    exfalso. apply (H t); [|exact e]. apply (wf_inst c (i_wf c I) r t Hr). destruct Hside as [->| ->]; [now left|now right].
  Qed.

  Lemma entry_occurrences m r s : In r (c_reactions c) -> In s (c_species c) ->
    stoich_entry m r (sp_id s) = match m with
      | Lhs => occurrences (sp_name s) (rx_lhs r)
      | Rhs => occurrences (sp_name s) (rx_rhs r)
      | Net => occurrences (sp_name s) (rx_rhs r) - occurrences (sp_name s) (rx_lhs r)
      end.
  Proof using RE.
    intros Hr Hs. rewrite stoich_times.
    destruct m; rewrite ?(times_occurrences r s (rx_lhs r)), ?(times_occurrences r s (rx_rhs r)); auto.
  Qed.

  Lemma active_in r : In r (get_reactions c false) -> In r (c_reactions c).
  Proof. intros H. unfold get_reactions in H. now apply filter_In in H. Qed.
  Lemma heavy_in s : In s (get_species c false false true) -> In s (c_species c).
  Proof. intros H. unfold get_species in H. now apply filter_In in H. Qed.

  Lemma electron_entries m l j r : c_kind c = Plain -> get_stoich_electron c false m = Ok l ->
    nth_error (get_reactions c false) j = Some r ->
    nth_error (map snd l) j = Some (match m with
      | Lhs => occurrences "e" (rx_lhs r)
      | Rhs => occurrences "e" (rx_rhs r)
      | Net => occurrences "e" (rx_rhs r) - occurrences "e" (rx_lhs r)
      end).
  Proof using RE.
    intros K G J. destruct (electron_spec c false m I K) as (e & l' & He & Hn & G' & L). rewrite G in G'. injection G' as ->.
    rewrite L. unfold by_reaction. rewrite map_map. rewrite (nth_map _ _ _ _ J). cbn [snd].
    pose proof (active_in r (nth_error_In _ _ J)) as Hr. rewrite <- Hn.
    destruct m; rewrite ?(times_occurrences r e (rx_lhs r)), ?(times_occurrences r e (rx_rhs r)); auto.
  Qed.

  Lemma third_body_entries j r : nth_error (get_reactions c false) j = Some r ->
    nth_error (map snd (get_stoich_arbitrary c false Lhs)) j = Some (occurrences "M" (rx_lhs r)).
  Proof using RE.
    intros J. destruct (arbitrary_spec c false Lhs I) as (A1 & A2).
    pose proof (active_in r (nth_error_In _ _ J)) as Hr.
    destruct (find (fun s => String.eqb (sp_name s) "M") (c_species c)) as [s|] eqn:F.
    - apply find_some in F as [Hs Hn]. apply String.eqb_eq in Hn. rewrite (A1 s Hs Hn).
      unfold by_reaction. rewrite map_map, (nth_map _ _ _ _ J). cbn [snd].
      rewrite (times_occurrences r s (rx_lhs r)), Hn; auto.
    - assert (N : forall s, In s (c_species c) -> sp_name s <> "M"%string).
      { intros s Hs Hn. pose proof (find_none _ _ F s Hs) as X. cbn beta in X. rewrite Hn in X. discriminate. }
      rewrite (A2 N). unfold by_reaction. rewrite map_map, (nth_map _ _ _ _ J). cbn [snd].
      rewrite (occurrences_absent r (rx_lhs r) "M"); auto.
  Qed.

  Lemma rate_entries l a j r : get_reactions_arrh_a c false true = Ok l -> mapM (fun kv => real_sc (snd kv)) l = Ok a ->
    nth_error (get_reactions c false) j = Some r ->
    exists x n u f, denotes_number (eff_arrh c r) n /\ x = (n * f)%R /\ rx_unit r = Some u /\ unit_in_si u f /\ nth_error a j = Some x.
  Proof using RE.
    intros G M J. unfold get_reactions_arrh_a in G.
    match type of G with bind ?m _ = _ => destruct m as [native|] eqn:Qn; [cbn [bind] in G|discriminate] end.
    match type of G with bind ?m _ = _ => destruct m as [ad|] eqn:Qa; [cbn [bind] in G|discriminate] end.
    injection G as <-.
    destruct (nth_mapM _ _ _ _ _ Qn J) as (kv & Hkv & Nkv). cbn beta in Hkv.
    destruct (rx_get_arrh_a true r) as [na|] eqn:Qna; cbn [bind] in Hkv; [|discriminate]. injection Hkv as <-.
    assert (Nu : nth_error (series_update native ad) j = Some
      (match zget (rx_id r) ad with Some w => if notna w then (rx_id r, w) else (rx_id r, scalar_of_opt na) | None => (rx_id r, scalar_of_opt na) end)).
    { unfold series_update. rewrite (nth_map _ _ _ _ Nkv). cbn [fst]. reflexivity. }
    destruct (nth_mapM _ _ _ _ _ M Nu) as (x & Hx & Nx). cbn beta in Hx.
    pose proof (active_in r (nth_error_In _ _ J)) as Hr.
    assert (Ad : match zget (rx_id r) (c_arrh c) with
                 | None => zget (rx_id r) ad = None
                 | Some w => exists q y, si_factor (rx_unit r) = Ok q /\ scalar_mul w q = Ok y /\ zget (rx_id r) ad = Some y
                 end).
    { clear -Qa Hr RE. apply mapM_Ok_inv in Qa. induction Qa as [|[i w] [i' y] l m H F IH]; [reflexivity|].
      cbn [fst snd] in H. destruct (get_reaction c i) as [r'|] eqn:Gr; cbn [bind] in H; [|discriminate].
      destruct (si_factor (rx_unit r')) as [q|] eqn:Sq; cbn [bind] in H; [|discriminate].
      destruct (scalar_mul w q) as [y'|] eqn:Sm; cbn [bind] in H; [|discriminate]. injection H as <- <-.
      unfold zget in *. cbn [aget]. destruct (Z.eqb_spec (rx_id r) i) as [e|]; [|exact IH].
      exists q, y'. split; [|split; [exact Sm|reflexivity]].
      assert (r' = r) as <-; [|exact Sq].
      unfold get_reaction in Gr. destruct (find _ (c_reactions c)) as [r0|] eqn:F0; [|discriminate]. injection Gr as ->.
      apply find_some in F0 as [H0 E0]. apply Z.eqb_eq in E0.
      apply (NoDup_map_inj rx_id (c_reactions c)); [apply (i_wf c (reachable_Inv E c RE))|exact H0|exact Hr|congruence]. }
    unfold eff_arrh.
    assert (Own : forall y, real_sc (scalar_of_opt na) = Ok y ->
      exists n u f, denotes_number (scalar_of_opt (rx_arrh_a r)) n /\ y = (n * f)%R /\ rx_unit r = Some u /\ unit_in_si u f).
    { intros y Hy. unfold rx_get_arrh_a in Qna. destruct (rx_arrh_a r) as [f|]; [|injection Qna as <-; discriminate].
      unfold si_factor in Qna. destruct (rx_unit r) as [u|]; cbn [bind] in Qna; [|discriminate].
      destruct (sget u si_factors) as [q|] eqn:Su; cbn [bind] in Qna; [|discriminate]. injection Qna as <-.
      destruct f as [qf| | |]; cbn in Hy; try discriminate.
      - exists (Q2R qf), u, (Q2R q). split; [constructor|]. split; [|split; [reflexivity|now apply si_unit]].
        injection Hy as <-. apply Q2R_mult.
      - destruct (Qsign q =? 0), (Qsign q >? 0); discriminate.
      - destruct (Qsign q =? 0), (Qsign q >? 0); discriminate. }
    destruct (zget (rx_id r) (c_arrh c)) as [w|].
    - destruct Ad as (q & y & Sq & Sm & Za). rewrite Za in Hx.
      assert (notna y = notna w) as Nn.
      { assert (Qsign q >? 0 = true /\ Qsign q =? 0 = false) as (S1 & S2).
        { unfold si_factor in Sq. destruct (rx_unit r) as [u|]; [|discriminate].
          destruct (sget u si_factors) as [q'|] eqn:Su; [|discriminate]. injection Sq as ->. cbn in Su.
          repeat (match type of Su with context [if ?t then _ else _] => destruct t end; [injection Su as <-; split; reflexivity|]). discriminate. }
        destruct w as [|b|z|f|f|s]; cbn [scalar_mul] in Sm; try discriminate; injection Sm as <-; try reflexivity;
          destruct f; cbn; rewrite ?S1, ?S2; reflexivity. }
      rewrite <- Nn. destruct (notna y) eqn:Ny.
      + cbn [snd] in Hx. unfold si_factor in Sq. destruct (rx_unit r) as [u|]; [|discriminate].
        destruct (sget u si_factors) as [q'|] eqn:Su; [|discriminate]. injection Sq as ->. pose proof (si_unit _ _ Su) as U.
        assert (Mul : forall p : Q, Ok (Q2R (p * q)) = Ok x -> x = (Q2R p * Q2R q)%R) by (intros p Hp; injection Hp as <-; apply Q2R_mult).
        destruct w as [|b|z|f|f|s]; cbn in Sm; try discriminate; injection Sm as <-; cbn in Hx.
        * exists x, (if b then 1 else 0)%R, u, (Q2R q). split; [destruct b; constructor|]. split; [|split; [reflexivity|split; [exact U|exact Nx]]].
          rewrite (Mul _ Hx). f_equal. destruct b; unfold Q2R; cbn; lra.
        * exists x, (IZR z), u, (Q2R q). split; [constructor|]. split; [|split; [reflexivity|split; [exact U|exact Nx]]].
          rewrite (Mul _ Hx). f_equal. unfold Q2R; cbn; lra.
        * destruct f as [qf| | |]; cbn in Hx; try discriminate; try (destruct (Qsign q =? 0), (Qsign q >? 0); discriminate).
          exists x, (Q2R qf), u, (Q2R q). split; [constructor|]. split; [exact (Mul _ Hx)|]. split; [reflexivity|split; [exact U|exact Nx]].
        * destruct f as [qf| | |]; cbn in Hx; try discriminate; try (destruct (Qsign q =? 0), (Qsign q >? 0); discriminate).
          exists x, (Q2R qf), u, (Q2R q). split; [constructor|]. split; [exact (Mul _ Hx)|]. split; [reflexivity|split; [exact U|exact Nx]].
      + cbn [snd] in Hx. destruct (Own x Hx) as (n & u & f & H1 & H2 & H3 & H4). exists x, n, u, f. auto.
    - rewrite Ad in Hx. cbn [snd] in Hx. destruct (Own x Hx) as (n & u & f & H1 & H2 & H3 & H4). exists x, n, u, f. auto.
  Qed.

  (** The whole of one reaction. *)
  Lemma view_reaction_parts ro x : view_reaction E ro = Ok x ->
    get_arrh_a E false ro = Ok (rx_arrh_a x) /\ rx_get_unit ro "arrh_a" = Ok (rx_unit x) /\
    get_arrh_bc E "arrh_b" ro = Ok (rx_arrh_b x) /\ get_arrh_bc E "arrh_c" ro = Ok (rx_arrh_c x) /\
    get_rx_float E "el_en_loss" ro = Ok (rx_el_en_loss x) /\ get_elastic ro = Ok (rx_elastic x).
  Proof using.
    unfold view_reaction. intros H.
    repeat match type of H with
    | bind ?m _ = _ => let Q := fresh "Q" in destruct m eqn:Q; [cbn [bind] in H|discriminate]
    end.
    injection H as <-. cbn [rx_arrh_a rx_unit rx_arrh_b rx_arrh_c rx_el_en_loss rx_elastic]. repeat split; reflexivity.
  Qed.

  Lemma reaction_linked j r : nth_error (get_reactions c false) j = Some r ->
    (exists n f u, denotes_number (eff_arrh c r) n /\ rx_unit r = Some u /\ unit_in_si u f /\ nth_error (v_a v) j = Some (n * f)%R) /\
    (exists ro b k l, In ro rxs /\ view_reaction E ro = Ok r /\
      get_arrh_bc E "arrh_b" ro = Ok (Some (Fin b)) /\ nth_error (v_b v) j = Some (Q2R b) /\
      get_arrh_bc E "arrh_c" ro = Ok (Some (Fin k)) /\ nth_error (v_c v) j = Some (Q2R k) /\
      get_rx_float E "el_en_loss" ro = Ok (Fin l) /\ nth_error (v_loss v) j = Some (Q2R l) /\
      exists el, get_elastic ro = Ok el /\ nth_error (v_elastic v) j = Some el) /\
    nth_error (v_m_lhs v) j = Some (occurrences "M" (rx_lhs r)) /\
    (c_kind c = Plain ->
      nth_error (v_e_lhs v) j = Some (occurrences "e" (rx_lhs r)) /\
      nth_error (v_e_net v) j = Some (occurrences "e" (rx_rhs r) - occurrences "e" (rx_lhs r))) /\
    exists row net, nth_error (v_lhs v) j = Some row /\ nth_error (v_net v) j = Some net /\
      forall i s, nth_error (get_species c false false true) i = Some s ->
        nth_error row i = Some (occurrences (sp_name s) (rx_lhs r)) /\
        nth_error net i = Some (occurrences (sp_name s) (rx_rhs r) - occurrences (sp_name s) (rx_lhs r)).
  Proof using RE OB VO.
    intros J. pose proof VO as H. unfold view_of in H.
    repeat match type of H with
    | bind ?m _ = _ => let Q := fresh "Q" in destruct m eqn:Q; [cbn [bind] in H|discriminate]
    end.
    injection H as <-. cbn [v_a v_b v_c v_loss v_elastic v_m_lhs v_e_lhs v_e_net v_lhs v_net].
    pose proof (active_in r (nth_error_In _ _ J)) as Hr.
    split; [|split; [|split; [|split]]].
    - destruct (rate_entries _ _ j r Q3 Q4 J) as (x & n & u & f & H1 & -> & H3 & H4 & H5). exists n, f, u. auto.
    - destruct (reaction_of E objs rxs c OB r Hr) as (ro & Hro & V). destruct (view_reaction_parts ro r V) as (_ & _ & Vb & Vc & Vl & Ve).
      unfold by_reaction in *.
      destruct (nth_mapM _ _ _ _ _ Q5 (nth_map (fun r => (rx_id r, rx_arrh_b r)) _ _ _ J)) as (b & Hb & Nb). cbn [snd] in Hb.
      destruct (nth_mapM _ _ _ _ _ Q6 (nth_map (fun r => (rx_id r, rx_arrh_c r)) _ _ _ J)) as (k & Hk & Nk). cbn [snd] in Hk.
      destruct (nth_mapM _ _ _ _ _ Q7 (nth_map (fun r => (rx_id r, rx_el_en_loss r)) _ _ _ J)) as (l & Hl & Nl). cbn [snd] in Hl.
      destruct (rx_arrh_b r) as [[qb| | |]|]; try discriminate Hb. destruct (rx_arrh_c r) as [[qc| | |]|]; try discriminate Hk.
      destruct (rx_el_en_loss r) as [ql| | |]; try discriminate Hl. injection Hb as <-. injection Hk as <-. injection Hl as <-.
      exists ro, qb, qc, ql. split; [exact Hro|]. split; [exact V|]. split; [exact Vb|]. split; [exact Nb|]. split; [exact Vc|].
      split; [exact Nk|]. split; [exact Vl|]. split; [exact Nl|]. exists (rx_elastic r). split; [exact Ve|].
      rewrite map_map. exact (nth_map _ _ _ _ J).
    - exact (third_body_entries j r J).
    - intros K. split; [exact (electron_entries Lhs _ j r K Q9 J)|exact (electron_entries Net _ j r K Q8 J)].
    - unfold get_stoichiomatrix. rewrite !map_map.
      eexists. eexists. split; [exact (nth_map _ _ _ _ J)|]. split; [exact (nth_map _ _ _ _ J)|].
      intros i s Hs. pose proof (heavy_in s (nth_error_In _ _ Hs)) as Hs'. cbn [snd]. rewrite !map_map. cbn [snd].
      rewrite !(nth_map _ _ _ _ Hs). rewrite (entry_occurrences Lhs r s Hr Hs'), (entry_occurrences Net r s Hr Hs'). auto.
  Qed.

  (** The whole of one species. *)
  Lemma species_linked i s : nth_error (get_species c false false true) i = Some s ->
    exists p q m g, In p objs /\ view_rp E p = Ok s /\ nth_error (v_names v) i = Some (sp_name s) /\
      get_name p = Ok (sp_name s) /\
      get_charge E p = Ok (Some q) /\ nth_error (v_charge v) i = Some q /\
      get_mass E p = Ok (Some (Fin m)) /\ nth_error (v_mass v) i = Some (Q2R m) /\
      get_lj_sigma E p = Ok (Some (Fin g)) /\ nth_error (v_sigma v) i = Some (Q2R g) /\
      exists k, denotes_number (eff_stick c s) k /\ nth_error (v_stick v) i = Some k.
  Proof using RE OB VO.
    intros J. pose proof VO as H. unfold view_of in H.
    repeat match type of H with
    | bind ?m _ = _ => let Q := fresh "Q" in destruct m eqn:Q; [cbn [bind] in H|discriminate]
    end.
    injection H as <-. cbn [v_names v_charge v_mass v_sigma v_stick].
    pose proof (heavy_in s (nth_error_In _ _ J)) as Hs.
    destruct (species_of E objs rxs c OB s Hs) as (p & Hp & V).
    pose proof (object_found E objs rxs c OB p s (or_introl Hp) Hs V) as Fd.
    assert (get_mass E p = Ok (sp_mass s)) as Vm.
    { clear -V. unfold view_rp in V. repeat match type of V with
      | bind ?m _ = _ => let Q := fresh "Q" in destruct m eqn:Q; [cbn [bind] in V|discriminate] end. now injection V as <-. }
    destruct (view_rp_inv E p s V) as (Vn & Vq & _).
    unfold get_species_charge, get_species_mass, by_species in *.
    destruct (nth_mapM _ _ _ _ _ Q (nth_map (fun s => (sp_id s, sp_charge s)) _ _ _ J)) as (q & Hq & Nq). cbn [snd] in Hq.
    destruct (nth_mapM _ _ _ _ _ Q0 (nth_map (fun s => (sp_id s, sp_mass s)) _ _ _ J)) as (m & Hm & Nm). cbn [snd] in Hm.
    destruct (nth_mapM _ _ _ _ _ Q1 J) as (g & Hg & Ng). unfold lj_sigma_of in Hg. rewrite Fd in Hg.
    destruct (get_lj_sigma E p) as [[[qg| | |]|]|] eqn:Gs; try discriminate Hg.
    destruct (sp_mass s) as [[qm| | |]|]; try discriminate Hm. destruct (sp_charge s) as [qq|]; try discriminate Hq.
    cbn in Hg, Hm, Hq. injection Hg as <-. injection Hm as <-. injection Hq as <-.
    exists p, qq, qm, qg. split; [exact Hp|]. split; [exact V|]. split; [unfold get_species_name, by_species; rewrite map_map; exact (nth_map _ _ _ _ J)|].
    split; [exact Vn|]. split; [exact Vq|]. split; [exact Nq|]. split; [exact Vm|]. split; [exact Nm|]. split; [first [exact Gs|reflexivity]|]. split; [exact Ng|].
    unfold get_species_stick_coef, series_update, by_species in Q2. rewrite map_map in Q2.
    destruct (nth_mapM _ _ _ _ _ Q2 (nth_map _ _ _ _ J)) as (k & Hk & Nk). exists k. split; [|exact Nk].
    apply real_number. rewrite <- Hk. f_equal. unfold eff_stick. cbn [fst snd].
    destruct (zget (sp_id s) (c_stick c)) as [w|]; [destruct (notna w)|]; reflexivity.
  Qed.
End Links.
