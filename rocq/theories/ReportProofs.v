(** The printed reports of processes. *)
From Coq Require Import Reals Qreals Lra Permutation Sorted.
From Verif Require Import Base BaseLemmas Species Reactions Chemistry ChemSpec ChemDisable ChemInv ChemHist ChemLoad ChemGetters
  MolSpec ExtReal Equations EqSpec EqPure EqDefaults EqReal EqWall EqMore Views ConserveSpec Conserve Rates RatesProofs Report ReportSpec.
Open Scope R_scope.

Lemma process_eqb_eq a b : process_eqb a b = true <-> a = b.
Proof. destruct a, b; cbn [process_eqb]; rewrite ?Z.eqb_eq; split; intros H; try congruence; discriminate. Qed.
Lemma repeated_NoDup l : repeated l = false <-> NoDup l.
Proof.
  induction l as [|x l IH]; cbn [repeated]; [split; [constructor|reflexivity]|]. rewrite Bool.orb_false_iff, IH. split.
  - intros [A B]. constructor; [|exact B]. intros I. assert (Q : existsb (process_eqb x) l = true).
    { apply existsb_exists. exists x. split; [exact I|]. apply process_eqb_eq. reflexivity. }
    congruence.
  - intros N. inversion N as [|? ? A B]; subst. split; [|exact B]. destruct (existsb (process_eqb x) l) eqn:Q; [|reflexivity].
    apply existsb_exists in Q. destruct Q as (y & I & Q). apply process_eqb_eq in Q. subst y. contradiction.
Qed.

Section Sort.
  Variable first : R -> R -> bool.
  Variable le : R -> R -> Prop.
  Hypothesis first_le : forall x y, first x y = true -> le x y.
  Hypothesis first_not : forall x y, first x y = false -> le y x.
  Hypothesis le_trans : forall x y z, le x y -> le y z -> le x z.
  Lemma put_line_perm x l : Permutation (put_line first x l) (x :: l).
  Proof.
    induction l as [|y l IH]; [reflexivity|]. cbn [put_line]. destruct (first (snd x) (snd y)); [reflexivity|].
    rewrite IH. apply perm_swap.
  Qed.
  Lemma sort_lines_perm l : Permutation (sort_lines first l) l.
  Proof.
    induction l as [|x l IH]; [reflexivity|]. change (sort_lines first (x :: l)) with (put_line first x (sort_lines first l)).
    rewrite put_line_perm, IH. reflexivity.
  Qed.
  Lemma put_line_sorted x l : StronglySorted (fun a b => le (snd a) (snd b)) l -> StronglySorted (fun a b : process * R => le (snd a) (snd b)) (put_line first x l).
  Proof.
    induction 1 as [|y l S IH F]; [repeat constructor|]. cbn [put_line].
    destruct (first (snd x) (snd y)) eqn:Q.
    - constructor; [constructor; assumption|]. constructor; [apply first_le, Q|]. eapply Forall_impl; [|exact F]. cbn beta.
      intros z Hz. eapply le_trans; [apply first_le, Q|exact Hz].
    - constructor; [exact IH|]. rewrite put_line_perm. constructor; [apply first_not, Q|exact F].
  Qed.
  Lemma sort_lines_sorted l : StronglySorted (fun a b => le (snd a) (snd b)) (sort_lines first l).
  Proof. induction l as [|x l IH]; [constructor|]. apply put_line_sorted, IH. Qed.
End Sort.

Lemma Rltb_iff x y : Rltb x y = true <-> x < y.
Proof. unfold Rltb. destruct (Rlt_dec x y); split; intros; try assumption; try reflexivity; try discriminate; contradiction. Qed.
Lemma Rleb_true x y : Rleb x y = true -> x <= y.
Proof. unfold Rleb. destruct (Rle_dec x y); [auto|discriminate]. Qed.
Lemma Rleb_false x y : Rleb x y = false -> y <= x.
Proof. unfold Rleb. destruct (Rle_dec x y); [discriminate|]. intros _. lra. Qed.

Definition both (v s : list (Z * R)) : list (process * R) :=
  (map (fun kv => (PVolume (fst kv), snd kv)) v ++ map (fun kv => (PSurface (fst kv), snd kv)) s)%list.

Lemma both_In v s p x : In (p, x) (both v s) <-> match p with PVolume i => In (i, x) v | PSurface i => In (i, x) s end.
Proof.
  unfold both. rewrite in_app_iff, !in_map_iff. split.
  - intros [([i y] & Q & I)|([i y] & Q & I)]; cbn [fst snd] in Q; injection Q as <- <-; exact I.
  - destruct p as [i|i]; intros I; [left|right]; exists (i, x); auto.
Qed.
Lemma both_NoDup v s : NoDup (map fst v) -> NoDup (map fst s) -> NoDup (map fst (both v s)).
Proof.
  intros V S. unfold both. rewrite map_app, !map_map. cbn [fst].
  rewrite <- (map_map fst PVolume), <- (map_map fst PSurface).
  assert (Inj : forall (f : Z -> process) l, (forall x y, f x = f y -> x = y) -> NoDup l -> NoDup (map f l)).
  { clear. intros f l Inj N. induction N as [|x l A N IH]; [constructor|]. cbn [map]. constructor; [|exact IH].
    intros I. apply in_map_iff in I. destruct I as (y & Q & I). apply Inj in Q. subst y. contradiction. }
  pose proof (Inj PVolume (map fst v) ltac:(congruence) V) as N1. pose proof (Inj PSurface (map fst s) ltac:(congruence) S) as N2.
  revert N1 N2. generalize (map fst v) as lv, (map fst s) as ls. clear. intros lv ls. induction lv as [|x lv IH]; intros N1 N2; [exact N2|].
  cbn [map app] in *. inversion N1 as [|? ? A B]; subst. constructor; [|apply IH; assumption].
  intros I. apply in_app_iff in I. destruct I as [I|I]; [contradiction|]. apply in_map_iff in I. destruct I as (y & Q & _). discriminate Q.
Qed.
Lemma both_sum v s : rsum (map snd (both v s)) = rsum (map snd v) + rsum (map snd s).
Proof. unfold both. rewrite map_app, rsum_app, !map_map. reflexivity. Qed.

Lemma all_ok c a radius len rates fluxes v s : get_volumetric_rates c a rates = Ok v -> get_surface_rates c a radius len fluxes = Ok s ->
  NoDup (map fst v) -> NoDup (map fst s) -> all_rates c a radius len rates fluxes = Ok (both v s).
Proof.
  intros V S NV NS. unfold all_rates. rewrite V, S. cbn [bind]. fold (both v s).
  rewrite (proj2 (repeated_NoDup _) (both_NoDup v s NV NS)). reflexivity.
Qed.

Lemma map_one (l : list (process * R)) : map (fun kv => (fst kv, snd kv * 1)) l = l.
Proof. induction l as [|[p x] l IH]; [reflexivity|]. cbn [map fst snd]. rewrite IH, Rmult_1_r. reflexivity. Qed.

Lemma slice_all {A} (l : list A) : slice (Z.of_nat (List.length l)) l = l.
Proof.
  unfold slice. destruct (Z.ltb_spec (Z.of_nat (List.length l)) 0); [lia|]. rewrite Nat2Z.id. apply firstn_all.
Qed.
Lemma slice_pos {A} n (l : list A) : (0 <= n)%Z -> slice n l = firstn (Z.to_nat n) l.
Proof. intros H. unfold slice. destruct (Z.ltb_spec n 0); [lia|reflexivity]. Qed.

Lemma sort_length first l : List.length (sort_lines first l) = List.length l.
Proof. apply Permutation_length, sort_lines_perm. Qed.

(** The whole report. *)
Section Whole.
  Variables (c : chem) (a : ref) (radius len : R) (rates : rates_row) (fluxes : flux_row) (v s : list (Z * R)).
  Hypothesis V : get_volumetric_rates c a rates = Ok v.
  Hypothesis S : get_surface_rates c a radius len fluxes = Ok s.
  Hypothesis NV : NoDup (map fst v).
  Hypothesis NS : NoDup (map fst s).

  Definition gains := sort_lines (fun x y => Rleb y x) (filter (fun kv => Rltb 0 (snd kv)) (both v s)).
  Definition losses := sort_lines Rleb (filter (fun kv => Rltb (snd kv) 0) (both v s)).

  Lemma gains_whole : print_production c a radius len rates fluxes None "m-3/s" = Ok (MkPrinted gains false).
  Proof.
    unfold print_production. rewrite (all_ok c a radius len rates fluxes v s V S NV NS). cbn [bind]. unfold print_some. cbn [unit_factor memS existsb String.eqb Ascii.eqb Bool.eqb orb bind].
    fold gains. rewrite map_one.
    replace (Z.of_nat (List.length (filter (fun kv => Rltb 0 (snd kv)) (both v s)))) with (Z.of_nat (List.length gains)) by (unfold gains; rewrite sort_length; reflexivity).
    rewrite slice_all, Z.ltb_irrefl. reflexivity.
  Qed.
  Lemma losses_whole : print_consumption c a radius len rates fluxes None "m-3/s" = Ok (MkPrinted losses false).
  Proof.
    unfold print_consumption. rewrite (all_ok c a radius len rates fluxes v s V S NV NS). cbn [bind]. unfold print_some. cbn [unit_factor memS existsb String.eqb Ascii.eqb Bool.eqb orb bind].
    fold losses. rewrite map_one.
    replace (Z.of_nat (List.length (filter (fun kv => Rltb (snd kv) 0) (both v s)))) with (Z.of_nat (List.length losses)) by (unfold losses; rewrite sort_length; reflexivity).
    rewrite slice_all, Z.ltb_irrefl. reflexivity.
  Qed.

  Lemma gains_In p x : In (p, x) gains <-> 0 < x /\ match p with PVolume i => In (i, x) v | PSurface i => In (i, x) s end.
  Proof.
    unfold gains. assert (Q : forall f l, In (p, x) (sort_lines f l) <-> In (p, x) l).
    { intros f l. split; apply Permutation_in; [|symmetry]; apply sort_lines_perm. }
    rewrite Q, filter_In, both_In. cbn [snd]. rewrite Rltb_iff. tauto.
  Qed.
  Lemma losses_In p x : In (p, x) losses <-> x < 0 /\ match p with PVolume i => In (i, x) v | PSurface i => In (i, x) s end.
  Proof.
    unfold losses. assert (Q : forall f l, In (p, x) (sort_lines f l) <-> In (p, x) l).
    { intros f l. split; apply Permutation_in; [|symmetry]; apply sort_lines_perm. }
    rewrite Q, filter_In, both_In. cbn [snd]. rewrite Rltb_iff. tauto.
  Qed.
  Lemma gains_sorted : StronglySorted (fun x y => snd y <= snd x) gains.
  Proof.
    unfold gains. apply (sort_lines_sorted _ (fun x y => y <= x)); intros; [apply Rleb_true|apply Rleb_false|lra]; assumption.
  Qed.
  Lemma losses_sorted : StronglySorted (fun x y => snd x <= snd y) losses.
  Proof.
    unfold losses. apply (sort_lines_sorted _ (fun x y => x <= y)); intros; [apply Rleb_true|apply Rleb_false|lra]; assumption.
  Qed.
  Lemma gains_NoDup : NoDup (map fst gains).
  Proof.
    unfold gains. apply (Permutation_NoDup (l := map fst (filter (fun kv => Rltb 0 (snd kv)) (both v s)))).
    - symmetry. apply Permutation_map, sort_lines_perm.
    - apply NoDup_map_filter, both_NoDup; assumption.
  Qed.
  Lemma losses_NoDup : NoDup (map fst losses).
  Proof.
    unfold losses. apply (Permutation_NoDup (l := map fst (filter (fun kv => Rltb (snd kv) 0) (both v s)))).
    - symmetry. apply Permutation_map, sort_lines_perm.
    - apply NoDup_map_filter, both_NoDup; assumption.
  Qed.
  Lemma lines_sum : rsum (map snd gains) + rsum (map snd losses) = rsum (map snd v) + rsum (map snd s).
  Proof.
    rewrite <- both_sum. unfold gains, losses.
    rewrite (rsum_perm _ _ (Permutation_map snd (sort_lines_perm (fun x y => Rleb y x) (filter (fun kv => Rltb 0 (snd kv)) (both v s))))).
    rewrite (rsum_perm _ _ (Permutation_map snd (sort_lines_perm Rleb (filter (fun kv => Rltb (snd kv) 0) (both v s))))).
    induction (both v s) as [|[p x] l IH]; cbn [filter map snd]; [unfold rsum; cbn; lra|].
    unfold rsum in *. unfold Rltb in *. destruct (Rlt_dec 0 x), (Rlt_dec x 0); cbn [map snd fold_right] in *; lra.
  Qed.

  (** A capped report, in any unit. *)
  Lemma gains_capped n u : print_production c a radius len rates fluxes n u =
    (let* f := unit_factor u in
     let k := match n with Some z => z | None => Z.of_nat (List.length gains) end in
     Ok (MkPrinted (map (fun kv => (fst kv, snd kv * f)) (slice k gains)) (k <? Z.of_nat (List.length gains))%Z)).
  Proof.
    unfold print_production. rewrite (all_ok c a radius len rates fluxes v s V S NV NS). cbn [bind]. unfold print_some.
    fold gains. replace (List.length (filter (fun kv => Rltb 0 (snd kv)) (both v s))) with (List.length gains) by (unfold gains; rewrite sort_length; reflexivity).
    reflexivity.
  Qed.
  Lemma losses_capped n u : print_consumption c a radius len rates fluxes n u =
    (let* f := unit_factor u in
     let k := match n with Some z => z | None => Z.of_nat (List.length losses) end in
     Ok (MkPrinted (map (fun kv => (fst kv, snd kv * f)) (slice k losses)) (k <? Z.of_nat (List.length losses))%Z)).
  Proof.
    unfold print_consumption. rewrite (all_ok c a radius len rates fluxes v s V S NV NS). cbn [bind]. unfold print_some.
    fold losses. replace (List.length (filter (fun kv => Rltb (snd kv) 0) (both v s))) with (List.length losses) by (unfold losses; rewrite sort_length; reflexivity).
    reflexivity.
  Qed.
End Whole.

Definition m3_units := ["m-3/s"; "m-3.s-1"; "m-3s-1"]%string.
Definition cm3_units := ["cm-3/s"; "cm-3.s-1"; "cm-3s-1"]%string.
Lemma unit_m3 u : In u m3_units -> unit_factor u = Ok 1.
Proof. intros I. unfold unit_factor. rewrite (proj2 (memS_In u ["m-3/s"; "m-3.s-1"; "m-3s-1"]%string) I). reflexivity. Qed.
Lemma unit_cm3 u : In u cm3_units -> unit_factor u = Ok (/ 10 ^ 6).
Proof. intros I. cbn in I. repeat destruct I as [<-|I]; try reflexivity. destruct I. Qed.
Lemma unit_other u : ~ In u (m3_units ++ cm3_units) -> unit_factor u = Err EKey.
Proof.
  intros N. unfold unit_factor. rewrite in_app_iff in N.
  destruct (memS u ["m-3/s"; "m-3.s-1"; "m-3s-1"]) eqn:A; [apply memS_In in A; tauto|].
  destruct (memS u ["cm-3/s"; "cm-3.s-1"; "cm-3s-1"]) eqn:B; [apply memS_In in B; tauto|]. reflexivity.
Qed.

Lemma ltb_nat n (l : list (process * R)) : (0 <= n)%Z -> (n <? Z.of_nat (List.length l))%Z = (Z.to_nat n <? List.length l)%nat.
Proof.
  intros H. destruct (Z.ltb_spec n (Z.of_nat (List.length l))), (Nat.ltb_spec (Z.to_nat n) (List.length l)); try reflexivity; lia.
Qed.
Lemma capped_intro print l :
  (forall n u, print n u = (let* f := unit_factor u in
     let k := match n with Some z => z | None => Z.of_nat (List.length l) end in
     Ok (MkPrinted (map (fun kv => (fst kv, snd kv * f)) (slice k l)) (k <? Z.of_nat (List.length l))%Z))) -> capped print l.
Proof.
  intros H. split; [|split; [|split; [|split]]].
  - intros u I. rewrite H, (unit_m3 u I). cbn [bind]. cbv zeta. rewrite slice_all, map_one, Z.ltb_irrefl. reflexivity.
  - intros u I. rewrite H, (unit_cm3 u I). cbn [bind]. cbv zeta. rewrite slice_all, Z.ltb_irrefl. reflexivity.
  - intros n u P I. rewrite H, (unit_m3 u I). cbn [bind]. cbv zeta. rewrite slice_pos, map_one, ltb_nat by exact P. reflexivity.
  - intros n u P I. rewrite H, (unit_cm3 u I). cbn [bind]. cbv zeta. rewrite slice_pos, ltb_nat by exact P. reflexivity.
  - intros n u N. rewrite H, (unit_other u N). reflexivity.
Qed.

Definition net_of (s : sp) (r : rx) : Z := (times s (rx_rhs r) - times s (rx_lhs r))%Z.

Section Reports.
  Variables (E : env) (c : chem) (a : ref) (s : sp) (rates : rates_row) (rs : list R) (fluxes : flux_row).
  Hypothesis RE : reachable E c.
  Hypothesis De : denotes c a s.
  Hypothesis Nr : NoDup (map fst rates).
  Hypothesis Lb : forall i, In (Some i) (map fst rates) <-> In i (map rx_id (get_reactions c false)).
  Hypothesis Rs : Forall2 (fun r x => In (Some (rx_id r), x) rates) (get_reactions c false) rs.

  Lemma report_gen radius len vl sl :
    get_volumetric_rates c a rates = Ok vl -> get_surface_rates c a radius len fluxes = Ok sl -> NoDup (map fst vl) -> NoDup (map fst sl) ->
    exists gl ll, capped (print_production c a radius len rates fluxes) gl /\ capped (print_consumption c a radius len rates fluxes) ll /\
      StronglySorted (fun x y => snd y <= snd x) gl /\ StronglySorted (fun x y => snd x <= snd y) ll /\
      NoDup (map fst gl) /\ NoDup (map fst ll) /\
      (forall q x, In (q, x) gl <-> 0 < x /\ match q with PVolume i => In (i, x) vl | PSurface i => In (i, x) sl end) /\
      (forall q x, In (q, x) ll <-> x < 0 /\ match q with PVolume i => In (i, x) vl | PSurface i => In (i, x) sl end) /\
      fold_right Rplus 0 (map snd gl) + fold_right Rplus 0 (map snd ll) = fold_right Rplus 0 (map snd vl) + fold_right Rplus 0 (map snd sl).
  Proof.
    intros V S NV NS. exists (gains vl sl), (losses vl sl).
    split; [apply capped_intro; intros; exact (gains_capped c a radius len rates fluxes vl sl V S NV NS n u)|].
    split; [apply capped_intro; intros; exact (losses_capped c a radius len rates fluxes vl sl V S NV NS n u)|].
    split; [apply gains_sorted|]. split; [apply losses_sorted|]. split; [apply gains_NoDup; assumption|]. split; [apply losses_NoDup; assumption|].
    split; [intros; apply gains_In|]. split; [intros; apply losses_In|]. apply lines_sum.
  Qed.

  (** Of a heavy species. *)
  Theorem report_heavy objs v K model p e y k ws ss sw :
    view_of E objs c = Ok v -> proper_params p -> eq_init K model v p = Ok e ->
    nth_error (get_species c false false true) k = Some s ->
    answers e (CVolume y (Some (map X rs))) (AVec (map X ss)) ->
    answers e (CFluxes y None None None) (AVec (map X ws)) -> List.length ws = List.length (v_names v) ->
    filter (fun kv => negb (String.eqb (fst kv) "t")) fluxes = combine (v_names v) ws ->
    answers e (CSurface y None None) (AVec (map X sw)) ->
    let ok_line (sign : R -> Prop) (q : process) (x : R) := sign x /\
      match q with
      | PVolume i => exists r z, In r (get_reactions c false) /\ rx_id r = i /\ In (Some i, z) rates /\ x = IZR (net_of s r) * z
      | PSurface i => exists j t, nth_error (get_species c false false true) j = Some t /\ sp_id t = i /\
          x = ((if Nat.eqb j k then 1 else 0) - returned v k j) * el ws j * area_of p / volume_of p
      end in
    exists gl ll, capped (print_production c a (p_radius p) (p_length p) rates fluxes) gl /\
      capped (print_consumption c a (p_radius p) (p_length p) rates fluxes) ll /\
      StronglySorted (fun x y => snd y <= snd x) gl /\ StronglySorted (fun x y => snd x <= snd y) ll /\
      NoDup (map fst gl) /\ NoDup (map fst ll) /\
      (forall q x, In (q, x) gl <-> ok_line (fun x => 0 < x) q x) /\
      (forall q x, In (q, x) ll <-> ok_line (fun x => x < 0) q x) /\
      fold_right Rplus 0 (map snd gl) + fold_right Rplus 0 (map snd ll) = el ss k + el sw k.
  Proof.
    intros VO PP IN Nk AV AF LW FR AS ok_line.
    assert (Hs : In s (heavy c)) by (eapply nth_error_In; exact Nk).
    assert (En : c_en c (sp_id s) = true).
    { rewrite heavy_live in Hs. apply filter_In in Hs. destruct Hs as [Hs _]. apply live_iff in Hs. tauto. }
    destruct (volumetric_report E c a s rates rs RE De En Nr Lb Rs) as (vl & V & _ & NV & IV & _).
    destruct (volumetric_source E c objs v K model p e y a s k rates rs ss RE VO IN De Nk Nr Lb Rs AV) as (vl' & V' & SV).
    rewrite V in V'. injection V' as <-.
    destruct (surface_source E c objs v K model p e y a s k fluxes ws sw RE VO PP IN De Nk AF LW FR AS) as (sl & S & SS).
    destruct (view_inv E objs c v VO) as (Vn & _ & _ & _ & _ & (m & GM & Rw)).
    assert (Sq : rm_rows m = map sp_id (get_species c false false true) /\ rm_cols m = map sp_id (get_species c false false true)).
    { apply square; [exact GM|]. apply mapM_length in Rw.
      pose proof (h_ret _ (shapes_iff _ (b_shapes _ _ _ _ _ (init_built K model v p e IN)))) as HR. rewrite Vn, map_length in HR. unfold heavy in HR. congruence. }
    destruct Sq as [MR MC].
    destruct (surface_ok E c objs v m a s k fluxes ws p RE VO De Nk GM MR MC LW FR) as (sl' & S' & IS & _). rewrite S in S'. injection S' as <-.
    pose proof (surface_list E c objs v m a s k fluxes ws p RE VO De Nk GM MR MC LW FR) as SL. rewrite S in SL. injection SL as SL.
    assert (NS : NoDup (map fst sl)).
    { rewrite SL. apply NoDup_map_filter. rewrite map_fst_combine by (rewrite !map_length, seq_length; reflexivity).
      unfold heavy, get_species. apply NoDup_map_filter. exact (wf_ids c (i_wf c (reachable_Inv E c RE))). }
    destruct (report_gen (p_radius p) (p_length p) vl sl V S NV NS) as (gl & ll & G & L & SG & SL' & NG & NL & IG & IL & Sm).
    assert (VL : forall i x, x <> 0 -> (In (i, x) vl <-> exists r z, In r (get_reactions c false) /\ rx_id r = i /\ In (Some i, z) rates /\ x = IZR (net_of s r) * z)).
    { intros i x Nx. rewrite IV. split; intros (r & z & A & B & C & D).
      - exists r, z. tauto.
      - exists r, z. split; [exact A|]. split; [exact B|]. split; [exact C|]. split; [|exact D].
        intros Q. unfold net_of in D. rewrite Q in D. apply Nx. rewrite D. ring. }
    assert (SLn : forall i x, x <> 0 -> (In (i, x) sl <-> exists j t, nth_error (get_species c false false true) j = Some t /\ sp_id t = i /\
        x = ((if Nat.eqb j k then 1 else 0) - returned v k j) * el ws j * area_of p / volume_of p)).
    { intros i x Nx. rewrite IS. split.
      - intros (_ & j & t & A & B & C). exists j, t. split; [exact A|]. split; [exact B|]. rewrite C. destruct (Nat.eqb j k); unfold Rdiv; ring.
      - intros (j & t & A & B & C). split; [exact Nx|]. exists j, t. split; [exact A|]. split; [exact B|]. rewrite C. destruct (Nat.eqb j k); unfold Rdiv; ring. }
    exists gl, ll. do 6 (split; [assumption|]). unfold ok_line. split; [|split; [|congruence]].
    - intros q x. rewrite IG. split; intros [P I]; (split; [exact P|]); destruct q; (apply VL || apply SLn); try lra; exact I.
    - intros q x. rewrite IL. split; intros [P I]; (split; [exact P|]); destruct q; (apply VL || apply SLn); try lra; exact I.
  Qed.

  (** Of the electrons. *)
  Theorem report_electrons objs v radius len :
    view_of E objs c = Ok v -> c_kind c = Plain -> sp_name s = "e"%string ->
    (forall n, In n (map sp_name (get_species c false false true)) <-> In n (map fst fluxes) /\ n <> "t"%string) ->
    exists gl ll, capped (print_production c a radius len rates fluxes) gl /\ capped (print_consumption c a radius len rates fluxes) ll /\
      StronglySorted (fun x y => snd y <= snd x) gl /\ StronglySorted (fun x y => snd x <= snd y) ll /\
      NoDup (map fst gl) /\ NoDup (map fst ll) /\
      (forall q x, In (q, x) gl <-> 0 < x /\ exists r z, q = PVolume (rx_id r) /\ In r (get_reactions c false) /\ In (Some (rx_id r), z) rates /\ x = IZR (net_of s r) * z) /\
      (forall q x, In (q, x) ll <-> x < 0 /\ exists r z, q = PVolume (rx_id r) /\ In r (get_reactions c false) /\ In (Some (rx_id r), z) rates /\ x = IZR (net_of s r) * z) /\
      fold_right Rplus 0 (map snd gl) + fold_right Rplus 0 (map snd ll) = Sum (List.length rs) (fun j => IZR (nth j (v_e_net v) 0%Z) * el rs j).
  Proof.
    intros VO Pl Hn Lf.
    assert (En : c_en c (sp_id s) = true).
    { pose proof (i_charge c (reachable_Inv E c RE)) as Q. unfold charge_ok in Q. rewrite Pl in Q. destruct Q as ((e & He & Ne & On) & _).
      destruct De as [Hs _]. assert (e = s) by (apply (NoDup_map_inj sp_name (c_species c)); auto; [apply (wf_names c (i_wf c (reachable_Inv E c RE)))|congruence]).
      subst e. exact On. }
    destruct (volumetric_report E c a s rates rs RE De En Nr Lb Rs) as (vl & V & _ & NV & IV & _).
    destruct (volumetric_electrons E c objs v a s rates rs RE Pl VO De Hn Nr Lb Rs) as (vl' & V' & SV). rewrite V in V'. injection V' as <-.
    assert (S : get_surface_rates c a radius len fluxes = Ok []).
    { apply (surface_special E c a s radius len fluxes RE De); [rewrite Hn; cbn; auto|exact Lf]. }
    destruct (report_gen radius len vl [] V S NV (NoDup_nil _)) as (gl & ll & G & L & SG & SL' & NG & NL & IG & IL & Sm).
    assert (VL : forall q x, x <> 0 -> (match q with PVolume i => In (i, x) vl | PSurface i => In (i, x) [] end <->
      exists r z, q = PVolume (rx_id r) /\ In r (get_reactions c false) /\ In (Some (rx_id r), z) rates /\ x = IZR (net_of s r) * z)).
    { intros [i|i] x Nx.
      - rewrite IV. split; intros (r & z & A & B & C & D).
        + exists r, z. rewrite B. tauto.
        + injection A as ->. exists r, z. split; [exact B|]. split; [reflexivity|]. split; [exact C|]. split; [|exact D].
          intros Q. unfold net_of in D. rewrite Q in D. apply Nx. rewrite D. ring.
      - split; [intros []|]. intros (r & z & A & _). discriminate A. }
    exists gl, ll. do 6 (split; [assumption|]). split; [|split; [|rewrite Sm, SV; cbn; ring]].
    - intros q x. rewrite IG. split; intros [P I]; (split; [exact P|]); apply VL; try lra; exact I.
    - intros q x. rewrite IL. split; intros [P I]; (split; [exact P|]); apply VL; try lra; exact I.
  Qed.
End Reports.
