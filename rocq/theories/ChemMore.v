(** Further consequences, in the form used by PropsChemistry.v. *)
From Verif Require Import Base BaseLemmas Species Reactions Chemistry ChemSpec ChemDisable ChemInv ChemHist ChemLoad ChemMain ChemGetters.

Lemma subseq_map {A B} (f : A -> B) l m : subseq l m -> subseq (map f l) (map f m).
Proof. induction 1; cbn; constructor; auto. Qed.

(** What a user sees of the return coefficients of a species: the effective
    dictionary restricted to enabled species. *)
Lemma shown_ret_spec c s :
  (eff_ret c s = None /\ shown_ret c s = None) \/
  exists d d', eff_ret c s = Some d /\ shown_ret c s = Some d' /\ subseq d' d /\
    forall n f, In (n, f) d' <->
      In (n, f) d /\
      ((forall t, In t (c_species c) -> c_en c (sp_id t) = true) \/
       exists t, In t (c_species c) /\ c_en c (sp_id t) = true /\ sp_name t = n).
Proof.
  unfold shown_ret. destruct (eff_ret c s) as [d|]; [right|left; auto].
  assert (P : forall n, In n (name_pool c) <-> exists t, In t (c_species c) /\ c_en c (sp_id t) = true /\ sp_name t = n).
  { intros n. unfold name_pool. rewrite in_map_iff. split.
    - intros (t & Hn & Ht). apply selected_iff in Ht. exists t.
      destruct Ht as (H1 & [H2|H2] & _); [discriminate|]. auto.
    - intros (t & H1 & H2 & H3). exists t. split; [exact H3|]. apply selected_iff. auto 8. }
  destruct (any_disabled c) eqn:A.
  - exists d, (filter (fun nf => memS (fst nf) (name_pool c)) d). split; [reflexivity|]. split; [reflexivity|].
    split; [apply filter_subseq|]. intros n f. rewrite filter_In. cbn [fst]. rewrite memS_In, P.
    split; [tauto|]. intros [H1 [H2|H2]]; [|tauto]. apply any_disabled_true in A. destruct A as (t & T1 & T2).
    rewrite (H2 t T1) in T2. discriminate.
  - exists d, d. rewrite any_disabled_false in A. split; [reflexivity|]. split; [reflexivity|]. split.
    + clear. induction d; constructor; auto.
    + intros n f. split; [auto|tauto].
Qed.

(** The names shown are names of enabled species. *)
Lemma shown_names c s d n :
  Inv c -> declared_exist c -> In s (c_species c) -> shown_ret c s = Some d -> In n (map fst d) ->
  exists t, In t (c_species c) /\ c_en c (sp_id t) = true /\ sp_name t = n.
Proof.
  intros I D Hs Hd Hn. destruct (shown_ret_spec c s) as [[_ X]|(d0 & d1 & A1 & A2 & _ & A4)]; [congruence|].
  assert (d1 = d) by congruence. subst d1. apply in_map_iff in Hn. destruct Hn as ([m f] & E & Hn). cbn in E. subst m.
  apply A4 in Hn. destruct Hn as [H0 [Hall|H]]; [|exact H].
  assert (exists t, In t (c_species c) /\ sp_name t = n) as (t & T1 & T2); [|exists t; auto].
  unfold eff_ret in A1. destruct (eq_zero (eff_stick c s)); [inversion A1; subst; destruct H0|].
  destruct (zget (sp_id s) (c_ret c)) as [d2|] eqn:G.
  - inversion A1; subst. apply (aget_In Z.eqb Zeqb_spec) in G.
    assert (X : In n (map sp_name (c_species c))).
    { apply (i_ret_names c I _ _ n G). apply in_map_iff. exists (n, f). auto. }
    apply in_map_iff in X. destruct X as (t & T1 & T2). eauto.
  - apply (D s d0 n Hs A1). apply in_map_iff. exists (n, f). auto.
Qed.

(** ** reset forgets every disable *)
Definition only_disables (o : op) : Prop :=
  match o with ODisable _ _ | OReset => True | _ => False end.

Lemma reset_forgets E c ops :
  Inv c -> Forall only_disables ops -> reset (run E c ops) = reset c.
Proof.
  unfold run. intros I H. revert c I. induction H as [|o ops Ho H IH]; intros c I; cbn [fold_left]; [reflexivity|].
  rewrite IH.
  - destruct o; try destruct Ho; cbn [step fst].
    + apply reset_after_disable, I.
    + reflexivity.
  - apply step_Inv. exact I.
Qed.

(** ** The outcome of disable depends on the set of items requested only *)
Lemma disable_set c s1 r1 s2 r2 c1 :
  Inv c -> assert_consistency c = Ok tt ->
  (forall a, In a s2 -> exists s, denotes c a s) ->
  (forall s, asked_sp c s2 s <-> asked_sp c s1 s) -> (forall z, In z r2 <-> In z r1) ->
  disable c s1 r1 = (c1, Ok tt) ->
  exists c2, disable c s2 r2 = (c2, Ok tt) /\ same_state c1 c2.
Proof.
  intros I A D2 Hs Hr H1.
  pose proof (disable_closed c s1 r1 I c1 H1) as (O1 & O2 & O3 & O4 & O5 & O6 & O7 & O8).
  assert (OffE : asked_off c s1 r1 <-> asked_off c s2 r2).
  { unfold asked_off, asked_rx. split; intros [X Y]; split; intros; first [apply X|apply Y]; auto;
      first [now apply Hs|now apply Hr]. }
  assert (Ex : exists c2, disable c s2 r2 = (c2, Ok tt)).
  { apply (disable_succeeds_iff c s2 r2 I A). split; [exact D2|]. split.
    - intros z Hz. apply Hr in Hz. now apply O3.
    - assert (exists c', disable c s1 r1 = (c', Ok tt)) as X by eauto.
      apply (disable_succeeds_iff c s1 r1 I A) in X. destruct X as (_ & _ & [X|X]); [left; now apply OffE|right].
      destruct X as [X1 (S & R & X2 & X3 & X4 & X5)]. split; [intros s Q; apply X1, Hs, Q|].
      exists S, R. split; [exact X2|]. split; [|split].
      + intros s P Q. destruct (X3 s P Q) as [Y1 Y2]. split; [exact Y1|]. intros Z. apply Y2, Hs, Z.
      + intros r P Q. destruct (X4 r P Q) as [Y1 Y2]. split; [exact Y1|]. intros Z. apply Y2. unfold asked_rx in *. now apply Hr.
      + exact X5. }
  destruct Ex as (c2 & H2). exists c2. split; [exact H2|].
  pose proof (disable_closed c s2 r2 I c2 H2) as (P1 & P2 & P3 & P4 & P5 & P6 & P7 & P8).
  pose proof O7 as (Ok1 & Os & Or & _). pose proof P7 as (Pk & Ps & Pr & _).
  assert (M : forall i, In i (sp_ids c) -> c_en c2 i = c_en c1 i).
  { intros i Hi. apply in_map_iff in Hi. destruct Hi as (s & <- & Hin).
    destruct (disable_maximal c s2 r2 I c2 _ (on_sp c1) (on_r c1) H2) as [M1 _].
    { eapply subnetwork_same; [apply same_data_sym; exact O7|exact O4]. }
    { intros t _ Ht. split; [apply O5, Ht|]. intros X. apply Hs, O1 in X. unfold on_sp in Ht. congruence. }
    { intros t _ Ht. split; [apply O6, Ht|]. intros X. apply Hr, O3 in X. unfold on_r in Ht. destruct X; congruence. }
    destruct (disable_maximal c s1 r1 I c1 _ (on_sp c2) (on_r c2) H1) as [M2 _].
    { eapply subnetwork_same; [apply same_data_sym; exact P7|exact P4]. }
    { intros t _ Ht. split; [apply P5, Ht|]. intros X. apply Hs, P1 in X. unfold on_sp in Ht. congruence. }
    { intros t _ Ht. split; [apply P6, Ht|]. intros X. unfold asked_rx in X. apply Hr, P3 in X. unfold on_r in Ht. destruct X; congruence. }
    apply bool_eq_iff. split; intros X; [now apply M2|now apply M1]. }
  assert (MR : forall i, In i (r_ids c) -> c_enr c2 i = c_enr c1 i).
  { intros i Hi. apply in_map_iff in Hi. destruct Hi as (s & <- & Hin).
    destruct (disable_maximal c s2 r2 I c2 _ (on_sp c1) (on_r c1) H2) as [_ M1].
    { eapply subnetwork_same; [apply same_data_sym; exact O7|exact O4]. }
    { intros t _ Ht. split; [apply O5, Ht|]. intros X. apply Hs, O1 in X. unfold on_sp in Ht. congruence. }
    { intros t _ Ht. split; [apply O6, Ht|]. intros X. apply Hr, O3 in X. unfold on_r in Ht. destruct X; congruence. }
    destruct (disable_maximal c s1 r1 I c1 _ (on_sp c2) (on_r c2) H1) as [_ M2].
    { eapply subnetwork_same; [apply same_data_sym; exact P7|exact P4]. }
    { intros t _ Ht. split; [apply P5, Ht|]. intros X. apply Hs, P1 in X. unfold on_sp in Ht. congruence. }
    { intros t _ Ht. split; [apply P6, Ht|]. intros X. unfold asked_rx in X. apply Hr, P3 in X. unfold on_r in Ht. destruct X; congruence. }
    apply bool_eq_iff. split; intros X; [now apply M2|now apply M1]. }
  split; [|split].
  - eapply same_data_trans; [|exact P7]. apply same_data_sym. exact O7.
  - intros i Hi. unfold sp_ids in Hi. rewrite Os in Hi. split; [now apply M|]. split; [congruence|].
    assert (Hions : ions c2 = ions c1).
    { apply ions_same; [congruence|]. intros t Ht. rewrite Os in Ht. apply M. now apply in_map. }
    apply bool_eq_iff.
    destruct (disable_adprot c s1 r1 c1 I H1) as [[F1 ->]|[F1 G1]].
    + destruct (disable_adprot c s2 r2 c2 I H2) as [[F2 ->]|[F2 G2]]; [tauto|]. apply OffE in F1. contradiction.
    + destruct (disable_adprot c s2 r2 c2 I H2) as [[F2 _]|[F2 G2]]; [apply OffE in F2; contradiction|].
      rewrite G1, G2, Hions. tauto.
  - intros i Hi. unfold r_ids in Hi. rewrite Or in Hi. now apply MR.
Qed.

Lemma same_state_sym a b : same_state a b -> same_state b a.
Proof.
  intros (D & S & R). split; [now apply same_data_sym|]. destruct D as (_ & D1 & D2 & _).
  unfold sp_ids, r_ids in *. rewrite D1, D2. split.
  - intros i Hi. destruct (S i Hi) as (A & B & C). auto.
  - intros i Hi. symmetry. auto.
Qed.

Lemma same_state_trans a b c : same_state a b -> same_state b c -> same_state a c.
Proof.
  intros (D & S & R) (D' & S' & R'). split; [exact (same_data_trans _ _ _ D D')|].
  destruct D as (_ & D1 & D2 & _). unfold sp_ids, r_ids in *. rewrite D1, D2 in *. split.
  - intros i Hi. destruct (S i Hi) as (A & B & C). destruct (S' i Hi) as (A' & B' & C'). split; [congruence|]. split; congruence.
  - intros i Hi. rewrite R' by exact Hi. auto.
Qed.

Theorem disable_commute c s1 r1 s2 r2 c1 c2 :
  Inv c -> assert_consistency c = Ok tt ->
  (forall s, asked_sp c (s1 ++ s2) s -> ~ protected c s) ->
  disable c s1 r1 = (c1, Ok tt) -> disable c1 s2 r2 = (c2, Ok tt) ->
  exists d1 d2, disable c s2 r2 = (d1, Ok tt) /\ disable d1 s1 r1 = (d2, Ok tt) /\ same_state c2 d2.
Proof.
  intros I A HP H1 H2.
  destruct (disable_seq_union c s1 s2 r1 r2 I A c1 c2 HP H1 H2) as (c3 & H3 & E3).
  pose proof (disable_closed c _ _ I c3 H3) as (_ & Q2 & _).
  destruct (disable_set c (s1 ++ s2) (r1 ++ r2) (s2 ++ s1) (r2 ++ r1) c3 I A) as (d3 & K3 & E4).
  - intros a Ha. apply Q2. apply in_app_iff. apply in_app_iff in Ha. tauto.
  - intros s. rewrite !asked_app. tauto.
  - intros z. rewrite !in_app_iff. tauto.
  - exact H3.
  - assert (HP' : forall s, asked_sp c (s2 ++ s1) s -> ~ protected c s).
    { intros s Hs. apply HP. rewrite asked_app in *. tauto. }
    destruct (disable_union_seq c s2 s1 r2 r1 I A d3 HP' K3) as (d1 & d2 & K1 & K2).
    destruct (disable_seq_union c s2 s1 r2 r1 I A d1 d2 HP' K1 K2) as (d3' & K3' & E5).
    assert (d3' = d3) by congruence. subst d3'.
    exists d1, d2. split; [exact K1|]. split; [exact K2|].
    apply (same_state_trans _ c3); [exact E3|]. apply (same_state_trans _ d3); [exact E4|]. now apply same_state_sym.
Qed.

(** ** Rejected ad-hoc values *)
Lemma adhoc_rejected E c attrib r v c' e :
  Inv c -> declared_exist c -> set_adhoc_species E c attrib r v = (c', Err e) -> c' = c.
Proof.
  intros I D H. pose proof (set_adhoc_Inv E c attrib r v I) as I'. rewrite H in I'. cbn [fst] in I'.
  destruct (set_adhoc_species_cases E c attrib r v)
    as [(e0 & X)|[(s & x & _ & _ & _ & X)|(s & d & d' & _ & _ & _ & _ & _ & X)]]; rewrite X in H; [congruence| |];
    (assert (A : assert_consistency c' = Ok tt) by (apply consistent_declared; [exact I'|inversion H; subst; exact D]);
     inversion H; subst; congruence).
Qed.

Lemma adhoc_rx_rejected E c attrib i v c' e :
  step E c (OSetRx attrib i v) = (c', Err e) -> c' = c.
Proof.
  cbn [step]. unfold set_adhoc_reactions.
  destruct (negb (memZ i (r_ids c))); [congruence|]. destruct (negb _); [congruence|].
  destruct v as [x| |]; try congruence. destruct (type_in _ _); congruence.
Qed.

(** ** After a successful load the file is coherent with the chemistry *)
Lemma Forall2_same {A} (P : A -> A -> Prop) l : (forall x, In x l -> P x x) -> Forall2 P l l.
Proof. induction l as [|a l IH]; intros H; constructor; auto with datatypes. Qed.

Lemma floats_same E l l' : no_nan E l -> floats E l l' -> same_floats E l l'.
Proof.
  intros N (st & Hst & ->). unfold same_floats. revert st Hst. induction l as [|[i x] l IH]; intros st Hst; cbn in Hst.
  - inversion Hst; subst. constructor.
  - unfold to_float in Hst at 1. cbn [fst snd] in Hst. destruct (N i x) as (f & Hf & Hn); [now left|].
    rewrite Hf in Hst. cbn [bind] in Hst.
    destruct (mapM (to_float E) l) as [st'|] eqn:E'; cbn [bind] in Hst; [|discriminate]. inversion Hst; subst.
    cbn [map]. constructor.
    + cbn. split; [reflexivity|]. exists f, f. split; [exact Hf|]. split; [reflexivity|]. now apply feqb_refl.
    + apply IH; [|reflexivity]. intros j y Hj. apply (N j y). now right.
Qed.

Theorem load_then_coherent E fh c d f b :
  Inv c -> Inv d -> same_input c d -> c_xml c = c_xml d -> chemistry_attributes E fh d = Ok f ->
  c_xml d <> Some "" -> declared_exist c ->
  (forall i dd n, In (i, dd) (c_ret d) -> In n (map fst dd) ->
     exists s, In s (c_species d) /\ c_en d (sp_id s) = true /\ sp_name s = n) ->
  no_nan E (c_stick d) -> no_nan E (c_arrh d) ->
  (forall i dd, In (i, dd) (c_ret d) -> NoDup (map fst dd) /\ forall n x, In (n, x) dd -> x <> NaN) ->
  exists c', load E fh c f b = (c', Ok tt) /\ check_coherence E fh c' f = Ok true.
Proof.
  intros I I' SI HX HF HX' DE HR N1 N2 N3.
  destruct (load_round_trip E fh c d f b I I' SI HF) as (c' & L & S1 & S2 & S3 & S4 & S5 & S6); auto.
  exists c'. split; [exact L|].
  assert (SI' : same_input c' d).
  { destruct SI as (A & B & C), S1 as (A' & B' & C'). split; [congruence|]. split; congruence. }
  apply (check_coherence_spec E fh fh c' d f SI' HF). split; [exact S3|].
  split; [now apply floats_same|]. split; [|split; [now apply floats_same|]].
  - rewrite S5. apply Forall2_same. intros [i dd] Hi. split; [reflexivity|]. cbn [snd].
    destruct (N3 i dd Hi) as [ND NN]. split; [reflexivity|]. intros n x Hn. exists x. split.
    + apply (In_aget String.eqb Seqb_spec); auto.
    + apply feqb_refl. now apply (NN n).
  - rewrite S2, HX. split; [reflexivity|]. now apply dump_masks in HF.
Qed.

(** ** The lemmas above for reachable states *)
Lemma disable_closed_r E c : reachable E c -> forall ss rs c',
  disable c ss rs = (c', Ok tt) ->
  (forall a s, In a ss -> denotes c a s -> c_en c' (sp_id s) = false) /\
  (forall a, In a ss -> exists s, denotes c a s) /\
  (forall z, In z rs -> c_enr c' z = false /\ exists r, denotes_r c z r) /\
  closed c' /\
  (forall i, c_en c' i = true -> c_en c i = true) /\
  (forall i, c_enr c' i = true -> c_enr c i = true) /\
  same_data c c' /\ c_prot c' = c_prot c.
Proof.
  intros R ss rs c' H. destruct (disable_closed c ss rs (reachable_Inv E c R) c' H) as (A & B).
  split; [|exact B]. intros a s Ha Hs. apply A. exists a. auto.
Qed.

Lemma disable_failed_r E c : reachable E c -> forall ss rs c' e,
  assert_consistency c = Ok tt -> disable c ss rs = (c', Err e) ->
  c' = c /\ (e = ESpeciesNotPresent \/ e = EReactionNotPresent \/ e = EChemDisable).
Proof.
  intros R ss rs c' e A H. destruct (disable_failed c ss rs (reachable_Inv E c R) c' e H) as [X|[_ X]]; [exact X|congruence].
Qed.

Lemma consistent_r E c : reachable E c -> declared_exist c ->
  assert_consistency c = Ok tt /\ wf c /\ closed c /\ charge_ok c /\
  (forall s d n, In s (c_species c) -> shown_ret c s = Some d -> In n (map fst d) ->
     exists t, In t (c_species c) /\ c_en c (sp_id t) = true /\ sp_name t = n).
Proof.
  intros R D. pose proof (reachable_Inv E c R) as I. split; [now apply consistent_declared|].
  split; [apply I|]. split; [apply I|]. split; [apply I|]. intros s d n. now apply shown_names.
Qed.

Lemma reset_spec c :
  (forall i, c_en (reset c) i = true) /\ (forall i, c_enr (reset c) i = true) /\
  (forall i, c_adprot (reset c) i = false) /\ c_prot (reset c) = c_prot c /\ same_data c (reset c).
Proof. repeat split. Qed.

Lemma species_getters E c d sp pr :
  reachable E c ->
  let sel := get_species c d sp pr in
  (forall s, In s sel <->
     In s (c_species c) /\ (d = true \/ c_en c (sp_id s) = true) /\
     (sp = true \/ ~ In (sp_name s) ["e"; "M"]) /\ (pr = true \/ ~ protected c s)) /\
  subseq sel (c_species c) /\
  get_species_name c d sp pr = map (fun s => (sp_id s, sp_name s)) sel /\
  get_species_charge c d sp pr = map (fun s => (sp_id s, sp_charge s)) sel /\
  get_species_mass c d sp pr = map (fun s => (sp_id s, sp_mass s)) sel /\
  get_species_stick_coef c d sp pr = map (fun s => (sp_id s, eff_stick c s)) sel /\
  (forall s, In s sel -> zget (sp_id s) (get_species_ret_coefs c d sp pr) = Some (shown_ret c s)).
Proof.
  intros R sel. split; [apply selected_iff|]. split; [apply filter_subseq|]. do 3 (split; [reflexivity|]).
  split; [apply stick_values|]. intros s. apply ret_value. now apply (reachable_Inv E).
Qed.

Lemma reaction_getters c d :
  let sel := get_reactions c d in
  (forall r, In r sel <-> In r (c_reactions c) /\ (d = true \/ c_enr c (rx_id r) = true)) /\
  subseq sel (c_reactions c) /\
  get_reactions_arrh_a c d false = Ok (map (fun r => (rx_id r, eff_arrh c r)) sel).
Proof. split; [apply selected_r_iff|]. split; [apply filter_subseq|apply arrh_values]. Qed.

Lemma ret_index_iff E c d sp pr :
  reachable E c ->
  (map fst (get_species_ret_coefs c d sp pr) = map sp_id (get_species c d sp pr) <->
   (forall i, In i (map fst (c_ret c)) -> In i (map sp_id (get_species c d sp pr))) /\
   (forall s, In s (get_species c d sp true) -> eq_zero (eff_stick c s) = true -> In s (get_species c d sp pr))).
Proof.
  intros R. pose proof (reachable_Inv E c R) as I. split.
  - apply ret_rows_only, I.
  - intros H. now apply ret_rows.
Qed.
