(** dump, load, copy, check_coherence. *)
From Verif Require Import Base BaseLemmas Species Reactions Chemistry ChemSpec ChemDisable ChemInv ChemHist.
From Coq Require Import ZifyBool.

(** ** Masks after a load *)

Definition masks_agree (c d : chem) : Prop :=
  (forall i, In i (sp_ids c) ->
     c_en c i = c_en d i /\ c_prot c i = c_prot d i /\ c_adprot c i = c_adprot d i) /\
  (forall i, In i (r_ids c) -> c_enr c i = c_enr d i).

Lemma all_mem (p : Z -> bool) l : forallb (fun i => memZ i l) (filter p l) = true.
Proof. apply forallb_forall. intros x Hx. apply filter_In in Hx. apply memZ_In. tauto. Qed.

Lemma mset_filter p l b m i :
  In i l -> mset (filter p l) b m i = if p i then b else m i.
Proof.
  intros Hi. unfold mset. destruct (memZ i (filter p l)) eqn:E.
  - apply memZ_In, filter_In in E. destruct E as [_ ->]. reflexivity.
  - apply memZ_false in E. rewrite filter_In in E. destruct (p i); [tauto|reflexivity].
Qed.

Definition dumped (E : env) (d : chem) (f : cattrs) : Prop := exists fh, chemistry_attributes E fh d = Ok f.

Definition to_float (E : env) (kv : Z * scalar) : res (Z * flt) :=
  let* x := py_float E (snd kv) in Ok (fst kv, x).

Lemma dump_masks E fh d f :
  chemistry_attributes E fh d = Ok f ->
  a_en f = filter (c_en d) (sp_ids d) /\ a_dis f = filter (fun i => negb (c_en d i)) (sp_ids d) /\
  a_prot f = filter (c_prot d) (sp_ids d) /\ a_adprot f = Some (filter (c_adprot d) (sp_ids d)) /\
  a_enr f = filter (c_enr d) (r_ids d) /\ a_disr f = filter (fun i => negb (c_enr d i)) (r_ids d) /\
  a_path f = path_or_none (c_xml d) /\ xml_hash fh (path_or_none (c_xml d)) = Ok (a_hash f) /\
  exists st rx,
    mapM (to_float E) (c_stick d) = Ok st /\
    mapM (to_float E) (c_arrh d) = Ok rx /\
    a_sp f = map (fun kv => ("stick_coef", fst kv, VFlt (snd kv))) st ++
             map (fun kv => ("ret_coefs", fst kv, VDict (map (fun nf => (fst nf, SFlt (snd nf))) (snd kv)))) (c_ret d) /\
    a_rx f = map (fun kv => ("arrh_a", fst kv, VFlt (snd kv))) rx.
Proof.
  assert (M : forall (lbl : string) (l : list (Z * scalar)) (out : list (string * Z * pyval)),
    mapM (fun kv : Z * scalar => let* x := py_float E (snd kv) in Ok (lbl, fst kv, VFlt x)) l = Ok out ->
    exists st, mapM (to_float E) l = Ok st /\
               out = map (fun kv => (lbl, fst kv, VFlt (snd kv))) st).
  { intros lbl l. induction l as [|kv l IH]; cbn [mapM]; intros out H.
    - inversion H. exists []. auto.
    - unfold to_float at 1. destruct (py_float E (snd kv)) as [x|e]; cbn [bind] in *; [|discriminate].
      destruct (mapM (fun kv => let* x := py_float E (snd kv) in Ok (lbl, fst kv, VFlt x)) l) as [o|e] eqn:M; cbn [bind] in *; [|discriminate].
      inversion H; subst. destruct (IH o eq_refl) as (st & S1 & S2). rewrite S1. cbn [bind].
      exists ((fst kv, x) :: st). split; [reflexivity|]. cbn. now rewrite S2. }
  unfold chemistry_attributes. intros H.
  apply bind_Ok in H. destruct H as (st & H1 & H). cbn zeta in H.
  apply bind_Ok in H. destruct H as (rx & H2 & H).
  apply bind_Ok in H. destruct H as (h & H3 & H). inversion H; subst; cbn.
  apply M in H1, H2. destruct H1 as (st' & A1 & A2). destruct H2 as (rx' & B1 & B2).
  repeat (split; [reflexivity|]). split; [exact H3|]. exists st', rx'. rewrite A2, B2. auto.
Qed.

Lemma load_masks_ok E fh c d f :
  same_input c d -> chemistry_attributes E fh d = Ok f ->
  exists c1, load_masks c f = (c1, Ok tt) /\ same_data c c1 /\ masks_agree c1 d.
Proof.
  intros (Hk & Hs & Hr) H. apply dump_masks in H.
  destruct H as (E1 & E2 & E3 & E4 & E5 & E6 & _).
  assert (Is : sp_ids d = sp_ids c) by (unfold sp_ids; now rewrite Hs).
  assert (Ir : r_ids d = r_ids c) by (unfold r_ids; now rewrite Hr).
  rewrite Is in *. rewrite Ir in *.
  unfold load_masks, series_set. rewrite E1, E2, E3, E4, E5, E6. cbn [steps].
  rewrite !all_mem.
  eexists. split; [reflexivity|]. split; [repeat split|].
  split; intros i Hi; change (In i (sp_ids c)) in Hi || change (In i (r_ids c)) in Hi; cbn.
  - rewrite !mset_filter by exact Hi. destruct (c_en d i), (c_prot d i), (c_adprot d i); auto.
  - rewrite !mset_filter by exact Hi. destruct (c_enr d i); auto.
Qed.

Lemma ions_agree c d :
  c_species d = c_species c -> (forall i, In i (sp_ids c) -> c_en c i = c_en d i) -> ions c = ions d.
Proof.
  intros Hs He. symmetry. apply ions_same; [exact Hs|]. intros s H. symmetry. apply He. now apply in_map.
Qed.

(** The mask part of the invariant only depends on the masks at the ids. *)
Lemma Inv_agree c d :
  Inv d -> same_input c d -> masks_agree c d ->
  (NoDup (map fst (c_stick c)) /\ incl (map fst (c_stick c)) (sp_ids c)) ->
  (NoDup (map fst (c_ret c)) /\ incl (map fst (c_ret c)) (sp_ids c)) ->
  (NoDup (map fst (c_arrh c)) /\ incl (map fst (c_arrh c)) (r_ids c)) ->
  (forall i dd n, In (i, dd) (c_ret c) -> In n (map fst dd) -> In n (map sp_name (c_species c))) ->
  Inv c.
Proof.
  intros I (Hk & Hs & Hr) [M1 M2] A1 A2 A3 A4.
  assert (HE : forall s, In s (c_species c) -> c_en c (sp_id s) = c_en d (sp_id s))
    by (intros s H; apply M1; now apply in_map).
  assert (HR : forall r, In r (c_reactions c) -> c_enr c (rx_id r) = c_enr d (rx_id r))
    by (intros s H; apply M2; now apply in_map).
  assert (W : wf c) by (destruct (i_wf d I) as [W1 W2 W3 W4 W5]; rewrite Hs, Hr in *; split; auto).
  assert (HI : ions c = ions d) by (apply ions_agree; auto; intros i Hi; now apply M1).
  split; auto.
  - destruct (i_closed d I) as [C1 C2]. unfold on_sp, on_r in *. rewrite Hs, Hr in *.
    split; unfold on_sp, on_r.
    + intros r s H1 H2 H3. rewrite HE by (apply (wf_inst c W r); auto). rewrite HR in H2 by auto. eapply C1; eauto.
    + intros s H1 H2. rewrite HE in H2 by auto. destruct (C2 s H1 H2) as (r & R1 & R2 & R3).
      exists r. rewrite HR by auto. auto.
  - pose proof (i_charge d I) as Q. unfold charge_ok in *. rewrite Hk, Hs in Q. destruct (c_kind c).
    + destruct Q as [(s & S1 & S2 & S3) (s' & S1' & S2' & S3')]. split; [exists s|exists s']; rewrite HE; auto.
    + intros s S1 S2 S3. apply Q; auto. rewrite <- HE; auto.
  - pose proof (i_all d I) as Q. unfold subnetwork in *. rewrite Hs, Hr in Q. exact Q.
  - pose proof (i_neutral d I) as Q. rewrite Hk, Hs in Q. exact Q.
  - pose proof (i_eprot d I) as Q. rewrite Hk, Hs in Q. intros K. destruct (Q K) as (s & S1 & S2 & S3).
    exists s. repeat split; auto. rewrite <- S3. apply M1. now apply in_map.
  - pose proof (i_last d I) as Q. rewrite Hk in Q. intros K s X. rewrite HI in X. pose proof (Q K s X) as P.
    assert (Hin : In s (c_species c)).
    { assert (In s (ions d)) as Y by (rewrite X; now left). apply ions_In in Y. rewrite <- Hs. tauto. }
    unfold protected in *. destruct (M1 (sp_id s)) as (_ & -> & ->); [now apply in_map|exact P].
  - pose proof (i_last_all d I) as Q. rewrite Hk, Hs in Q. intros K s X1 X2 X3.
    destruct (M1 (sp_id s)) as (_ & -> & _); [now apply in_map|]. apply (Q K s); auto.
Qed.

Lemma steps_inv {A} (f : chem -> A -> chem * res unit) (P : chem -> Prop) l c :
  (forall c a, P c -> P (fst (f c a))) -> P c -> P (fst (steps f c l)).
Proof.
  intros Hf. revert c. induction l as [|a l IH]; cbn; intros c Hc; [exact Hc|].
  specialize (Hf c a Hc). destruct (f c a) as [c' [u|e]]; cbn in *; auto.
Qed.

Lemma load_Inv E fh fh' c d f b :
  Inv c -> Inv d -> same_input c d -> chemistry_attributes E fh d = Ok f ->
  Inv (fst (load E fh' c f b)).
Proof.
  intros Ic Id Hsi Hf. unfold load.
  destruct (if b then _ else _) as [u|e]; [|exact Ic].
  destruct (load_masks_ok E fh c d f Hsi Hf) as (c1 & L & Hd & Hm). rewrite L.
  assert (Hs1 : same_input c1 d).
  { destruct Hsi as (A & B & C), Hd as (A' & B' & C' & _). repeat split; congruence. }
  assert (I1 : Inv c1).
  { pose proof (i_stick c Ic). pose proof (i_ret c Ic). pose proof (i_arrh c Ic). pose proof (i_ret_names c Ic).
    destruct Hd as (_ & Hs & Hr & _ & Hst & Hrt & Har).
    apply (Inv_agree c1 d Id Hs1 Hm); unfold sp_ids, r_ids in *; rewrite ?Hs, ?Hr, ?Hst, ?Hrt, ?Har; auto. }
  set (c2 := with_ret (with_stick c1 []) []).
  assert (I2 : Inv c2) by (exact (reset_sp_Inv c1 "all" I1)).
  destruct (steps _ c2 (a_sp f)) as [c3 [u'|e]] eqn:S.
  - assert (I3 : Inv c3).
    { replace c3 with (fst (steps (fun c t => set_adhoc_species E c (fst (fst t)) (RId (snd (fst t))) (snd t)) c2 (a_sp f))) by (rewrite S; reflexivity).
      apply steps_inv; [|exact I2]. intros; now apply set_adhoc_Inv. }
    set (c4 := with_arrh c3 []).
    assert (I4 : Inv c4) by (exact (reset_rx_Inv c3 "all" I3)).
    destruct (steps _ c4 (a_rx f)) as [c5 [u''|e]] eqn:S'.
    + cbn. replace c5 with (fst (steps (fun c t => set_adhoc_reactions c (fst (fst t)) (snd (fst t)) (snd t)) c4 (a_rx f))) by (rewrite S'; reflexivity).
      apply steps_inv; [|exact I4]. intros; now apply set_rx_Inv.
    + cbn. replace c5 with (fst (steps (fun c t => set_adhoc_reactions c (fst (fst t)) (snd (fst t)) (snd t)) c4 (a_rx f))) by (rewrite S'; reflexivity).
      apply steps_inv; [|exact I4]. intros; now apply set_rx_Inv.
  - cbn. replace c3 with (fst (steps (fun c t => set_adhoc_species E c (fst (fst t)) (RId (snd (fst t))) (snd t)) c2 (a_sp f))) by (rewrite S; reflexivity).
    apply steps_inv; [|exact I2]. intros; now apply set_adhoc_Inv.
Qed.

(** ** copy *)

Lemma init_fields k species reactions xml c :
  init k species reactions xml = Ok c ->
  c_kind c = k /\ c_species c = species /\ c_reactions c = reactions /\ c_xml c = xml /\
  c_en c = (fun _ => true) /\ c_adprot c = (fun _ => false) /\ c_enr c = (fun _ => true) /\
  c_stick c = [] /\ c_ret c = [] /\ c_arrh c = [].
Proof.
  intros H. apply init_cases in H. cbn zeta in H. destruct H as (_ & _ & _ & H).
  destruct H as [[_ ->]|(_ & e & _ & H)]; [repeat split|].
  destruct (ions _) as [|ion [|]].
  - subst c. repeat split.
  - destruct H as (s & _ & ->). repeat split.
  - subst c. repeat split.
Qed.

Lemma copy_fields c c' :
  copy c = Ok c' ->
  c' = MkChem Plain (c_species c) (c_reactions c) (c_xml c) (c_en c) (c_prot c) (c_adprot c)
              (c_enr c) (c_stick c) (c_ret c) (c_arrh c).
Proof.
  unfold copy. intros H. apply bind_Ok in H. destruct H as (c0 & H0 & H). apply (f_equal (fun x => match x with Ok y => y | Err _ => c' end)) in H.
  apply init_fields in H0. destruct H0 as (A & B & C & D & _). rewrite <- H. clear H.
  destruct c0. cbn in A, B, C, D. rewrite A, B, C, D. reflexivity.
Qed.

Lemma copy_Plain c c' : Inv c -> copy c = Ok c' -> c_kind c = Plain.
Proof.
  intros I H. unfold copy in H. apply bind_Ok in H. destruct H as (c0 & H0 & _).
  destruct (c_kind c) eqn:K; [reflexivity|]. exfalso.
  pose proof (i_neutral c I K) as N.
  apply init_cases in H0. cbn zeta in H0. destruct H0 as (_ & _ & A & _).
  unfold assert_consistency in A. cbn [c_kind fresh] in A. unfold assert_consistency_base in A.
  cbn [c_kind fresh requires_charge] in A. rewrite unit_bind in A. destruct A as [A _].
  rewrite raise_bind, raise_if_Ok, !negb_false_iff in A. destruct A as [_ A].
  apply existsb_exists in A. destruct A as (s & Hs & Hp). apply In_get_species in Hs.
  destruct Hs as (Hs & _ & Hsp). cbn in Hs. unfold positive in Hp. rewrite (N s Hs) in Hp; [discriminate|].
  apply memS_false. exact Hsp.
Qed.

Lemma copy_same c c' : Inv c -> copy c = Ok c' -> c' = c.
Proof.
  intros I H. pose proof (copy_Plain c c' I H) as K. apply copy_fields in H. subst c'.
  rewrite <- K. apply chem_eta.
Qed.

(** ** Every reachable state satisfies the invariant *)

Theorem reachable_Inv E c : reachable E c -> Inv c.
Proof.
  intros H. induction H as [k species reactions xml c Hh Hi|c o Hc IH|c c' Hc IH Hcp|fh fh' c d f b Hc IHc Hd IHd Hsi Hf].
  - eapply init_Inv; eauto.
  - now apply step_Inv.
  - now rewrite (copy_same c c').
  - eapply load_Inv; eauto.
Qed.

(** ** Return species *)

Lemma fold_zset_In {V} (l : list (Z * V)) (p : V -> bool) (g : V -> option (list (string * flt))) base x :
  In x (fold_left (fun acc kv => if p (snd kv) then zset (fst kv) (g (snd kv)) acc else acc) l base) ->
  In x base \/ exists kv, In kv l /\ p (snd kv) = true /\ x = (fst kv, g (snd kv)).
Proof.
  revert base. induction l as [|kv l IH]; cbn; intros base H; [auto|].
  apply IH in H. destruct H as [H|(kv' & H1 & H2)].
  - destruct (p (snd kv)) eqn:P; [|auto].
    apply zset_In in H. destruct H as [->|H]; [right; exists kv; auto|auto].
  - right. exists kv'. auto.
Qed.

(** Where an entry of get_species_ret_coefs can come from. *)
Lemma ret_coefs_origin c disabled special protected i d n :
  In (i, Some d) (get_species_ret_coefs c disabled special protected) -> In n (map fst d) ->
  (exists s d', In s (c_species c) /\ sp_id s = i /\ sp_ret s = Some d' /\ In n (map fst d')) \/
  (exists d', In (i, d') (c_ret c) /\ In n (map fst d')).
Proof.
  unfold get_species_ret_coefs. intros H Hn.
  set (base := by_species sp_ret c disabled special protected) in *.
  set (wad := fold_left (fun acc kv => zset (fst kv) (Some (snd kv)) acc) (c_ret c) base) in *.
  set (zeroed := fold_left (fun acc kv => if eq_zero (snd kv) then zset (fst kv) (Some []) acc else acc)
                           (get_species_stick_coef c disabled special true) wad) in *.
  assert (Z : exists d0, In (i, Some d0) zeroed /\ In n (map fst d0)).
  { destruct (any_disabled c).
    - apply in_map_iff in H. destruct H as ([j [d'|]] & E & Hj); cbn in E; inversion E; subst.
      exists d'. split; [exact Hj|]. apply in_map_iff in Hn. destruct Hn as (nf & <- & Hn).
      apply filter_In in Hn. apply in_map. tauto.
    - exists d. auto. }
  destruct Z as (d0 & Hz & Hn0). clear H Hn d.
  apply (fold_zset_In (get_species_stick_coef c disabled special true) eq_zero (fun _ => Some [])) in Hz.
  destruct Hz as [Hz|(kv & _ & _ & E)]; [|inversion E; subst; destruct Hn0].
  apply (fold_zset_In (c_ret c) (fun _ => true) Some) in Hz.
  destruct Hz as [Hz|(kv & K1 & _ & E)].
  - left. apply in_map_iff in Hz. destruct Hz as (s & E & Hs). inversion E; subst.
    apply filter_In in Hs. exists s, d0. tauto.
  - right. inversion E; subst. exists (snd kv). split; [|exact Hn0]. destruct kv; exact K1.
Qed.

Lemma ret_ok_declared c : Inv c -> declared_exist c -> ret_ok c.
Proof.
  intros I H2. destruct (any_disabled c) eqn:D; [now apply ret_ok_some_disabled|].
  intros i d n Hi Hn.
  assert (exists s, In s (c_species c) /\ sp_name s = n) as (s & S1 & S2).
  { destruct (ret_coefs_origin c false true true i d n Hi Hn) as [(s & d' & A1 & _ & A3 & A4)|(d' & A1 & A2)].
    - eapply H2; eauto.
    - pose proof (i_ret_names c I i d' n A1 A2) as X. apply in_map_iff in X. destruct X as (s & <- & X). eauto. }
  exists s. rewrite any_disabled_false in D. auto.
Qed.

Lemma consistent_declared c : Inv c -> declared_exist c -> assert_consistency c = Ok tt.
Proof.
  intros I H. apply assert_ok_iff; [apply I|]. split; [apply I|]. split; [apply I|now apply ret_ok_declared].
Qed.

(** ** The round trip *)

Lemma zset_notin {V} k (v : V) d : ~ In k (map fst d) -> zset k v d = d ++ [(k, v)].
Proof.
  induction d as [|[k' v'] d IH]; cbn; intros H; [reflexivity|].
  destruct (Z.eqb_spec k k') as [->|Hn]; [tauto|]. f_equal. apply IH. tauto.
Qed.

Lemma with_stick_twice c a b : with_stick (with_stick c a) b = with_stick c b.
Proof. reflexivity. Qed.
Lemma with_ret_twice c a b : with_ret (with_ret c a) b = with_ret c b.
Proof. reflexivity. Qed.

Definition load_sp E := fun c (t : string * Z * pyval) =>
  set_adhoc_species E c (fst (fst t)) (RId (snd (fst t))) (snd t).
Definition load_rx := fun c (t : string * Z * pyval) =>
  set_adhoc_reactions c (fst (fst t)) (snd (fst t)) (snd t).

Lemma get_rp_id c i : wf c -> In i (sp_ids c) -> exists s, get_rp c (RId i) = Ok s /\ sp_id s = i.
Proof.
  intros W Hi. apply in_map_iff in Hi. destruct Hi as (s & E & Hs). exists s. split; [|exact E].
  apply get_rp_denotes; auto. split; auto.
Qed.

Lemma steps_stick E l : forall c,
  Inv c -> declared_exist c -> NoDup (map fst (c_stick c) ++ map fst l) -> incl (map fst l) (sp_ids c) ->
  steps (load_sp E) c (map (fun kv => ("stick_coef", fst kv, VFlt (snd kv))) l)
  = (with_stick c (c_stick c ++ map (fun kv => (fst kv, SFlt (snd kv))) l), Ok tt).
Proof.
  induction l as [|[i x] l IH]; intros c I H2 Hnd Hin.
  - cbn. rewrite app_nil_r. unfold with_stick. now rewrite chem_eta.
  - cbn [map steps]. unfold load_sp at 1. cbn [fst snd].
    destruct (get_rp_id c i (i_wf c I)) as (s & G & Es); [apply Hin; now left|].
    pose proof (set_adhoc_Inv E c "stick_coef" (RId i) (VFlt x) I) as I'.
    assert (SE : set_adhoc_species E c "stick_coef" (RId i) (VFlt x) =
                 (with_stick c (c_stick c ++ [(i, SFlt x)]), Ok tt)).
    { assert (ZN : zset i (SFlt x) (c_stick c) = c_stick c ++ [(i, SFlt x)]).
      { apply zset_notin. intros X. apply NoDup_remove_2 in Hnd. apply Hnd, in_or_app. now left. }
      unfold set_adhoc_species in *. rewrite G in *. cbn in I' |- *. rewrite Es, ZN in *.
      rewrite consistent_declared; auto. }
    rewrite SE in *. cbn [fst] in I'. rewrite IH; auto.
    + cbn [c_stick with_stick]. rewrite <- app_assoc. reflexivity.
    + cbn [c_stick with_stick]. rewrite map_app, <- app_assoc. exact Hnd.
    + intros j Hj. apply Hin. now right.
Qed.

Lemma mapM_floats E (d : list (string * flt)) :
  mapM (fun kv => let* f := py_float E (snd kv) in Ok (fst kv, f)) (map (fun nf => (fst nf, SFlt (snd nf))) d) = Ok d.
Proof.
  induction d as [|[n f] d IH]; cbn; [reflexivity|]. rewrite IH. reflexivity.
Qed.

Lemma steps_ret E l : forall c,
  Inv c -> declared_exist c -> NoDup (map fst (c_ret c) ++ map fst l) -> incl (map fst l) (sp_ids c) ->
  (forall i d n, In (i, d) l -> In n (map fst d) -> In n (name_pool c)) ->
  steps (load_sp E) c (map (fun kv => ("ret_coefs", fst kv, VDict (map (fun nf => (fst nf, SFlt (snd nf))) (snd kv)))) l)
  = (with_ret c (c_ret c ++ l), Ok tt).
Proof.
  induction l as [|[i x] l IH]; intros c I H2 Hnd Hin Hnm.
  - cbn. rewrite app_nil_r. unfold with_ret. now rewrite chem_eta.
  - cbn [map steps]. unfold load_sp at 1. cbn [fst snd].
    destruct (get_rp_id c i (i_wf c I)) as (s & G & Es); [apply Hin; now left|].
    pose proof (set_adhoc_Inv E c "ret_coefs" (RId i) (VDict (map (fun nf => (fst nf, SFlt (snd nf))) x)) I) as I'.
    assert (SE : set_adhoc_species E c "ret_coefs" (RId i) (VDict (map (fun nf => (fst nf, SFlt (snd nf))) x)) =
                 (with_ret c (c_ret c ++ [(i, x)]), Ok tt)).
    { unfold set_adhoc_species in *. rewrite G in *. cbn [memS existsb String.eqb Ascii.eqb Bool.eqb orb negb type_in type_of rp_attr_types pytype_eqb] in *.
      assert (SS : subsetS (akeys (map (fun nf : string * flt => (fst nf, SFlt (snd nf))) x)) (name_pool c) = true).
      { apply subsetS_incl. intros n Hn. apply (Hnm i x n); [now left|].
        unfold akeys in Hn. rewrite map_map in Hn. exact Hn. }
      assert (ZN : zset i x (c_ret c) = c_ret c ++ [(i, x)]).
      { apply zset_notin. intros X. apply NoDup_remove_2 in Hnd. apply Hnd, in_or_app. now left. }
      rewrite SS, mapM_floats in *. cbn [negb] in *. rewrite Es, ZN in *.
      cbn [fst] in I'. rewrite consistent_declared; auto. }
    rewrite SE in *. cbn [fst] in I'. rewrite IH; auto.
    + cbn [c_ret with_ret]. rewrite <- app_assoc. reflexivity.
    + cbn [c_ret with_ret]. rewrite map_app, <- app_assoc. exact Hnd.
    + intros j Hj. apply Hin. now right.
    + intros j d n Hj Hn. apply (Hnm j d n); [now right|exact Hn].
Qed.

Lemma steps_arrh l : forall c,
  NoDup (map fst (c_arrh c) ++ map fst l) -> incl (map fst l) (r_ids c) ->
  steps load_rx c (map (fun kv => ("arrh_a", fst kv, VFlt (snd kv))) l)
  = (with_arrh c (c_arrh c ++ map (fun kv => (fst kv, SFlt (snd kv))) l), Ok tt).
Proof.
  induction l as [|[i x] l IH]; intros c Hnd Hin.
  - cbn. rewrite app_nil_r. unfold with_arrh. now rewrite chem_eta.
  - cbn [map steps]. unfold load_rx at 1. cbn [fst snd].
    assert (SE : set_adhoc_reactions c "arrh_a" i (VFlt x) = (with_arrh c (c_arrh c ++ [(i, SFlt x)]), Ok tt)).
    { unfold set_adhoc_reactions. assert (M : memZ i (r_ids c) = true) by (apply memZ_In, Hin; now left).
      rewrite M. cbn. rewrite zset_notin; [reflexivity|].
      intros X. apply NoDup_remove_2 in Hnd. apply Hnd, in_or_app. now left. }
    rewrite SE. rewrite IH.
    + cbn [c_arrh with_arrh]. rewrite <- app_assoc. reflexivity.
    + cbn [c_arrh with_arrh]. rewrite map_app, <- app_assoc. exact Hnd.
    + intros j Hj. apply Hin. now right.
Qed.

Lemma steps_app {A} (f : chem -> A -> chem * res unit) l m c :
  steps f c (l ++ m) = match steps f c l with
                       | (c', Ok _) => steps f c' m
                       | (c', Err e) => (c', Err e)
                       end.
Proof.
  revert c. induction l as [|a l IH]; cbn; intros c; [reflexivity|].
  destruct (f c a) as [c' [u|e]]; [apply IH|reflexivity].
Qed.

Lemma mapM_py_fst E (l : list (Z * scalar)) st :
  mapM (to_float E) l = Ok st -> map fst st = map fst l.
Proof.
  intros H. apply mapM_Ok_inv in H. induction H as [|kv nf d d' Hk H IH]; cbn; [reflexivity|].
  rewrite IH. f_equal. unfold to_float in Hk. destruct (py_float E (snd kv)); cbn in Hk; inversion Hk; reflexivity.
Qed.

(** The ad-hoc values of [d] written as floats, as dumped. *)
Definition floats (E : env) (l l' : list (Z * scalar)) : Prop :=
  exists st, mapM (to_float E) l = Ok st /\
             l' = map (fun kv => (fst kv, SFlt (snd kv))) st.

Lemma declared_same c d : c_species d = c_species c -> declared_exist c -> declared_exist d.
Proof. unfold declared_exist. intros ->. auto. Qed.

Lemma keys_floats (st : list (Z * flt)) : map fst (map (fun kv => (fst kv, SFlt (snd kv))) st) = map fst st.
Proof. rewrite map_map. reflexivity. Qed.

Lemma load_round_trip E fh c d f b :
  Inv c -> Inv d -> same_input c d -> chemistry_attributes E fh d = Ok f ->
  (b = true -> c_xml c = c_xml d /\ c_xml d <> Some "") ->
  declared_exist c ->
  (forall i dd n, In (i, dd) (c_ret d) -> In n (map fst dd) ->
     exists s, In s (c_species d) /\ c_en d (sp_id s) = true /\ sp_name s = n) ->
  exists c', load E fh c f b = (c', Ok tt) /\
    same_input c c' /\ c_xml c' = c_xml c /\ masks_agree c' d /\
    floats E (c_stick d) (c_stick c') /\ c_ret c' = c_ret d /\ floats E (c_arrh d) (c_arrh c').
Proof.
  intros Ic Id Hsi Hf Hx H2 Hret. unfold load.
  pose proof (dump_masks E fh d f Hf) as (_ & _ & _ & _ & _ & _ & Hp & Hh & st & rxs & Hst & Hrx & Hsp & Harx).
  assert (Pre : (if b
         then let* _ := raise_if (negb (opt_str_eqb (a_path f) (c_xml c))) EChemAttr in
              let* h := xml_hash fh (c_xml c) in
              raise_if (negb (opt_str_eqb (a_hash f) h)) EChemAttr
         else Ok tt) = Ok tt).
  { destruct b; [|reflexivity]. destruct (Hx eq_refl) as [Hx1 Hx2].
    assert (path_or_none (c_xml d) = c_xml d) as Pn.
    { unfold path_or_none. destruct (c_xml d) as [s|]; [|reflexivity].
      destruct (String.eqb_spec s ""); [congruence|reflexivity]. }
    rewrite Pn in Hh, Hp. rewrite Hp, Hx1, Hh.
    assert (R : forall o, opt_str_eqb o o = true) by (intros [s|]; cbn; [apply String.eqb_refl|reflexivity]).
    rewrite R. cbn. rewrite R. reflexivity. }
  rewrite Pre.
  destruct (load_masks_ok E fh c d f Hsi Hf) as (c1 & L & Hd & Hm). rewrite L.
  assert (Hs1 : same_input c1 d).
  { destruct Hsi as (A & B & C), Hd as (A' & B' & C' & _). repeat split; congruence. }
  assert (I1 : Inv c1).
  { pose proof (i_stick c Ic). pose proof (i_ret c Ic). pose proof (i_arrh c Ic). pose proof (i_ret_names c Ic).
    destruct Hd as (_ & Hs & Hr & _ & Hsti & Hrt & Har).
    apply (Inv_agree c1 d Id Hs1 Hm); unfold sp_ids, r_ids in *; rewrite ?Hs, ?Hr, ?Hsti, ?Hrt, ?Har; auto. }
  set (c2 := with_ret (with_stick c1 []) []).
  assert (I2 : Inv c2) by (exact (reset_sp_Inv c1 "all" I1)).
  assert (D2 : declared_exist c2).
  { apply (declared_same c); [|exact H2]. destruct Hd as (_ & Hs & _). exact Hs. }
  fold (load_sp E). fold load_rx. rewrite Hsp, steps_app.
  change (steps (fun (c0 : chem) (t : string * Z * pyval) =>
     set_adhoc_species E c0 (fst (fst t)) (RId (snd (fst t))) (snd t))) with (steps (load_sp E)).
  change (steps (fun (c0 : chem) (t : string * Z * pyval) =>
     set_adhoc_reactions c0 (fst (fst t)) (snd (fst t)) (snd t))) with (steps load_rx).
  destruct Hs1 as (Hk1 & Hsp1 & Hrx1).
  assert (Isp : sp_ids d = sp_ids c2) by (unfold sp_ids; cbn; now rewrite Hsp1).
  rewrite steps_stick; auto.
  2: { cbn. rewrite (mapM_py_fst E _ _ Hst). apply (i_stick d Id). }
  2: { rewrite (mapM_py_fst E _ _ Hst), <- Isp. apply (i_stick d Id). }
  cbn [c_stick with_ret with_stick c2 app].
  set (c2' := with_stick c2 (map (fun kv => (fst kv, SFlt (snd kv))) st)).
  assert (I2' : Inv c2').
  { destruct I2 as [J1 J2 J3 J4 J5 J6 J7 J8 J9 J10 J11 J12]. split; auto.
    - destruct J1 as [W1 W2 W3 W4 W5]. split; auto.
    - cbn [c_stick c2' with_stick]. rewrite keys_floats, (mapM_py_fst E _ _ Hst). split; [apply (i_stick d Id)|].
      change (incl (map fst (c_stick d)) (sp_ids c2)). rewrite <- Isp. apply (i_stick d Id). }
  rewrite steps_ret; auto.
  2: { cbn. apply (i_ret d Id). }
  2: { change (sp_ids c2') with (sp_ids c2). rewrite <- Isp. apply (i_ret d Id). }
  2: { intros i dd n Hi Hn. apply In_name_pool. destruct (Hret i dd n Hi Hn) as (s & S1 & S2 & S3).
       exists s. split; [cbn; rewrite <- Hsp1; exact S1|]. split; [|exact S3].
       change (c_en c1 (sp_id s) = true). rewrite <- S2. apply Hm. apply in_map. rewrite <- Hsp1. exact S1. }
  cbn [c_ret with_ret with_stick c2' c2 app].
  set (c3 := with_ret c2' (c_ret d)).
  assert (I3 : Inv c3).
  { destruct I2' as [J1 J2 J3 J4 J5 J6 J7 J8 J9 J10 J11 J12]. split; auto.
    - destruct J1 as [W1 W2 W3 W4 W5]. split; auto.
    - cbn. split; [apply (i_ret d Id)|]. change (incl (map fst (c_ret d)) (sp_ids c2)). rewrite <- Isp. apply (i_ret d Id).
    - cbn. rewrite <- Hsp1. apply (i_ret_names d Id). }
  rewrite Harx, steps_arrh.
  2: { cbn. rewrite (mapM_py_fst E _ _ Hrx). apply (i_arrh d Id). }
  2: { rewrite (mapM_py_fst E _ _ Hrx). change (r_ids (with_arrh c3 [])) with (r_ids c1).
       unfold r_ids. rewrite <- Hrx1. apply (i_arrh d Id). }
  cbn [c_arrh with_arrh app].
  set (c5 := with_arrh (with_arrh c3 []) (map (fun kv => (fst kv, SFlt (snd kv))) rxs)).
  assert (I5 : Inv c5).
  { apply with_arrh_Inv.
    - exact (reset_rx_Inv c3 "all" I3).
    - rewrite keys_floats, (mapM_py_fst E _ _ Hrx). apply (i_arrh d Id).
    - rewrite keys_floats, (mapM_py_fst E _ _ Hrx).
      change (r_ids (with_arrh c3 [])) with (r_ids c1). unfold r_ids. rewrite <- Hrx1. apply (i_arrh d Id). }
  exists c5. rewrite consistent_declared; [|exact I5|].
  2: { apply (declared_same c2); [reflexivity|exact D2]. }
  split; [reflexivity|]. destruct Hd as (Ck & Cs & Cr & Cx & _).
  split; [repeat split; auto|]. split; [exact Cx|]. split; [exact Hm|].
  split; [exists st; auto|]. split; [reflexivity|exists rxs; auto].
Qed.
