(** The invariant of all histories of a chemistry and the facts about
    [disable] at the level of the public method. *)
From Verif Require Import Base BaseLemmas Species Reactions Chemistry ChemSpec ChemDisable ChemInv.
From Coq Require Import ZifyBool.

(** ** More about the cascade *)

Definition idle (c : chem) (si rs : list Z) : Prop :=
  (forall i, In i si -> c_en c i = false) /\ (forall i, In i rs -> c_enr c i = false).

Lemma idle_filters c si rs :
  idle c si rs <-> filter (c_en c) si = [] /\ filter (c_enr c) rs = [].
Proof. unfold idle. now rewrite !filter_nil. Qed.

Lemma idle_dec c si rs : idle c si rs \/ (filter (c_en c) si <> [] \/ filter (c_enr c) rs <> []).
Proof.
  rewrite idle_filters. destruct (filter (c_en c) si); [|right; left; congruence].
  destruct (filter (c_enr c) rs); [auto|right; right; congruence].
Qed.

Lemma dr_idle fuel c si rs : idle c si rs -> disable_recursively (S fuel) c si rs = (c, Ok tt).
Proof.
  intros H. apply idle_filters in H. destruct H as [H1 H2]. cbn [disable_recursively]. now rewrite H1, H2.
Qed.

Lemma more_not_idle c2 :
  wf c2 -> (disconnected_species c2 <> [] \/ disconnected_reactions c2 <> []) ->
  ~ idle c2 (disconnected_species c2) (disconnected_reactions c2).
Proof.
  intros W2 Hm [I1 I2]. destruct Hm as [Hm|Hm].
  - destruct (disconnected_species c2) as [|i l] eqn:E; [congruence|].
    assert (In i (disconnected_species c2)) as Hi by (rewrite E; now left).
    specialize (I1 i (or_introl eq_refl)).
    apply (disconnected_species_spec c2 i W2) in Hi. destruct Hi as (s & _ & _ & Hi & _). congruence.
  - destruct (disconnected_reactions c2) as [|i l] eqn:E; [congruence|].
    assert (In i (disconnected_reactions c2)) as Hi by (rewrite E; now left).
    specialize (I2 i (or_introl eq_refl)).
    apply (disconnected_reactions_spec c2 i W2) in Hi. destruct Hi as (s & _ & _ & Hi & _). congruence.
Qed.

(** The enabled positive ions. *)
Definition ions (c : chem) : list sp := filter positive (get_species c false false true).

Lemma ions_same c c' :
  c_species c' = c_species c -> (forall s, In s (c_species c) -> c_en c' (sp_id s) = c_en c (sp_id s)) ->
  ions c' = ions c.
Proof.
  intros Hs He. unfold ions, get_species. rewrite Hs. f_equal. apply filter_ext_in.
  intros s H. unfold sp_mask. rewrite (He s H). now rewrite !orb_true_l, ?orb_false_l.
Qed.

Lemma filter_single {A} (p q : A -> bool) l x :
  (forall y, In y l -> q y = true -> p y = true) -> filter p l = [x] -> q x = true -> filter q l = [x].
Proof.
  induction l as [|a l IH]; cbn; intros H Hp Hq; [discriminate|].
  destruct (p a) eqn:Ea.
  - injection Hp as E Hnil. subst a. rewrite Hq. f_equal. rewrite filter_nil in Hnil.
    apply filter_nil. intros y Hy.
    destruct (q y) eqn:Ey; [|reflexivity]. apply H in Ey; [|auto]. rewrite Hnil in Ey; auto.
  - destruct (q a) eqn:Eq.
    + apply H in Eq; [congruence|auto].
    + apply IH; auto.
Qed.

Lemma ions_unique_shrink c c' ion :
  c_species c' = c_species c ->
  (forall i, c_en c' i = true -> c_en c i = true) ->
  ions c = [ion] -> c_en c' (sp_id ion) = true -> ions c' = [ion].
Proof.
  intros Hs He Hi Hon. unfold ions, get_species in *. rewrite Hs. rewrite filter_filter in *.
  assert (In ion (filter (fun x => sp_mask c false false true x && positive x) (c_species c))) as X by (rewrite Hi; now left).
  apply filter_In in X. destruct X as [_ X].
  eapply filter_single; [|exact Hi|].
  - intros y _. unfold sp_mask. cbn [orb].
    rewrite !andb_true_iff. intros [[[Y1 Y2] Y3] Y4]. auto.
  - unfold sp_mask in *. cbn [orb] in *. rewrite Hon. rewrite !andb_true_iff in *. tauto.
Qed.

(** After a round that was not idle, the positive ions are known. *)
Lemma dr_ions fuel : forall c spids rids c',
  wf c -> disable_recursively fuel c spids rids = (c', Ok tt) -> ~ idle c spids rids ->
  (requires_charge (c_kind c) = true -> ions c' <> []) /\
  (forall i, c_adprot c' i = true <->
     c_adprot c i = true \/
     requires_charge (c_kind c) = true /\ exists ion, ions c' = [ion] /\ sp_id ion = i).
Proof.
  induction fuel as [|fuel IH]; intros c spids rids c' W H Hni; [discriminate|].
  pose proof (dr_round fuel c spids rids) as R. rewrite H in R. clear H.
  inversion R as [Hn1 Hn2| | |c2 Hne Hh Had Hs' Hr EQ|c2 Hne Hh Had Hm EQ]; subst.
  - exfalso. apply Hni. apply idle_filters. auto.
  - pose proof (ad_step_facts _ _ Had) as (Hd & Hen & Her & Hp & Ha & Ha').
    destruct Hd as (Hk & Hsp & _).
    assert (HI : ions c' = ions (off c spids rids)).
    { apply ions_same; [exact Hsp|]. intros s _. now rewrite Hen. }
    split.
    + intros Hreq. rewrite HI. destruct Had as [[X _]|(_ & ion & rest & E & _)].
      * change (c_kind (off c spids rids)) with (c_kind c) in X. congruence.
      * unfold ions. rewrite E. congruence.
    + intros i. rewrite HI. split.
      * intros Hi. apply Ha' in Hi. exact Hi.
      * intros [Hi|(Hreq & ion & E & <-)]; [now apply Ha|].
        destruct Had as [[X _]|(_ & ion' & rest & E' & ->)].
        -- change (c_kind (off c spids rids)) with (c_kind c) in X. congruence.
        -- unfold ions in E. rewrite E in E'. inversion E'; subst. cbn. unfold mset. cbn.
           now rewrite Z.eqb_refl.
  - pose proof (ad_step_facts _ _ Had) as (Hd & Hen & Her & Hp & Ha & Ha').
    assert (W2 : wf c2) by (eapply wf_same; [exact Hd|]; eapply wf_same; [|exact W]; repeat split).
    destruct Hd as (Hk & Hsp & _).
    pose proof (dr_frame _ _ _ _ _ _ EQ) as ((_ & Hsp' & _) & _ & He' & _ & _).
    assert (NI : ~ idle c2 (disconnected_species c2) (disconnected_reactions c2)) by (apply more_not_idle; auto).
    pose proof (IH c2 _ _ c' W2 EQ NI) as [I1 I2].
    change (c_kind (off c spids rids)) with (c_kind c) in *. rewrite Hk in *.
    split; [exact I1|].
    intros i. rewrite I2. split.
    + intros [Hi|Hi]; [|auto]. apply Ha' in Hi. destruct Hi as [Hi|(Hreq & ion & E & <-)]; [auto|].
      right. split; [exact Hreq|]. exists ion. split; [|reflexivity].
      assert (HI : ions c2 = [ion]).
      { transitivity (ions (off c spids rids)); [|exact E].
        apply ions_same; [exact Hsp|]. intros s _. now rewrite Hen. }
      apply (ions_unique_shrink c2 c'); auto.
      assert (In ion (ions c2)) as Hin by (rewrite HI; now left).
      apply In_positive in Hin. destruct Hin as (X1 & X2 & X3).
      eapply (dr_protected fuel c2); eauto.
      right. destruct Had as [[X _]|(_ & ion' & rest & E' & ->)]; [cbn in X; congruence|].
      rewrite E in E'. inversion E'; subst. cbn. unfold mset. cbn. now rewrite Z.eqb_refl.
    + intros [Hi|Hi]; [left; now apply Ha|auto].
Qed.

Lemma ions_In c s : In s (ions c) <-> In s (c_species c) /\ c_en c (sp_id s) = true /\ pos_ion s.
Proof. apply In_positive. Qed.

(** ** The invariant *)

Record Inv (c : chem) : Prop := {
  i_wf : wf c;
  i_closed : closed c;
  i_charge : charge_ok c;
  i_all : subnetwork c (fun _ => True) (fun _ => True);
  i_neutral : c_kind c = Neutral -> forall s, In s (c_species c) -> ~ In (sp_name s) ["e"; "M"] -> sp_charge s = Some 0;
  i_eprot : c_kind c = Plain -> exists s, In s (c_species c) /\ sp_name s = "e" /\ c_prot c (sp_id s) = true;
  i_last : c_kind c = Plain -> forall s, ions c = [s] -> protected c s;
  i_last_all : c_kind c = Plain -> forall s, In s (c_species c) -> pos_ion s ->
      (forall s', In s' (c_species c) -> pos_ion s' -> s' = s) -> c_prot c (sp_id s) = true;
  i_stick : NoDup (map fst (c_stick c)) /\ incl (map fst (c_stick c)) (sp_ids c);
  i_ret : NoDup (map fst (c_ret c)) /\ incl (map fst (c_ret c)) (sp_ids c);
  i_arrh : NoDup (map fst (c_arrh c)) /\ incl (map fst (c_arrh c)) (r_ids c);
  i_ret_names : forall i d n, In (i, d) (c_ret c) -> In n (map fst d) -> In n (map sp_name (c_species c))
}.

(** *** disable *)

Lemma disable_ok_inv c ss rs c' :
  wf c -> disable c ss rs = (c', Ok tt) ->
  exists si, mapM (resolve c) ss = Ok si /\ incl rs (r_ids c) /\
    disable_recursively (disable_fuel c) c si rs = (c', Ok tt) /\ assert_consistency c' = Ok tt.
Proof.
  intros W H. pose proof (disable_cases c ss rs W) as D. rewrite H in D.
  inversion D; subst. exists si. auto.
Qed.

Lemma disable_frame c ss rs c' o :
  wf c -> disable c ss rs = (c', o) ->
  same_data c c' /\ c_prot c' = c_prot c /\
  (forall i, c_en c' i = true -> c_en c i = true) /\
  (forall i, c_enr c' i = true -> c_enr c i = true) /\
  (forall i, c_adprot c i = true -> c_adprot c' i = true) /\
  (forall s, In s (c_species c) -> protected c s -> c_en c (sp_id s) = true -> c_en c' (sp_id s) = true).
Proof.
  intros W H. pose proof (disable_cases c ss rs W) as D. rewrite H in D.
  inversion D; subst; try (split; [apply same_data_refl|]; repeat split; auto; fail).
  match goal with X : disable_recursively _ _ _ _ = _ |- _ => rename X into DR end.
  pose proof (dr_frame _ _ _ _ _ _ DR) as (F1 & F2 & F3 & F4 & F5).
  split; [exact F1|]. repeat split; auto. intros s. eapply dr_protected; eauto.
Qed.

Lemma disable_shape c ss rs c' o :
  wf c -> closed c -> disable c ss rs = (c', o) -> closed c'.
Proof.
  intros W C H. pose proof (disable_cases c ss rs W) as D. rewrite H in D.
  inversion D; subst; auto.
  match goal with X : disable_recursively _ _ _ _ = _ |- _ => rename X into DR end.
  pose proof (dr_ok _ _ _ _ _ W DR) as (_ & _ & [->|X]); auto.
Qed.

Lemma filter_true {A} (l : list A) : filter (fun _ => true) l = l.
Proof. induction l as [|a l IH]; cbn; [reflexivity|now rewrite IH]. Qed.

Lemma ions_nonempty c :
  ions c <> [] <-> exists s, In s (c_species c) /\ c_en c (sp_id s) = true /\ pos_ion s.
Proof.
  split.
  - intros H. destruct (ions c) as [|s l] eqn:E; [congruence|]. exists s. apply ions_In. rewrite E. now left.
  - intros (s & H) E. apply ions_In in H. rewrite E in H. destruct H.
Qed.

Lemma Inv_same_masks c c' :
  Inv c -> same_data c c' -> c_prot c' = c_prot c -> c_adprot c' = c_adprot c ->
  c_en c' = c_en c -> c_enr c' = c_enr c -> Inv c'.
Proof.
  intros I (Hk & Hs & Hr & Hx & Hst & Hrt & Har) Hp Ha He Her. destruct c, c'. cbn in *. subst. exact I.
Qed.

Lemma disable_Inv c ss rs : Inv c -> Inv (fst (disable c ss rs)).
Proof.
  intros I. destruct (disable c ss rs) as [c' o] eqn:H. cbn [fst].
  pose proof (i_wf c I) as W.
  pose proof (disable_frame c ss rs c' o W H) as (Hd & Hp & He & Her & Ha & Hprot).
  pose proof (disable_shape c ss rs c' o W (i_closed c I) H) as C'.
  pose proof Hd as (Hk & Hs & Hr & Hx & Hst & Hrt & Har).
  pose proof (disable_cases c ss rs W) as D. rewrite H in D.
  inversion D as [? ? ? E|? ? ? ? E|? ? ? ? ? E|si c1 Hsi Hrs DR E]; subst; auto.
  clear D.
  assert (Hidle : c' = c \/ ~ idle c si rs).
  { destruct (idle_dec c si rs) as [Hi|Hi].
    - left. unfold disable_fuel in DR. rewrite dr_idle in DR; [congruence|exact Hi].
    - right. intros X. apply idle_filters in X. destruct X as [X1 X2]. destruct Hi; congruence. }
  destruct Hidle as [->|NI]; [exact I|].
  pose proof (dr_ions _ _ _ _ _ W DR NI) as [J1 J2].
  split.
  - eapply wf_same; eauto.
  - exact C'.
  - unfold charge_ok. rewrite Hk. pose proof (i_charge c I) as Q. unfold charge_ok in Q.
    destruct (c_kind c) eqn:K.
    + split.
      * destruct (i_eprot c I K) as (s & S1 & S2 & S3). exists s. rewrite Hs. repeat split; auto.
        apply Hprot; auto; [now left|]. destruct Q as [(s' & T1 & T2 & T3) _].
        replace s with s'; [exact T3|].
        apply (NoDup_map_inj sp_name (c_species c)); auto using (wf_names c W). congruence.
      * apply ions_nonempty, J1. reflexivity.
    + intros s Hin Hen Hn. rewrite Hs in Hin. apply Q; auto.
  - eapply subnetwork_same; [exact Hd|apply (i_all c I)].
  - rewrite Hk, Hs. apply (i_neutral c I).
  - rewrite Hk, Hs, Hp. apply (i_eprot c I).
  - rewrite Hk. intros K s Hi. right. apply J2. right. rewrite K. split; [reflexivity|]. exists s. auto.
  - rewrite Hk, Hs, Hp. apply (i_last_all c I).
  - rewrite Hst. unfold sp_ids. rewrite Hs. apply (i_stick c I).
  - rewrite Hrt. unfold sp_ids. rewrite Hs. apply (i_ret c I).
  - rewrite Har. unfold r_ids. rewrite Hr. apply (i_arrh c I).
  - rewrite Hrt, Hs. apply (i_ret_names c I).
Qed.

(** *** the other operations *)

Lemma set_protected_cases c args :
  (exists e, set_protected_species c args = (c, Err e)) \/
  (exists ids, mapM (resolve c) args = Ok ids /\
     set_protected_species c args = (with_prot c (mset ids true (c_prot c)), Ok tt)).
Proof.
  unfold set_protected_species.
  change (mapM (fun a : ref => let* s := get_rp c a in Ok (sp_id s)) args) with (mapM (resolve c) args).
  destruct (mapM (resolve c) args) as [ids|e]; [right|left]; eauto.
Qed.

Lemma mset_true ids m i : mset ids true m i = true <-> In i ids \/ m i = true.
Proof.
  unfold mset. destruct (memZ i ids) eqn:E.
  - apply memZ_In in E. tauto.
  - apply memZ_false in E. tauto.
Qed.

Lemma protect_Inv c args : Inv c -> Inv (fst (set_protected_species c args)).
Proof.
  intros I. destruct (set_protected_cases c args) as [(e & ->)|(ids & _ & ->)]; cbn [fst]; [exact I|].
  destruct I as [I1 I2 I3 I4 I5 I6 I7 I8 I9 I10 I11 I12]. split; auto.
  - destruct I1 as [W1 W2 W3 W4 W5]. split; auto.
  - cbn. intros K. destruct (I6 K) as (s & S1 & S2 & S3). exists s. repeat split; auto. apply mset_true. auto.
  - cbn. intros K s Hs. destruct (I7 K s Hs) as [X|X]; [left|right; exact X]. cbn. apply mset_true. auto.
  - cbn. intros K s S1 S2 S3. apply mset_true. right. now apply (I8 K s).
Qed.

Lemma reset_Inv c : Inv c -> Inv (reset c).
Proof.
  intros I. destruct I as [I1 I2 I3 I4 I5 I6 I7 I8 I9 I10 I11 I12]. split; auto.
  - destruct I1 as [W1 W2 W3 W4 W5]. split; auto.
  - destruct I4 as [A B]. split; unfold on_sp, on_r; cbn; auto.
    intros s Hs _. destruct (B s Hs I) as (r & R1 & _ & R3). exists r. auto.
  - unfold charge_ok in *. cbn. destruct (c_kind c).
    + destruct I3 as [(s & S1 & S2 & _) (s' & S1' & _ & S2')]. split; [exists s|exists s']; auto.
    + intros s Hs _ Hn. now apply I5.
  - intros K s Hs. left. change (c_prot c (sp_id s) = true).
    assert (X : forall s', In s' (ions (reset c)) <-> In s' (c_species c) /\ pos_ion s').
    { intros s'. rewrite ions_In. cbn. tauto. }
    apply (I8 K s).
    + apply (X s). rewrite Hs. now left.
    + apply (X s). rewrite Hs. now left.
    + intros s' S1 S2. assert (In s' (ions (reset c))) as Y by (apply X; auto).
      rewrite Hs in Y. destruct Y as [Y|[]]. congruence.
Qed.

Lemma NoDup_zset {V} k (v : V) d : NoDup (map fst d) -> NoDup (map fst (zset k v d)).
Proof. apply NoDup_aset, Zeqb_spec. Qed.

Lemma zset_keys {V} k (v : V) d l :
  incl (map fst d) l -> In k l -> incl (map fst (zset k v d)) l.
Proof.
  intros H Hk x Hx. apply (akeys_aset_iff Z.eqb Zeqb_spec) in Hx. destruct Hx as [->|Hx]; auto.
Qed.

Lemma zset_In {V} k (v : V) d x : In x (zset k v d) -> x = (k, v) \/ In x d.
Proof. intros H. apply (aset_In Z.eqb) in H; auto using Zeqb_spec. Qed.

Lemma mapM_fst E (d : list (string * scalar)) d' :
  mapM (fun kv => let* f := py_float E (snd kv) in Ok (fst kv, f)) d = Ok d' -> map fst d' = map fst d.
Proof.
  intros H. apply mapM_Ok_inv in H. induction H as [|kv nf d d' Hk H IH]; cbn; [reflexivity|].
  rewrite IH. f_equal. destruct (py_float E (snd kv)); cbn in Hk; inversion Hk; reflexivity.
Qed.

(** The shapes of the results of set_adhoc_species. *)
Lemma set_adhoc_species_cases E c attrib r v :
  (exists e, set_adhoc_species E c attrib r v = (c, Err e)) \/
  (exists s x, get_rp c r = Ok s /\ attrib = "stick_coef" /\ v = VSc x /\
     let c' := with_stick c (zset (sp_id s) (np_to_float x) (c_stick c)) in
     set_adhoc_species E c attrib r v = (c', assert_consistency c')) \/
  (exists s d d', get_rp c r = Ok s /\ attrib = "ret_coefs" /\ v = VDict d /\
     incl (map fst d') (name_pool c) /\
     mapM (fun kv => let* f := py_float E (snd kv) in Ok (fst kv, f)) d = Ok d' /\
     let c' := with_ret c (zset (sp_id s) d' (c_ret c)) in
     set_adhoc_species E c attrib r v = (c', assert_consistency c')).
Proof.
  unfold set_adhoc_species.
  destruct (get_rp c r) as [s|e] eqn:G; [|left; eauto].
  destruct (memS attrib ["stick_coef"; "ret_coefs"]) eqn:M; cbn [negb]; [|left; eauto].
  destruct (type_in v (rp_attr_types attrib)) eqn:T; cbn [negb]; [|left; eauto].
  destruct (String.eqb_spec attrib "ret_coefs") as [->|Hne].
  - destruct v as [x|d|]; [left; eauto| |left; eauto].
    destruct (subsetS (akeys d) (name_pool c)) eqn:S; cbn [negb]; [|left; eauto].
    destruct (mapM (fun kv => let* f := py_float E (snd kv) in Ok (fst kv, f)) d) as [d'|e] eqn:Mm; [|left; eauto].
    right. right. exists s, d, d'. repeat split; auto.
    rewrite (mapM_fst E d d' Mm). now apply subsetS_incl.
  - assert (attrib = "stick_coef") as ->.
    { apply memS_In in M. destruct M as [M|[M|[]]]; congruence. }
    destruct v as [x|d|]; [|left; eauto|left; eauto].
    right. left. exists s, x. auto.
Qed.

Lemma set_adhoc_Inv E c attrib r v : Inv c -> Inv (fst (set_adhoc_species E c attrib r v)).
Proof.
  intros I. destruct (set_adhoc_species_cases E c attrib r v)
    as [(e & ->)|[(s & x & G & _ & _ & ->)|(s & d & d' & G & _ & _ & Hd & _ & ->)]]; cbn [fst]; auto.
  - apply (get_rp_denotes c r s (i_wf c I)) in G. destruct G as [Hs _].
    destruct I as [I1 I2 I3 I4 I5 I6 I7 I8 I9 I10 I11 I12]. split; auto.
    + destruct I1 as [W1 W2 W3 W4 W5]. split; auto.
    + cbn. split; [apply NoDup_zset, I9|]. apply zset_keys; [apply I9|now apply in_map].
  - apply (get_rp_denotes c r s (i_wf c I)) in G. destruct G as [Hs _].
    destruct I as [I1 I2 I3 I4 I5 I6 I7 I8 I9 I10 I11 I12]. split; auto.
    + destruct I1 as [W1 W2 W3 W4 W5]. split; auto.
    + cbn. split; [apply NoDup_zset, I10|]. apply zset_keys; [apply I10|now apply in_map].
    + cbn. intros i d0 n Hin Hn. apply zset_In in Hin. destruct Hin as [Hin|Hin].
      * inversion Hin; subst. apply Hd, In_name_pool in Hn. destruct Hn as (s' & X1 & _ & <-). now apply in_map.
      * eapply I12; eauto.
Qed.

Lemma NoDup_nil_incl {A B} (f : A -> B) l : NoDup (map f []) /\ incl (map f []) l.
Proof. cbn. split; [constructor|intros x []]. Qed.

Lemma reset_sp_Inv c attrib : Inv c -> Inv (fst (reset_adhoc_species c attrib)).
Proof.
  intros I. unfold reset_adhoc_species.
  assert (A : Inv (with_ret (with_stick c []) [])).
  { destruct I as [I1 I2 I3 I4 I5 I6 I7 I8 I9 I10 I11 I12]. split; auto.
    - destruct I1 as [W1 W2 W3 W4 W5]. split; auto.
    - exact (NoDup_nil_incl fst _).
    - exact (NoDup_nil_incl fst _).
    - cbn. tauto. }
  assert (B : Inv (with_stick c [])).
  { destruct I as [I1 I2 I3 I4 I5 I6 I7 I8 I9 I10 I11 I12]. split; auto.
    - destruct I1 as [W1 W2 W3 W4 W5]. split; auto.
    - exact (NoDup_nil_incl fst _). }
  assert (C : Inv (with_ret c [])).
  { destruct I as [I1 I2 I3 I4 I5 I6 I7 I8 I9 I10 I11 I12]. split; auto.
    - destruct I1 as [W1 W2 W3 W4 W5]. split; auto.
    - exact (NoDup_nil_incl fst _).
    - cbn. tauto. }
  destruct (String.eqb attrib "all"); [exact A|].
  destruct (String.eqb attrib "stick_coef"); [exact B|].
  destruct (String.eqb attrib "ret_coefs"); [exact C|exact I].
Qed.

Lemma set_rx_cases c attrib rid v :
  (exists e, set_adhoc_reactions c attrib rid v = (c, Err e)) \/
  (exists x, In rid (r_ids c) /\ attrib = "arrh_a" /\ v = VSc x /\
     set_adhoc_reactions c attrib rid v = (with_arrh c (zset rid (np_to_float x) (c_arrh c)), Ok tt)).
Proof.
  unfold set_adhoc_reactions.
  destruct (memZ rid (r_ids c)) eqn:M; cbn [negb]; [|left; eauto].
  destruct (String.eqb_spec attrib "arrh_a") as [->|Hn]; cbn [negb]; [|left; eauto].
  destruct v as [x|d|]; [|left; eauto|left; eauto].
  destruct (type_in (VSc x) (rx_attr_types "arrh_a")); [|left; eauto].
  right. exists x. repeat split; auto. now apply memZ_In.
Qed.

Lemma with_arrh_Inv c l :
  Inv c -> NoDup (map fst l) -> incl (map fst l) (r_ids c) -> Inv (with_arrh c l).
Proof.
  intros I H1 H2. destruct I as [I1 I2 I3 I4 I5 I6 I7 I8 I9 I10 I11 I12]. split; auto.
  destruct I1 as [W1 W2 W3 W4 W5]. split; auto.
Qed.

Lemma set_rx_Inv c attrib rid v : Inv c -> Inv (fst (set_adhoc_reactions c attrib rid v)).
Proof.
  intros I. destruct (set_rx_cases c attrib rid v) as [(e & ->)|(x & Hr & _ & _ & ->)]; cbn [fst]; [exact I|].
  apply with_arrh_Inv; auto.
  - apply NoDup_zset, (i_arrh c I).
  - apply zset_keys; [apply (i_arrh c I)|exact Hr].
Qed.

Lemma reset_rx_Inv c attrib : Inv c -> Inv (fst (reset_adhoc_reactions c attrib)).
Proof.
  intros I. unfold reset_adhoc_reactions.
  destruct (String.eqb attrib "all" || String.eqb attrib "arrh_a"); cbn [fst]; [|exact I].
  apply with_arrh_Inv; [exact I|constructor|intros x []].
Qed.

Lemma step_Inv E c o : Inv c -> Inv (fst (step E c o)).
Proof.
  intros I. destruct o; cbn [step].
  - now apply disable_Inv.
  - now apply protect_Inv.
  - now apply reset_Inv.
  - now apply set_adhoc_Inv.
  - now apply reset_sp_Inv.
  - now apply set_rx_Inv.
  - now apply reset_rx_Inv.
Qed.

(** *** construction *)

Definition fresh (k : kind) (species : list sp) (reactions : list rx) (xml : option string) : chem :=
  {| c_kind := k; c_species := species; c_reactions := reactions; c_xml := xml;
     c_en := fun _ => true; c_prot := fun _ => false; c_adprot := fun _ => false;
     c_enr := fun _ => true; c_stick := []; c_ret := []; c_arrh := [] |}.

(** What init returns: the fresh state with the electron and a unique
    positive ion protected. *)
Lemma init_cases k species reactions xml c :
  init k species reactions xml = Ok c ->
  let f := fresh k species reactions xml in
  NoDup (map sp_id species) /\ NoDup (map rx_id reactions) /\ assert_consistency f = Ok tt /\
  (requires_charge k = false /\ c = f \/
   requires_charge k = true /\ exists e, get_rp f (RName "e") = Ok e /\
     let f1 := with_prot f (mset [sp_id e] true (c_prot f)) in
     match ions f1 with
     | [ion] => exists s, get_rp f1 (RObj (sp_uid ion)) = Ok s /\ c = with_prot f1 (mset [sp_id s] true (c_prot f1))
     | _ => c = f1
     end).
Proof.
  unfold init. fold (fresh k species reactions xml). cbn zeta. rewrite raise_bind.
  intros [Hd H]. apply orb_false_iff in Hd. destruct Hd as [D1 D2]. rewrite negb_false_iff in D1, D2.
  apply nodupZb_NoDup in D1, D2. split; [exact D1|]. split; [exact D2|].
  rewrite unit_bind in H. destruct H as [A H]. split; [exact A|].
  destruct (requires_charge k) eqn:R.
  - right. split; [reflexivity|]. unfold set_protected_species in H. cbn [mapM] in H.
    destruct (get_rp (fresh k species reactions xml) (RName "e")) as [e|x] eqn:G; cbn [bind] in H; [|discriminate].
    exists e. split; [reflexivity|]. cbn zeta.
    set (f1 := with_prot (fresh k species reactions xml) (mset [sp_id e] true (c_prot (fresh k species reactions xml)))) in *.
    fold (ions f1) in H.
    destruct (ions f1) as [|ion [|ion2 rest]] eqn:I.
    + congruence.
    + destruct (get_rp f1 (RObj (sp_uid ion))) as [s|x] eqn:G2; cbn [bind] in H; [|discriminate].
      injection H as <-. exists s. split; reflexivity.
    + congruence.
  - left. split; [reflexivity|]. now inversion H.
Qed.

Lemma NoDup_map_from {A B C} (f : A -> B) (g : A -> C) l :
  NoDup (map f l) -> (forall x y, In x l -> In y l -> g x = g y -> f x = f y) -> NoDup (map g l).
Proof.
  induction l as [|a l IH]; cbn; intros Hnd H; [constructor|].
  inversion Hnd as [|? ? Hni Hnd']; subst. constructor.
  - intros Hin. apply in_map_iff in Hin. destruct Hin as (y & E & Hy). apply Hni.
    rewrite <- (H y a); auto. now apply in_map.
  - apply IH; auto.
Qed.

Lemma fresh_wf k species reactions xml :
  heap_ok species reactions -> NoDup (map sp_id species) -> NoDup (map rx_id reactions) ->
  assert_consistency (fresh k species reactions xml) = Ok tt ->
  wf (fresh k species reactions xml).
Proof.
  intros Hh N1 N2 A. set (f := fresh k species reactions xml) in *.
  assert (NU : NoDup (map sp_uid species)).
  { apply (NoDup_map_from sp_id); [exact N1|]. intros x y Hx Hy E. f_equal. apply Hh; auto. }
  assert (B : assert_consistency_base f = Ok tt).
  { unfold assert_consistency in A. destruct (c_kind f); [exact A|]. rewrite raise_bind in A. tauto. }
  unfold assert_consistency_base in B. rewrite unit_bind in B. destruct B as [_ B].
  rewrite !raise_bind, raise_if_Ok, !negb_false_iff in B. destruct B as (B1 & B2 & B3 & B4 & B5).
  assert (D : any_disabled f = false) by (apply any_disabled_false; reflexivity).
  rewrite (get_species_all_on f D) in B1, B3. apply nodupSb_NoDup in B1.
  split; auto.
  intros r s Hr Htp. rewrite forallb_forall in B3.
  assert (In s (flat_map rx_sps (get_reactions f false))) as X.
  { apply in_flat_map. exists r. split; [apply In_get_reactions; auto|]. now apply rx_sps_takes_part. }
  specialize (B3 s X). apply memN_In, in_map_iff in B3. destruct B3 as (s' & E & Hs').
  replace s with s'; [exact Hs'|]. apply Hh; auto. right. exists r. auto.
Qed.

Lemma init_Inv k species reactions xml c :
  heap_ok species reactions -> init k species reactions xml = Ok c -> Inv c.
Proof.
  intros Hh H. apply init_cases in H. cbn zeta in H. destruct H as (N1 & N2 & A & H).
  pose proof (fresh_wf k species reactions xml Hh N1 N2 A) as W.
  set (f := fresh k species reactions xml) in *.
  pose proof (proj1 (assert_ok_iff f W) A) as (C & Q & R).
  assert (All : subnetwork f (fun _ => True) (fun _ => True)).
  { destruct C as [C1 C2]. split; auto. intros s Hs _. destruct (C2 s Hs eq_refl) as (r & R1 & _ & R3). exists r. auto. }
  destruct H as [[Hk ->]|(Hk & e & G & H)].
  - destruct k; [discriminate|]. split; auto; cbn; try discriminate; try apply (NoDup_nil_incl fst); try tauto;
      try (split; [constructor|intros x []]).
  - destruct k; [|discriminate].
    pose proof (proj1 (get_rp_denotes f (RName "e") e W) G) as [He Hne].
    set (f1 := with_prot f (mset [sp_id e] true (c_prot f))) in *.
    assert (W1 : wf f1) by (destruct W; split; auto).
    assert (P1 : c_prot f1 (sp_id e) = true) by (apply mset_true; left; now left).
    assert (IO : forall s, In s (ions f1) <-> In s species /\ pos_ion s).
    { intros s. rewrite ions_In. cbn. tauto. }
    assert (Base : forall ids, (forall s, ions f1 = [s] -> In (sp_id s) ids) ->
                   Inv (with_prot f1 (mset ids true (c_prot f1)))).
    { intros ids Hids. split; auto; cbn; try discriminate; try (split; [constructor|intros x []]); try tauto.
      - destruct W; split; auto.
      - intros _. exists e. repeat split; auto. apply mset_true. right. exact P1.
      - intros _ s Hs. left. cbn. apply mset_true. left. apply Hids.
        rewrite <- Hs. symmetry. apply ions_same; auto.
      - intros _ s Hs Hpos Hu. apply mset_true. left. apply Hids.
        assert (Hin : In s (ions f1)) by (apply IO; auto).
        assert (Huniq : forall y, In y (ions f1) -> y = s) by (intros y Hy; apply IO in Hy; destruct Hy; auto).
        assert (ND : NoDup (ions f1)).
        { apply (NoDup_map_inv sp_id). unfold ions, get_species. rewrite filter_filter.
          apply NoDup_map_filter. exact N1. }
        destruct (ions f1) as [|x [|y l]].
        + destruct Hin.
        + f_equal. apply Huniq. now left.
        + exfalso. inversion ND as [|? ? Hni ?]; subst. apply Hni. left.
          rewrite (Huniq x), (Huniq y); auto; cbn; auto. }
    destruct (ions f1) as [|ion [|ion2 rest]] eqn:Hi.
    + subst c. assert (X : Inv (with_prot f1 (mset [] true (c_prot f1)))) by (apply Base; congruence). exact X.
    + destruct H as (s & Gs & ->).
      apply (get_rp_denotes f1 (RObj (sp_uid ion)) s W1) in Gs. destruct Gs as [Hs Hu].
      assert (s = ion) as ->.
      { apply (NoDup_map_inj sp_uid species); auto; [apply (wf_uids f1 W1)|].
        apply (IO ion). now left. }
      apply Base. intros s' E. inversion E. now left.
    + subst c. assert (X : Inv (with_prot f1 (mset [] true (c_prot f1)))) by (apply Base; congruence). exact X.
Qed.
