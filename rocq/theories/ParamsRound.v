From Verif Require Import Base BaseLemmas GlobalModel ModelParams ParamsSpec ParamsProofs ParamsMain.

(** ** Reading back and building again *)

Lemma sset_new k v (d : list (string * pval)) : ~ In k (map fst d) -> sset k v d = d ++ [(k, v)].
Proof.
  induction d as [|[k' v'] d IH]; cbn; [reflexivity|]. intros N. destruct (String.eqb_spec k k'); [subst; tauto|].
  f_equal. apply IH. tauto.
Qed.

(** Parameters given once each under nominal names are stored in order. *)
Lemma loop_order h d : forall m m', set_params h m d = Ok m' ->
  (forall a o, In (a, o) d -> In a mandatory) -> NoDup (map fst d) ->
  (forall a, In a (map fst d) -> ~ In a (keys m)) ->
  keys m' = (keys m ++ map fst d)%list.
Proof.
  induction d as [|[a o] d IH]; intros m m' H M ND N; cbn [set_params] in H.
  - inversion H; subst. cbn. now rewrite app_nil_r.
  - destruct (set_param h m (a, o)) as [m1|] eqn:S; [|discriminate]. cbn in H.
    assert (A : means a a). { apply mandatory_means. apply (M a o). now left. }
    apply (set_param_iff h m a a o m1 A) in S. destruct S as (_ & _ & ->).
    cbn [map fst] in ND. inversion ND as [|? ? NI ND']; subst.
    assert (K : keys (MkParams (sset a (entry a o) (mp_dict m)) (new_power a o (mp_power m))) = (keys m ++ [a])%list).
    { unfold keys. cbn [mp_dict]. rewrite sset_new; [rewrite map_app; reflexivity|]. apply (N a). now left. }
    rewrite (IH _ m' H).
    + rewrite K, <- app_assoc. reflexivity.
    + intros b x X. apply (M b x). now right.
    + exact ND'.
    + intros b B. rewrite K. intros X. apply in_app_or in X. destruct X as [X|[<-|[]]]; [|tauto].
      apply (N b); [now right|exact X].
Qed.

Lemma keys_complete h d m : Inv h d m -> (forall k, In k mandatory -> exists a o, In (a, o) d /\ means a k) ->
  forall k, In k (keys m) <-> In k mandatory.
Proof.
  intros I R k. split; [apply I|]. intros K. destruct (last_proper h d m k I R K) as (o & L & _).
  pose proof (proj1 I k K) as G. rewrite L in G. cbn in G. apply (aget_Some_key String.eqb Seqb_spec) in G. exact G.
Qed.

Lemma as_obj_proper h h' k o g : proper_value h k o -> shows h k o g -> proper_value h' k (as_obj g).
Proof.
  intros P S.
  destruct S as [(N & s & -> & ->)|[(K & l & E & ->)|(-> & d & -> & ->)]].
  - destruct P as [(_ & s' & f & X & A & B)|P].
    + inversion X; subst. left. split; [exact N|]. exists s', f. auto.
    + exfalso. cbn in N. destruct P as [[-> _]|[[-> _]|[-> _]]]; intuition discriminate.
  - cbn [as_obj].
    assert (Q : forall P', array_of P' h o l -> array_of P' h' (OTuple l) l).
    { intros P' (_ & B & C). split; [now left|]. auto. }
    assert (U : forall l', elements h o l' -> l' = l).
    { intros l'. apply elements_items in E. rewrite elements_items. congruence. }
    destruct P as [(N & _)|[(-> & l' & A)|[(-> & l' & A)|(-> & _)]]].
    + exfalso. cbn in N. destruct K as [-> | ->]; intuition discriminate.
    + right; left. split; [reflexivity|]. exists l. apply Q. pose proof (U l' (proj1 A)). subst. exact A.
    + right; right; left. split; [reflexivity|]. exists l. apply Q. pose proof (U l' (proj1 A)). subst. exact A.
    + exfalso. destruct K; discriminate.
  - destruct P as [(N & _)|[(X & _)|[(X & _)|(_ & d' & X & A)]]]; try discriminate.
    + exfalso. cbn in N. intuition discriminate.
    + inversion X; subst. right; right; right. split; [reflexivity|]. exists d'. auto.
Qed.

Lemma shows_again h h' k o g : shows h k o g -> shows h' k (as_obj g) g.
Proof.
  intros [(N & s & -> & ->)|[(K & l & E & ->)|(-> & d & -> & ->)]].
  - left. split; [exact N|]. exists s. auto.
  - right; left. split; [exact K|]. exists l. split; [now left|reflexivity].
  - right; right. split; [reflexivity|]. exists d. auto.
Qed.

Lemma shows_fun h k o g g' : shows h k o g -> shows h k o g' -> g = g'.
Proof.
  intros [(N & s & -> & ->)|[(K & l & E & ->)|(-> & d & -> & ->)]] [(N' & s' & X & ->)|[(K' & l' & E' & ->)|(X & d' & X' & ->)]];
    try congruence; try (exfalso; cbn in *; intuition (subst; discriminate)).
  apply elements_items in E, E'. congruence.
Qed.

Lemma mapM_all {A B} (f : A -> res B) l : (forall x, In x l -> exists y, f x = Ok y) -> exists ys, mapM f l = Ok ys.
Proof.
  induction l as [|x l IH]; intros H; [eexists; reflexivity|]. destruct (H x (or_introl eq_refl)) as (y & Y).
  destruct IH as (ys & YS); [intros z Z; apply H; now right|]. exists (y :: ys). cbn. now rewrite Y, YS.
Qed.

Lemma as_dict_inv h m g : as_dict h m = Ok g -> map fst g = keys m /\ forall k v, In (k, v) g -> getitem h m k = Ok v.
Proof.
  unfold as_dict. generalize (keys m). intros ks. revert g. induction ks as [|k ks IH]; intros g H; cbn [mapM] in H.
  - inversion H; subst. split; [reflexivity|]. intros k v [].
  - destruct (getitem h m k) as [v|] eqn:V; [|discriminate]. cbn [bind] in H.
    match type of H with context [mapM ?f ks] => destruct (mapM f ks) as [g'|] eqn:G end; [|discriminate].
    cbn in H. inversion H; subst. destruct (IH g' eq_refl) as [A B]. split; [cbn; now rewrite A|].
    intros k' v' [X|X]; [inversion X; subst; exact V|]. auto.
Qed.

Lemma as_dict_eq h m h' m' g : as_dict h m = Ok g -> keys m' = keys m ->
  (forall k, In k (keys m) -> getitem h' m' k = getitem h m k) -> as_dict h' m' = Ok g.
Proof.
  intros H K G. rewrite <- H. unfold as_dict. rewrite K. apply mapM_ext. intros k I. now rewrite (G k I).
Qed.

Lemma supdate_nil {V} (d : list (string * V)) : supdate d [] = d.
Proof. reflexivity. Qed.

Theorem round_trip h src kw m : init h src kw = Ok m ->
  exists g, as_dict h m = Ok g /\
    forall h', exists m', init h' (SrcDict (again g)) [] = Ok m' /\ as_dict h' m' = Ok g.
Proof.
  intros H. destruct (accepted_inv h src kw m H) as (d & TD & I & R & MT).
  pose proof (keys_complete h _ m I R) as KC.
  assert (G : forall k, In k mandatory -> exists o v, lastv (supdate d kw) k = Some o /\ proper_value h k o /\ shows h k o v /\ getitem h m k = Ok v).
  { intros k K. destruct (last_proper h _ m k I R K) as (o & L & P). destruct (shows_entry h _ m k o I K L P) as (v & S & V).
    exists o, v. auto. }
  destruct (mapM_all (fun k => let* v := getitem h m k in Ok (k, v)) (keys m)) as (g & GG).
  { intros k K. apply KC in K. destruct (G k K) as (o & v & _ & _ & _ & V). rewrite V. cbn. eauto. }
  exists g. split; [exact GG|]. intros h'.
  destruct (as_dict_inv h m g GG) as [GK GV].
  assert (AK : map fst (again g) = keys m). { unfold again. rewrite map_map. cbn. exact GK. }
  assert (ND : NoDup (keys m)) by apply I.
  (* every entry of the new dictionary *)
  assert (EN : forall a o, In (a, o) (again g) -> exists o1 v, In a mandatory /\ lastv (supdate d kw) a = Some o1 /\
                 proper_value h a o1 /\ shows h a o1 v /\ getitem h m a = Ok v /\ o = as_obj v).
  { intros a o X. unfold again in X. apply in_map_iff in X. destruct X as ([k v] & X & IN). cbn in X. inversion X; subst.
    pose proof (GV a v IN) as V. assert (K : In a mandatory). { apply KC. rewrite <- GK. apply in_map_iff. exists (a, v). auto. }
    destruct (G a K) as (o1 & v1 & L & P & S & V1). exists o1, v1. assert (v1 = v) by congruence. subst. auto 8. }
  assert (IN : forall k, In k mandatory -> exists o, In (k, o) (again g)).
  { intros k K. apply KC in K. rewrite <- AK in K. apply in_map_iff in K. destruct K as ([k' o] & <- & K). eauto. }
  assert (NR : no_repetition (again g)).
  { split; [rewrite AK; exact ND|]. intros a b k A B MA MB.
    apply in_map_iff in A, B. destruct A as ([a' oa] & <- & A). destruct B as ([b' ob] & <- & B). cbn in *.
    destruct (EN _ _ A) as (_ & _ & KA & _). destruct (EN _ _ B) as (_ & _ & KB & _).
    rewrite (means_fun _ _ _ (mandatory_means _ KA) MA). apply (means_fun b'); [exact MB|]. now apply mandatory_means. }
  assert (GL : forall k o, given_last (again g) k o -> exists o1 v, In k mandatory /\ lastv (supdate d kw) k = Some o1 /\
                 proper_value h k o1 /\ shows h k o1 v /\ getitem h m k = Ok v /\ o = as_obj v).
  { intros k o (a & pre & post & E & M & _).
    assert (A : In (a, o) (again g)) by (rewrite E; apply in_or_app; right; now left).
    destruct (EN a o A) as (o1 & v & K & X). rewrite (means_fun _ _ _ M (mandatory_means _ K)). eauto. }
  assert (AC : exists m', init h' (SrcDict (again g)) [] = Ok m').
  { apply (accepted_iff h' (SrcDict (again g)) [] (again g) eq_refl).
    - rewrite supdate_nil. exact NR.
    - rewrite supdate_nil. split; [split|].
      + intros a o X. destruct (EN a o X) as (o1 & v & K & L & P & S & V & ->). exists a. split; [now apply mandatory_means|].
        eapply as_obj_proper; eauto.
      + intros k K. destruct (IN k K) as (o & O). exists k, o. split; [exact O|now apply mandatory_means].
      + intros op ot oe lp lt GP GT GE EP ET.
        destruct (GL _ _ GP) as (op1 & vp & KP & LP & PP & SP & VP & ->).
        destruct (GL _ _ GT) as (ot1 & vt & KT & LT & PT & ST & VT & ->).
        destruct (GL _ _ GE) as (oe1 & ve & KE & LE & PE & SE & VE & OE).
        destruct SP as [(N & _)|[(_ & lp1 & EP1 & ->)|(X & _)]]; try discriminate; [exfalso; cbn in N; intuition discriminate|].
        destruct ST as [(N & _)|[(_ & lt1 & ET1 & ->)|(X & _)]]; try discriminate; [exfalso; cbn in N; intuition discriminate|].
        destruct SE as [(_ & s & -> & ->)|[([X|X] & _)|(X & _)]]; try discriminate.
        cbn in OE. inversion OE; subst.
        apply elements_items in EP, ET. cbn in EP, ET. inversion EP; subst. inversion ET; subst.
        apply (MT op1 ot1 s lp lt); auto; now apply lastv_given. }
  destruct AC as (m' & AC). exists m'. split; [exact AC|].
  destruct (accepted_inv h' _ _ m' AC) as (d' & TD' & I' & R' & _). inversion TD'; subst d'. rewrite supdate_nil in *.
  apply (as_dict_eq h m h' m' g GG).
  - apply init_iff in AC. destruct AC as (d' & TD2 & _ & _ & SP & _). inversion TD2; subst d'. rewrite supdate_nil in SP.
    rewrite (loop_order h' (again g) (MkParams [] (MkPower None None)) m' SP).
    + exact AK.
    + intros a o X. destruct (EN a o X) as (? & ? & K & _). exact K.
    + rewrite AK. exact ND.
    + intros a _ [].
  - intros k K. apply KC in K. destruct (last_proper h' _ m' k I' R' K) as (o & L & P).
    destruct (shows_entry h' _ m' k o I' K L P) as (v' & S' & V').
    apply lastv_given in L. destruct (GL k o L) as (o1 & v & _ & _ & _ & S & V & ->).
    rewrite V, V'. f_equal. eapply shows_fun; [exact S'|]. eapply shows_again; eauto.
Qed.

(** ** Nothing done to the instance changes it *)

(** The caller's lists among the values kept in the instance. *)
Lemma contents_frame h h' o : (forall a, o = Some (OList a) -> h' a = h a) -> contents h' o = contents h o.
Proof. destruct o as [[]|]; cbn; intros H; try reflexivity. now rewrite (H a eq_refl). Qed.

Lemma getitem_frame h h' m k :
  (forall a, pw_power (mp_power m) = Some (OList a) \/ pw_time (mp_power m) = Some (OList a) -> h' a = h a) ->
  getitem h' m k = getitem h m k.
Proof.
  intros H. unfold getitem.
  rewrite (contents_frame h h' (pw_power (mp_power m))) by (intros a A; apply H; now left).
  rewrite (contents_frame h h' (pw_time (mp_power m))) by (intros a A; apply H; now right). reflexivity.
Qed.

Lemma run_ops_frame l : forall h m,
  snd (run_ops (h, m) l) = m /\
  forall a, (forall x, ~ In (PCallerList a x) l) -> fst (run_ops (h, m) l) a = h a.
Proof.
  induction l as [|o l IH]; intros h m; [split; reflexivity|].
  unfold run_ops in *. cbn [fold_left].
  destruct o as [k v|k|k|b x]; cbn [run_op fst].
  1-3: destruct (IH h m) as [A B]; split; [exact A|]; intros a N; apply B; intros y Y; apply (N y); now right.
  destruct (IH (fun b0 => if Nat.eqb b b0 then x else h b0) m) as [A B].
  split; [exact A|]. intros a N. rewrite B; [|intros y Y; apply (N y); now right].
  destruct (Nat.eqb_spec b a) as [->|]; [|reflexivity]. exfalso. apply (N x). now left.
Qed.

Theorem immutable h src kw m l : init h src kw = Ok m ->
  (forall a x, In (PCallerList a x) l -> forall d k, the_dict src = Some d -> ~ In (k, OList a) (supdate d kw)) ->
  forall k, getitem (fst (run_ops (h, m) l)) (snd (run_ops (h, m) l)) k = getitem h m k.
Proof.
  intros H N k. destruct (run_ops_frame l h m) as [A B]. rewrite A. apply getitem_frame.
  destruct (accepted_inv h src kw m H) as (d & TD & I & _). destruct I as (_ & (I2 & I3) & _).
  intros a X. apply B. intros x IN.
  rewrite I2, I3 in X. destruct X as [X|X]; apply lastv_In in X; destruct X as (b & Y & _); exact (N a x IN d b TD Y).
Qed.

Theorem same_spelling h m a b k : means a k -> means b k -> getitem h m a = getitem h m b.
Proof. intros A B. unfold getitem. now rewrite (proj2 (sget_means a k) A), (proj2 (sget_means b k) B). Qed.

Theorem assignment s o : (exists k v, o = PSetItem k v) \/ (exists k, o = PDelItem k) -> run_op s o = (s, Err EType).
Proof. intros [(k & v & ->)|(k & ->)]; reflexivity. Qed.
