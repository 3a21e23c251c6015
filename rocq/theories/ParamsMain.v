From Verif Require Import Base BaseLemmas GlobalModel ModelParams ParamsSpec ParamsProofs.


(** ** The value given last *)

Definition is_for (k a : string) : bool :=
  match sget a alternative2nominal with Some k' => String.eqb k' k | None => false end.

Lemma is_for_iff k a : is_for k a = true <-> means a k.
Proof.
  unfold is_for. rewrite <- sget_means. destruct (sget a alternative2nominal) as [k'|]; [|split; discriminate].
  rewrite String.eqb_eq. split; congruence.
Qed.

Definition lastv (d : list (string * obj)) (k : string) : option obj :=
  fold_left (fun acc kv => if is_for k (fst kv) then Some (snd kv) else acc) d None.

Lemma lastv_snoc d a o k : lastv (d ++ [(a, o)]) k = if is_for k a then Some o else lastv d k.
Proof. unfold lastv. rewrite fold_left_app. reflexivity. Qed.

Lemma lastv_given d k o : lastv d k = Some o <-> given_last d k o.
Proof.
  revert o. induction d as [|[a x] d IH] using rev_ind; intros o.
  - split; [discriminate|]. intros (a & pre & post & D & _). destruct pre; discriminate.
  - rewrite lastv_snoc. destruct (is_for k a) eqn:F.
    + apply is_for_iff in F. split.
      * intros H. inversion H; subst. exists a, d, []. split; [reflexivity|]. split; [exact F|]. intros b y [].
      * intros (b & pre & post & D & M & N). destruct post as [|z post] using rev_ind.
        -- apply app_inj_tail in D. destruct D as [_ D]. congruence.
        -- rewrite app_comm_cons, app_assoc in D. apply app_inj_tail in D. destruct D as [_ <-].
           exfalso. apply (N a x); [|exact F]. apply in_or_app. right. now left.
    + rewrite IH. split.
      * intros (b & pre & post & -> & M & N). exists b, pre, (post ++ [(a, x)])%list. split.
        { rewrite <- app_assoc. reflexivity. }
        split; [exact M|]. intros c y H. apply in_app_or in H. destruct H as [H|[H|[]]]; [eauto|]. inversion H; subst.
        intros X. apply is_for_iff in X. congruence.
      * intros (b & pre & post & D & M & N). destruct post as [|z post] using rev_ind.
        -- apply app_inj_tail in D. destruct D as [_ D]. inversion D; subst. apply is_for_iff in M. congruence.
        -- rewrite app_comm_cons, app_assoc in D. apply app_inj_tail in D. destruct D as [-> <-].
           exists b, pre, post. split; [reflexivity|]. split; [exact M|]. intros c y H. apply (N c y). apply in_or_app. now left.
Qed.

Lemma lastv_In d k o : lastv d k = Some o -> exists a, In (a, o) d /\ means a k.
Proof.
  intros H. apply lastv_given in H. destruct H as (a & pre & post & -> & M & _). exists a. split; [|exact M].
  apply in_or_app. right. now left.
Qed.

Lemma lastv_some d k a o : In (a, o) d -> means a k -> exists o', lastv d k = Some o'.
Proof.
  induction d as [|[b x] d IH] using rev_ind; [intros []|]. intros I M. rewrite lastv_snoc.
  destruct (is_for k b) eqn:F; [eauto|]. apply in_app_or in I. destruct I as [I|[I|[]]]; [eauto|].
  inversion I; subst. apply is_for_iff in M. congruence.
Qed.

(** ** The loop *)

Definition sizes_agree (h : heap) (p : power) : Prop :=
  forall a b, pw_power p = Some a -> pw_time p = Some b -> size h a = size h b.

Definition Inv (h : heap) (d : list (string * obj)) (m : params) : Prop :=
  (forall k, In k mandatory -> sget k (mp_dict m) = option_map (entry k) (lastv d k)) /\
  (pw_power (mp_power m) = lastv d "power" /\ pw_time (mp_power m) = lastv d "t_power") /\
  (NoDup (keys m) /\ forall k, In k (keys m) -> In k mandatory) /\
  sizes_agree h (mp_power m) /\
  (forall a o, In (a, o) d -> exists k, means a k /\ proper_value h k o).

Lemma Inv_start h : Inv h [] (MkParams [] (MkPower None None)).
Proof.
  split; [reflexivity|]. split; [split; reflexivity|]. split; [split; [constructor|intros k []]|].
  split; [discriminate|]. intros a o [].
Qed.

Lemma other_power k p : other k p = if String.eqb k "power" then pw_time p else if String.eqb k "t_power" then pw_power p else None.
Proof. reflexivity. Qed.

Lemma keys_sset k v (d : list (string * pval)) x : In x (map fst (sset k v d)) -> x = k \/ In x (map fst d).
Proof.
  induction d as [|[k' v'] d IH]; cbn; [intuition|]. destruct (String.eqb_spec k k'); cbn; intuition.
Qed.

Lemma Inv_step h d m a o m' : Inv h d m -> set_param h m (a, o) = Ok m' -> Inv h (d ++ [(a, o)]) m'.
Proof.
  intros (I1 & (I2 & I3) & (I4 & I5) & I6 & I7) H.
  destruct (sget a alternative2nominal) as [k|] eqn:A.
  2:{ unfold set_param in H. cbn [fst] in H. rewrite A in H. discriminate. }
  apply sget_means in A. pose proof (means_mandatory a k A) as M.
  apply (set_param_iff h m a k o m' A) in H. destruct H as (P & F & ->).
  assert (IF : forall k', is_for k' a = String.eqb k k').
  { intros k'. unfold is_for. now rewrite (proj2 (sget_means a k) A). }
  split; [|split; [|split; [|split]]]; cbn [mp_dict mp_power].
  - intros k' M'. rewrite lastv_snoc, IF. destruct (String.eqb_spec k k') as [<-|N].
    + rewrite (aget_aset_same String.eqb Seqb_spec). reflexivity.
    + rewrite (aget_aset_other String.eqb Seqb_spec); [auto|congruence].
  - rewrite !lastv_snoc, !IF. unfold new_power.
    destruct (String.eqb_spec k "power") as [->|N1]; cbn.
    + split; [reflexivity|exact I3].
    + destruct (String.eqb_spec k "t_power") as [->|N2]; cbn; auto.
  - split.
    + unfold keys. cbn [mp_dict]. apply (NoDup_aset String.eqb Seqb_spec). exact I4.
    + intros x X. apply keys_sset in X. destruct X as [->|X]; auto.
  - unfold sizes_agree, new_power. unfold fits, other in F.
    destruct (String.eqb_spec k "power") as [->|N1]; cbn [pw_power pw_time].
    + intros x y X Y. inversion X; subst. symmetry. apply F. exact Y.
    + destruct (String.eqb_spec k "t_power") as [->|N2]; cbn [pw_power pw_time]; [|exact I6].
      intros x y X Y. inversion Y; subst. apply F. exact X.
  - intros b x X. apply in_app_or in X. destruct X as [X|[X|[]]]; [eauto|]. inversion X; subst. eauto.
Qed.

Lemma Inv_loop h d' : forall d m m', Inv h d m -> set_params h m d' = Ok m' -> Inv h (d ++ d') m'.
Proof.
  induction d' as [|[a o] d' IH]; intros d m m' I H; cbn [set_params] in H.
  - inversion H; subst. now rewrite app_nil_r.
  - destruct (set_param h m (a, o)) as [m1|] eqn:S; [|discriminate]. cbn in H.
    replace (d ++ (a, o) :: d') with ((d ++ [(a, o)]) ++ d') by now rewrite <- app_assoc.
    apply (IH _ m1 m'); [|exact H]. eapply Inv_step; eauto.
Qed.

Definition sized (h : heap) (n : nat) (d : list (string * obj)) : Prop :=
  forall a o, In (a, o) d -> means a "power" \/ means a "t_power" -> size h o = n.
Definition power_sized (h : heap) (n : nat) (p : power) : Prop :=
  forall o, pw_power p = Some o \/ pw_time p = Some o -> size h o = n.

Lemma loop_accepts h n d : forall m,
  (forall a o, In (a, o) d -> exists k, means a k /\ proper_value h k o) ->
  sized h n d -> power_sized h n (mp_power m) -> exists m', set_params h m d = Ok m'.
Proof.
  induction d as [|[a o] d IH]; intros m P S W; cbn [set_params]; [eauto|].
  destruct (P a o (or_introl eq_refl)) as (k & M & V).
  assert (F : fits h k o (mp_power m)).
  { intros b B. unfold other in B. destruct (String.eqb_spec k "power") as [->|N1].
    - rewrite (W b); [|now right]. symmetry. apply (S a o (or_introl eq_refl)). now left.
    - destruct (String.eqb_spec k "t_power") as [->|N2]; [|discriminate].
      rewrite (W b); [|now left]. symmetry. apply (S a o (or_introl eq_refl)). now right. }
  rewrite (proj2 (set_param_iff h m a k o _ M) (conj V (conj F eq_refl))). cbn [bind].
  apply IH.
  - intros b x X. apply P. now right.
  - intros b x X. apply S. now right.
  - cbn [mp_power]. intros x. unfold new_power.
    destruct (String.eqb_spec k "power") as [->|N1]; cbn [pw_power pw_time].
    + intros [X|X]; [inversion X; subst; apply (S a x (or_introl eq_refl)); now left|apply W; now right].
    + destruct (String.eqb_spec k "t_power") as [->|N2]; cbn [pw_power pw_time]; [|apply W].
      intros [X|X]; [apply W; now left|]. inversion X; subst; apply (S a x (or_introl eq_refl)); now right.
Qed.

Lemma loop_raises h d : forall m, (forall a o, In (a, o) d -> exists k, means a k) -> raises_params (set_params h m d).
Proof.
  induction d as [|[a o] d IH]; intros m P e H; cbn [set_params] in H; [discriminate|].
  destruct (P a o (or_introl eq_refl)) as (k & M).
  destruct (set_param h m (a, o)) as [m1|e1] eqn:S; cbn in H.
  - apply (IH m1); [|exact H]. intros b x X. apply (P b x). now right.
  - inversion H; subst. now apply (set_param_raises h m a k o M).
Qed.

(** ** The constructor *)

Lemma keys_check (all : list (string * obj)) ks :
  mapM (fun kv => match sget (fst kv) alternative2nominal with Some k => Ok k | None => Err EModelParams end) all = Ok ks <->
  Forall2 (fun kv k => means (fst kv) k) all ks.
Proof.
  revert ks. induction all as [|[a o] all IH]; intros ks; cbn [mapM].
  - split; [intros H; inversion H; constructor|]. intros H; inversion H; reflexivity.
  - cbn [fst]. split.
    + intros H. destruct (sget a alternative2nominal) as [k|] eqn:A; [|discriminate]. cbn [bind] in H.
      match type of H with context [mapM ?f all] => destruct (mapM f all) as [ks'|] eqn:M end; [|discriminate].
      inversion H; subst. constructor; [now apply sget_means|]. now apply IH.
    + intros H. inversion H as [|? k ? ks' A B]; subst. cbn [fst] in A. rewrite (proj2 (sget_means a k) A). cbn [bind].
      rewrite (proj2 (IH ks') B). reflexivity.
Qed.

Lemma subset_mandatory all ks : Forall2 (fun (kv : string * obj) k => means (fst kv) k) all ks ->
  subsetS ks (map fst nominal2alternative) = true.
Proof.
  intros F. apply subsetS_incl. change (map fst nominal2alternative) with mandatory.
  intros k K. induction F as [|kv k' all ks A F IH]; [destruct K|]. destruct K as [<-|K]; [|auto].
  eapply means_mandatory; eauto.
Qed.

Lemma Forall2_in_l {A B} (R : A -> B -> Prop) l l' x : Forall2 R l l' -> In x l -> exists y, In y l' /\ R x y.
Proof.
  intros F. induction F as [|a b l l' H F IH]; intros I; [destruct I|]. destruct I as [<-|I].
  - exists b. split; [now left|exact H].
  - destruct (IH I) as (z & Z & ZZ). exists z. split; [now right|exact ZZ].
Qed.
Lemma Forall2_in_r {A B} (R : A -> B -> Prop) l l' y : Forall2 R l l' -> In y l' -> exists x, In x l /\ R x y.
Proof.
  intros F. induction F as [|a b l l' H F IH]; intros I; [destruct I|]. destruct I as [<-|I].
  - exists a. split; [now left|exact H].
  - destruct (IH I) as (z & Z & ZZ). exists z. split; [now right|exact ZZ].
Qed.

Lemma required_present all ks : Forall2 (fun (kv : string * obj) k => means (fst kv) k) all ks ->
  (subsetS (map fst nominal2alternative) ks = true <-> forall k, In k mandatory -> exists a o, In (a, o) all /\ means a k).
Proof.
  intros F. rewrite subsetS_incl. change (map fst nominal2alternative) with mandatory. split.
  - intros S k K. destruct (Forall2_in_r _ _ _ k F (S k K)) as ([a o] & I & M). eauto.
  - intros S k K. destruct (S k K) as (a & o & I & M). destruct (Forall2_in_l _ _ _ _ F I) as (k' & K' & M').
    cbn [fst] in M'. now rewrite (means_fun a k k' M M').
Qed.

Lemma all_keys all : (forall a o, In (a, o) all -> exists k, means a k) ->
  exists ks, Forall2 (fun (kv : string * obj) k => means (fst kv) k) all ks.
Proof.
  induction all as [|[a o] all IH]; intros H; [eexists; constructor|].
  destruct (H a o (or_introl eq_refl)) as (k & K). destruct IH as (ks & KS); [intros b x X; apply (H b x); now right|].
  exists (k :: ks). now constructor.
Qed.

(** *** Power and time *)

Lemma last_rev {A} (l : list A) d x r : rev l = x :: r -> last l d = x.
Proof.
  intros H. assert (l = rev r ++ [x]) as -> by (rewrite <- (rev_involutive l), H; reflexivity).
  apply last_last.
Qed.

Lemma at_most_zero f : f <> NaN -> (fltb fzero f = false <-> at_most f (Fin 0)).
Proof.
  destruct f; cbn; intros; try tauto; try (split; [discriminate|tauto]).
  rewrite negb_false_iff. apply Qle_bool_iff.
Qed.

Lemma covers_end tn te : tn <> NaN -> above_zero te ->
  (fltb tn (fmul (Fin (11 # 10)) te) = false <->
   at_most match te with Fin q => Fin ((11 # 10) * q) | x => x end tn).
Proof.
  intros N P. destruct te as [q| | |]; cbn in P; try tauto.
  - cbn [fmul]. destruct tn; cbn; try tauto; try (split; [discriminate|tauto]).
    rewrite negb_false_iff. apply Qle_bool_iff.
  - replace (fmul (Fin (11 # 10)) PInf) with PInf by reflexivity. destruct tn; cbn; try tauto; split; try discriminate; tauto.
Qed.

Lemma num_of s f : a_number s f -> num s = f.
Proof. rewrite a_number_of. unfold num. now intros [-> _]. Qed.

Lemma power_ok h p t lp lt te :
  contents h (pw_power p) = Some lp -> contents h (pw_time p) = Some lt -> (2 <= List.length lt)%nat ->
  (forall s, In s lt -> exists f, a_number s f) -> a_number t te -> above_zero te ->
  (assert_power h p t = Ok tt <-> covers lt t).
Proof.
  intros C1 C2 L N T P. unfold assert_power. rewrite C1, C2.
  destruct lt as [|t0 lt']; [cbn in L; lia|]. destruct (rev (t0 :: lt')) as [|tn r] eqn:R.
  { apply (f_equal (@List.length scalar)) in R. rewrite rev_length in R. discriminate. }
  pose proof (last_rev _ SNone _ _ R) as LR.
  destruct (N t0 (or_introl eq_refl)) as (f0 & F0).
  destruct (N tn) as (fn & FN).
  { apply in_rev. rewrite R. now left. }
  rewrite (num_of _ _ F0), (num_of _ _ FN), (num_of _ _ T).
  assert (N0 : f0 <> NaN) by apply F0. assert (NN : fn <> NaN) by apply FN.
  unfold covers. rewrite LR. cbn [hd]. unfold raise_if. split.
  - intros H. destruct (fltb fzero f0) eqn:A; [discriminate|]. cbn in H.
    destruct (fltb fn _) eqn:B; [discriminate|].
    exists f0, fn, te. split; [exact F0|]. split; [exact FN|]. split; [exact T|]. split; [now apply at_most_zero|]. now apply covers_end.
  - intros (g0 & gn & ge & G0 & GN & GE & A & B).
    rewrite <- (a_number_fun _ _ _ F0 G0) in A. rewrite <- (a_number_fun _ _ _ FN GN), <- (a_number_fun _ _ _ T GE) in B.
    rewrite (proj2 (at_most_zero f0 N0) A). cbn [bind]. now rewrite (proj2 (covers_end fn te NN P) B).
Qed.

(** What is known after the loop, once every mandatory parameter is there. *)
Lemma after_loop h d m : Inv h d m -> (forall k, In k mandatory -> exists a o, In (a, o) d /\ means a k) ->
  exists op ot oe lp lt te,
    lastv d "power" = Some op /\ lastv d "t_power" = Some ot /\ lastv d "t_end" = Some (OSc oe) /\
    items h op = Some lp /\ items h ot = Some lt /\ List.length lp = List.length lt /\ (2 <= List.length lt)%nat /\
    (forall s, In s lt -> exists f, a_number s f) /\ a_number oe te /\ above_zero te /\
    sget "power" (mp_dict m) = Some PPower /\ sget "t_power" (mp_dict m) = Some PPower /\
    sget "t_end" (mp_dict m) = Some (PNum oe) /\
    contents h (pw_power (mp_power m)) = Some lp /\ contents h (pw_time (mp_power m)) = Some lt.
Proof.
  intros (I1 & (I2 & I3) & _ & I6 & I7) R.
  assert (G : forall k, In k mandatory -> exists o, lastv d k = Some o /\ proper_value h k o).
  { intros k K. destruct (R k K) as (a & o & I & M). destruct (lastv_some d k a o I M) as (o' & L).
    exists o'. split; [exact L|]. destruct (lastv_In _ _ _ L) as (b & B & BM). destruct (I7 b o' B) as (k' & M' & P).
    now rewrite (means_fun b k k' BM M'). }
  destruct (G "power") as (op & LP & PP); [cbn; tauto|].
  destruct (G "t_power") as (ot & LT & PT); [cbn; tauto|].
  destruct (G "t_end") as (oe & LE & PE); [cbn; tauto|].
  destruct PP as [[X _]|[(_ & lp & EP & _)|[[X _]|[X _]]]]; try discriminate; [cbn in X; intuition discriminate|].
  destruct PT as [[X _]|[[X _]|[(_ & lt & ET & LL & NT)|[X _]]]]; try discriminate; [cbn in X; intuition discriminate|].
  destruct PE as [(_ & s & te & -> & NE & PE)|[[X _]|[[X _]|[X _]]]]; try discriminate.
  apply elements_items in EP. apply elements_items in ET.
  exists op, ot, s, lp, lt, te.
  split; [exact LP|]. split; [exact LT|]. split; [exact LE|]. split; [exact EP|]. split; [exact ET|].
  split.
  { rewrite <- (size_items h op lp EP), <- (size_items h ot lt ET). apply I6; congruence. }
  split; [exact LL|]. split; [intros x X; destruct (NT x X) as (f & F & _); eauto|]. split; [exact NE|]. split; [exact PE|].
  rewrite (I1 "power") by (cbn; tauto). rewrite (I1 "t_power") by (cbn; tauto). rewrite (I1 "t_end") by (cbn; tauto).
  rewrite LP, LT, LE, I2, I3, LP, LT. repeat split; assumption.
Qed.

Lemma init_iff h src kw m :
  init h src kw = Ok m <->
  exists d, the_dict src = Some d /\ let all := supdate d kw in
    (forall a o, In (a, o) all -> exists k, means a k) /\
    (forall k, In k mandatory -> exists a o, In (a, o) all /\ means a k) /\
    set_params h (MkParams [] (MkPower None None)) all = Ok m /\
    matching h all.
Proof.
  unfold init. split.
  - intros H.
    assert (exists d, the_dict src = Some d /\ match src with SrcNone => Ok [] | SrcDict d => Ok d | SrcParams _ => Err EAttribute end = Ok d) as (d & TD & SD).
    { destruct src; cbn in *; try discriminate; eauto. }
    rewrite SD in H. cbn [bind] in H. exists d. split; [exact TD|]. cbv zeta. set (all := supdate d kw) in *.
    match type of H with bind (mapM ?f all) _ = _ => destruct (mapM f all) as [ks|] eqn:K end; [|discriminate].
    cbn [bind] in H. apply keys_check in K. rewrite (subset_mandatory all ks K) in H. cbn [negb raise_if bind] in H.
    destruct (subsetS (map fst nominal2alternative) ks) eqn:S; [|discriminate]. cbn [negb raise_if bind] in H.
    pose proof (proj1 (required_present all ks K) S) as S0; clear S; rename S0 into S.
    destruct (set_params h _ all) as [m1|] eqn:SP; [|discriminate]. cbn [bind] in H.
    pose proof (Inv_loop h all [] _ m1 (Inv_start h) SP) as I. cbn [app] in I.
    destruct (after_loop h all m1 I S) as (op & ot & oe & lp & lt & te & LP & LT & LE & IP & IT & LL & L2 & NT & NE & PE & G1 & G2 & G3 & C1 & C2).
    rewrite G1, G2, G3 in H. destruct (assert_power h (mp_power m1) oe) as [[]|] eqn:A; [|discriminate]. cbn in H. inversion H; subst m1.
    apply (power_ok h _ oe lp lt te C1 C2 L2 NT NE PE) in A.
    split.
    { intros a o X. destruct (Forall2_in_l _ _ _ _ K X) as (k & _ & M). exists k. exact M. }
    split; [exact S|]. split; [reflexivity|].
    intros op' ot' oe' lp' lt' X1 X2 X3 X4 X5. apply lastv_given in X1, X2, X3. apply elements_items in X4, X5.
    assert (op' = op) by congruence. assert (ot' = ot) by congruence. assert (oe' = oe) by congruence. subst.
    assert (lp' = lp) by congruence. assert (lt' = lt) by congruence. subst. auto.
  - intros (d & TD & K & R & SP & MT). cbv zeta in *.
    assert (match src with SrcNone => Ok [] | SrcDict d => Ok d | SrcParams _ => Err EAttribute end = Ok d) as ->.
    { destruct src; cbn in *; congruence. }
    cbn [bind]. set (all := supdate d kw) in *.
    destruct (all_keys all K) as (ks & KS). rewrite (proj2 (keys_check all ks) KS). cbn [bind].
    rewrite (subset_mandatory all ks KS), (proj2 (required_present all ks KS) R). cbn [negb raise_if bind].
    rewrite SP. cbn [bind].
    pose proof (Inv_loop h all [] _ m (Inv_start h) SP) as I. cbn [app] in I.
    destruct (after_loop h all m I R) as (op & ot & oe & lp & lt & te & LP & LT & LE & IP & IT & LL & L2 & NT & NE & PE & G1 & G2 & G3 & C1 & C2).
    rewrite G1, G2, G3. rewrite (proj2 (power_ok h _ oe lp lt te C1 C2 L2 NT NE PE)); [reflexivity|].
    apply (MT op ot oe lp lt); try (apply lastv_given; assumption); apply elements_items; assumption.
Qed.

(** ** Consequences *)

Lemma shows_entry h d m k o : Inv h d m -> In k mandatory -> lastv d k = Some o -> proper_value h k o ->
  exists g, shows h k o g /\ getitem h m k = Ok g.
Proof.
  intros (I1 & (I2 & I3) & _) K L P. unfold getitem. rewrite (proj2 (sget_means k k) (mandatory_means k K)).
  rewrite (I1 k K), L. cbn [option_map].
  destruct P as [(N & s & f & -> & _)|[(-> & l & E & _)|[(-> & l & E & _)|(-> & dd & -> & _)]]].
  - exists (GNum s). split; [left; eauto|]. destruct (numeric_not k N) as (E1 & E2 & E3). rewrite E1, E2, E3.
    unfold entry. rewrite (proj2 (memS_In k numeric) N). reflexivity.
  - exists (GArray (Some l)). split; [right; left; eauto|]. cbn. rewrite I2, L. cbn. apply elements_items in E. now rewrite E.
  - exists (GArray (Some l)). split; [right; left; eauto|]. cbn. rewrite I3, L. cbn. apply elements_items in E. now rewrite E.
  - exists (GFeeds dd). split; [right; right; eauto|]. reflexivity.
Qed.

Lemma accepted_inv h src kw m : init h src kw = Ok m ->
  exists d, the_dict src = Some d /\ Inv h (supdate d kw) m /\
    (forall k, In k mandatory -> exists a o, In (a, o) (supdate d kw) /\ means a k) /\ matching h (supdate d kw).
Proof.
  intros H. apply init_iff in H. destruct H as (d & TD & K & R & SP & MT). exists d. split; [exact TD|].
  split; [|auto]. apply (Inv_loop h (supdate d kw) [] _ m (Inv_start h) SP).
Qed.

Lemma last_proper h d m k : Inv h d m -> (forall k, In k mandatory -> exists a o, In (a, o) d /\ means a k) ->
  In k mandatory -> exists o, lastv d k = Some o /\ proper_value h k o.
Proof.
  intros (_ & _ & _ & _ & I7) R K. destruct (R k K) as (a & o & I & M). destruct (lastv_some d k a o I M) as (o' & L).
  exists o'. split; [exact L|]. destruct (lastv_In _ _ _ L) as (b & B & BM). destruct (I7 b o' B) as (k' & M' & P).
  now rewrite (means_fun b k k' BM M').
Qed.

Theorem accepted_valid h src kw m : init h src kw = Ok m ->
  exists d, the_dict src = Some d /\ all_proper h (supdate d kw) /\ matching h (supdate d kw) /\
    forall k, In k mandatory -> exists o g, given_last (supdate d kw) k o /\ proper_value h k o /\ shows h k o g /\
      forall a, means a k -> getitem h m a = Ok g.
Proof.
  intros H. destruct (accepted_inv h src kw m H) as (d & TD & I & R & MT). exists d. split; [exact TD|].
  split; [split; [apply I|exact R]|]. split; [exact MT|]. intros k K.
  destruct (last_proper h _ m k I R K) as (o & L & P). destruct (shows_entry h _ m k o I K L P) as (g & S & G).
  exists o, g. split; [now apply lastv_given|]. split; [exact P|]. split; [exact S|].
  intros a M. rewrite <- G. unfold getitem. rewrite (proj2 (sget_means a k) M), (proj2 (sget_means k k) (mandatory_means k K)).
  reflexivity.
Qed.

Theorem unknown_key h m a : (forall k, ~ means a k) -> getitem h m a = Err EModelParams.
Proof.
  intros N. unfold getitem. destruct (sget a alternative2nominal) as [k|] eqn:A; [|reflexivity].
  apply sget_means in A. destruct (N k A).
Qed.

Lemma proper_size h k o : (k = "power" \/ k = "t_power") -> proper_value h k o -> exists l, elements h o l /\ size h o = List.length l.
Proof.
  intros K P. destruct P as [(N & _)|[(-> & l & E & _)|[(-> & l & E & _)|(-> & _)]]].
  - exfalso. cbn in N. destruct K as [-> | ->]; intuition discriminate.
  - exists l. split; [exact E|]. apply elements_items in E. now apply size_items.
  - exists l. split; [exact E|]. apply elements_items in E. now apply size_items.
  - exfalso. destruct K; discriminate.
Qed.

Theorem accepts h src kw d n : the_dict src = Some d ->
  all_proper h (supdate d kw) -> matching h (supdate d kw) ->
  (forall a o l, In (a, o) (supdate d kw) -> means a "power" \/ means a "t_power" -> elements h o l -> List.length l = n) ->
  exists m, init h src kw = Ok m.
Proof.
  intros TD [P R] MT S.
  destruct (loop_accepts h n (supdate d kw) (MkParams [] (MkPower None None))) as (m & SP).
  - exact P.
  - intros a o I M. destruct (P a o I) as (k & MK & V).
    assert (K : k = "power" \/ k = "t_power") by (destruct M as [M|M]; [left|right]; eapply means_fun; eauto).
    destruct (proper_size h k o K V) as (l & E & ->). eauto.
  - intros o [X|X]; discriminate.
  - exists m. apply init_iff. exists d. split; [exact TD|]. cbv zeta.
    split; [intros a o I; destruct (P a o I) as (k & M & _); eauto|]. auto.
Qed.

(** With every parameter given once the two conditions together are exact. *)
Lemma given_once d k a o : no_repetition d -> In (a, o) d -> means a k -> given_last d k o.
Proof.
  intros [ND R] I M. apply lastv_given. destruct (lastv_some d k a o I M) as (o' & L). rewrite L. f_equal.
  destruct (lastv_In _ _ _ L) as (b & B & BM).
  assert (b = a). { apply (R b a k); auto; apply in_map_iff; [exists (b, o')|exists (a, o)]; auto. }
  subst b. pose proof (In_aget String.eqb Seqb_spec a d o ND I). pose proof (In_aget String.eqb Seqb_spec a d o' ND B). congruence.
Qed.

Theorem accepted_iff h src kw d : the_dict src = Some d -> no_repetition (supdate d kw) ->
  ((exists m, init h src kw = Ok m) <-> all_proper h (supdate d kw) /\ matching h (supdate d kw)).
Proof.
  intros TD NR. split.
  - intros (m & H). destruct (accepted_valid h src kw m H) as (d' & TD' & A & B & _).
    assert (d' = d) by congruence. subst. auto.
  - intros [[P R] MT].
    destruct (R "power") as (ap & op & IP & MP); [cbn; tauto|].
    destruct (R "t_power") as (at_ & ot & IT & M_T); [cbn; tauto|].
    destruct (R "t_end") as (ae & oe & IE & ME); [cbn; tauto|].
    assert (V : forall a o k, In (a, o) (supdate d kw) -> means a k -> proper_value h k o).
    { intros a o k I M. destruct (P a o I) as (k' & M' & X). now rewrite (means_fun a k k' M M'). }
    destruct (proper_size h "power" op (or_introl eq_refl) (V _ _ _ IP MP)) as (lp & EP & _).
    destruct (proper_size h "t_power" ot (or_intror eq_refl) (V _ _ _ IT M_T)) as (lt & ET & _).
    assert (exists s, oe = OSc s) as (s & ->).
    { pose proof (V _ _ _ IE ME) as [(_ & s & f & -> & _)|[[X _]|[[X _]|[X _]]]]; try discriminate. eauto. }
    pose proof (given_once _ _ _ _ NR IP MP) as GP. pose proof (given_once _ _ _ _ NR IT M_T) as GT.
    pose proof (given_once _ _ _ _ NR IE ME) as GE.
    destruct (MT op ot s lp lt GP GT GE EP ET) as [LL _].
    apply (accepts h src kw d (List.length lt) TD (conj P R) MT).
    intros a o l I M E. apply elements_items in E, EP, ET.
    destruct M as [M|M]; pose proof (given_once _ _ _ _ NR I M) as G; apply lastv_given in G, GP, GT.
    + assert (o = op) by congruence. subst. congruence.
    + assert (o = ot) by congruence. subst. congruence.
Qed.

Theorem rejects h src kw e : init h src kw = Err e ->
  (forall m, src <> SrcParams m) -> e = EModelParams \/ e = EModelParamsType \/ e = EModelParamsConsistency.
Proof.
  intros H NS. assert (exists d, the_dict src = Some d) as (d & TD) by (destruct src; cbn; eauto; destruct (NS m); reflexivity).
  unfold init in H.
  assert (match src with SrcNone => Ok [] | SrcDict d => Ok d | SrcParams _ => Err EAttribute end = Ok d) as X.
  { destruct src; cbn in *; congruence. }
  rewrite X in H. cbn [bind] in H. set (all := supdate d kw) in *.
  match type of H with bind (mapM ?f all) _ = _ => destruct (mapM f all) as [ks|e'] eqn:K end.
  - apply keys_check in K. cbn [bind] in H. rewrite (subset_mandatory all ks K) in H. cbn [negb raise_if bind] in H.
    destruct (subsetS (map fst nominal2alternative) ks) eqn:S; cbn [negb raise_if bind] in H; [|inversion H; auto].
    pose proof (proj1 (required_present all ks K) S) as S0; clear S; rename S0 into S.
    destruct (set_params h _ all) as [m1|e1] eqn:SP; cbn [bind] in H.
    + pose proof (Inv_loop h all [] _ m1 (Inv_start h) SP) as I. cbn [app] in I.
      destruct (after_loop h all m1 I S) as (op & ot & oe & lp & lt & te & LP & LT & LE & IP & IT & LL & L2 & NT & NE & PE & G1 & G2 & G3 & C1 & C2).
      rewrite G1, G2, G3 in H. unfold assert_power in H. rewrite C1, C2 in H.
      destruct lt as [|t0 lt']; [cbn in L2; lia|]. destruct (rev (t0 :: lt')) as [|tn r] eqn:RR.
      { apply (f_equal (@List.length scalar)) in RR. rewrite rev_length in RR. discriminate. }
      unfold raise_if in H. destruct (fltb fzero (num t0)); [inversion H; auto|]. cbn in H.
      destruct (fltb (num tn) _); inversion H; auto.
    + inversion H; subst. apply (loop_raises h all (MkParams [] (MkPower None None))); [|exact SP].
      intros a o I. destruct (Forall2_in_l _ _ _ _ K I) as (k & _ & M). eauto.
  - cbn [bind] in H. inversion H; subst e'. left. clear H. revert e K.
    induction all as [|[a o] all IH]; intros e K; cbn [mapM] in K; [discriminate|].
    cbn [fst] in K. destruct (sget a alternative2nominal); cbn [bind] in K; [|congruence].
    match type of K with context [mapM ?f all] => destruct (mapM f all) as [ks|e'] eqn:M end; cbn [bind] in K; [discriminate|].
    inversion K; subst. now apply IH.
Qed.
