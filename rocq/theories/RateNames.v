(** Sets of names, ion processes and the HPEM text of reactions. *)
From Verif Require Import Base BaseLemmas Species Reactions Chemistry MolSpec ReactionProofs Classification Xml XmlSpec Hpem HpemSpec HpemText HpemMain RateCoef RateSpec.

Lemma Forall2_In_r {A B} (R : A -> B -> Prop) l m y : Forall2 R l m -> In y m -> exists x, In x l /\ R x y.
Proof.
  induction 1 as [|a b l m H F IH]; [now intros []|]. intros [<-|I]; [exists a; split; [now left|exact H]|].
  destruct (IH I) as (x & Hx & Rx). exists x. split; [now right|exact Rx].
Qed.

(** ** Names *)
Lemma first_seen_In l : forall seen x, In x (first_seen seen l) <-> In x l /\ ~ In x seen.
Proof.
  induction l as [|a l IH]; intros seen x; cbn [first_seen]; [cbn; tauto|].
  destruct (memS a seen) eqn:M.
  - apply memS_In in M. rewrite IH. cbn. split; [tauto|]. intros [[->|H] N]; [contradiction|tauto].
  - assert (~ In a seen) as N by (intros H; apply memS_In in H; congruence).
    cbn [In]. rewrite IH. cbn [In]. split.
    + intros [->|[H1 H2]]; [tauto|]. split; [tauto|]. tauto.
    + intros [[->|H] H']; [now left|]. destruct (string_dec a x) as [->|Q]; [now left|]. right. split; [exact H|]. intros [H2|H2]; tauto.
Qed.

Lemma first_seen_NoDup l : forall seen, NoDup (first_seen seen l).
Proof.
  induction l as [|a l IH]; intros seen; cbn [first_seen]; [constructor|].
  destruct (memS a seen); [apply IH|]. constructor; [|apply IH]. rewrite first_seen_In. cbn. tauto.
Qed.

(** [x] stands before [y] in the list of first occurrences: in the list itself
    [y] does not occur before the first [x]. *)
Lemma first_seen_order l : forall seen u x v y w, first_seen seen l = u ++ x :: v ++ y :: w ->
  exists a b, l = a ++ x :: b /\ ~ In x a /\ ~ In y a.
Proof.
  induction l as [|a l IH]; intros seen u x v y w H; cbn [first_seen] in H; [now destruct u|].
  destruct (memS a seen) eqn:M.
  - destruct (IH _ _ _ _ _ _ H) as (p & q & -> & N1 & N2). exists (a :: p), q. split; [reflexivity|].
    assert (forall z, In z (first_seen seen (p ++ x :: q)) -> a <> z) as Na.
    { intros z Hz ->. apply first_seen_In in Hz. apply memS_In in M. tauto. }
    rewrite H in Na. split; intros [Q|Q]; try tauto; revert Q; apply Na, in_app_iff; right; [now left|right; apply in_app_iff; right; now left].
  - destruct u as [|b u]; cbn [app] in H; injection H as <- H.
    + exists [], l. split; [reflexivity|]. now split.
    + destruct (IH _ _ _ _ _ _ H) as (p & q & -> & N1 & N2). exists (a :: p), q. split; [reflexivity|].
      assert (forall z, In z (first_seen (a :: seen) (p ++ x :: q)) -> a <> z) as Na.
      { intros z Hz ->. apply first_seen_In in Hz. cbn in Hz. tauto. }
      rewrite H in Na. split; intros [Q|Q]; try tauto; revert Q; apply Na, in_app_iff; right; [now left|right; apply in_app_iff; right; now left].
Qed.

Lemma names_Forall2 l ns : names_of l = Ok ns <-> Forall2 (fun p n => get_name p = Ok n) l ns.
Proof.
  unfold names_of. split; [apply mapM_Ok_inv|]. induction 1 as [|p n l ns H F IH]; [reflexivity|]. cbn. now rewrite H, IH.
Qed.

Lemma names_set r m l : get_rp_names_set r m = Ok l ->
  exists ns, Forall2 (fun p n => get_name p = Ok n)
      (match m with WLhs => r_lhs r | WRhs => r_rhs r | _ => r_lhs r ++ r_rhs r end) ns /\
    NoDup l /\ (forall n, In n l <-> In n ns) /\
    (forall u x v y w, l = u ++ x :: v ++ y :: w -> exists a b, ns = a ++ x :: b /\ ~ In x a /\ ~ In y a).
Proof.
  assert (G : forall ns, first_seen [] ns = l -> NoDup l /\ (forall n, In n l <-> In n ns) /\
    (forall u x v y w, l = u ++ x :: v ++ y :: w -> exists a b, ns = a ++ x :: b /\ ~ In x a /\ ~ In y a)).
  { intros ns <-. split; [apply first_seen_NoDup|]. split; [intros n; rewrite first_seen_In; cbn; tauto|]. intros u x v y w. apply first_seen_order. }
  unfold get_rp_names_set. destruct m; intros H; try discriminate.
  - destruct (names_of (r_lhs r)) as [ns|] eqn:N; [|discriminate]. injection H as H. exists ns. split; [now apply names_Forall2|now apply G].
  - destruct (names_of (r_rhs r)) as [ns|] eqn:N; [|discriminate]. injection H as H. exists ns. split; [now apply names_Forall2|now apply G].
  - destruct (names_of (r_lhs r)) as [ls|] eqn:N; [|discriminate]. cbn [bind] in H.
    destruct (names_of (r_rhs r)) as [rs|] eqn:N'; [|discriminate]. injection H as H. exists (ls ++ rs).
    split; [|now apply G]. apply Forall2_app; now apply names_Forall2.
Qed.

Lemma names_set_exists r m : m <> WOther -> (forall p, In p (r_lhs r ++ r_rhs r) -> exists n, get_name p = Ok n) ->
  exists l, get_rp_names_set r m = Ok l.
Proof.
  intros M H.
  assert (G : forall l, incl l (r_lhs r ++ r_rhs r) -> exists ns, names_of l = Ok ns).
  { intros l I. unfold names_of. induction l as [|p l IH]; [now exists []|].
    destruct (H p (I p (or_introl eq_refl))) as (n & Hn). destruct IH as (ns & Hns); [intros q Hq; apply I; now right|].
    exists (n :: ns). cbn. now rewrite Hn, Hns. }
  destruct (G (r_lhs r)) as (ls & L); [apply incl_appl, incl_refl|]. destruct (G (r_rhs r)) as (rs & R); [apply incl_appr, incl_refl|].
  unfold get_rp_names_set. rewrite L, R. destruct m; cbn; eauto. congruence.
Qed.

Lemma electron_names r l : get_rp_names_set r WLhs = Ok l -> (is_electron_process r = Ok true <-> In "e" l) /\ (is_electron_process r = Ok false <-> ~ In "e" l).
Proof.
  intros H. unfold get_rp_names_set in H. unfold is_electron_process. destruct (names_of (r_lhs r)) as [ns|]; [|discriminate].
  injection H as <-. cbn [bind]. rewrite first_seen_In. cbn [In].
  destruct (memS "e" ns) eqn:M.
  - apply memS_In in M. split; split; intros; try tauto; try discriminate; reflexivity.
  - assert (~ In "e" ns) by (intros Q; apply memS_In in Q; congruence). split; split; intros; try tauto; try discriminate; reflexivity.
Qed.

Lemma ion_process E r b : is_ion_process E r = Ok b ->
  (b = true <-> exists p z, In p (r_lhs r) /\ is_special p = Ok false /\ get_charge E p = Ok (Some z) /\ z <> 0).
Proof.
  unfold is_ion_process. generalize (r_lhs r) as l. intros l. revert b. induction l as [|p l IH]; intros b H; cbn [is_ion_process_of] in H.
  - injection H as <-. split; [discriminate|]. now intros (p & z & [] & _).
  - destruct (is_special p) as [sp|] eqn:S; cbn [bind] in H; [|discriminate]. destruct sp.
    + rewrite (IH b H). split; intros (q & z & I & Q); exists q, z; [split; [now right|exact Q]|].
      destruct I as [<-|I]; [|now split]. rewrite S in Q. now destruct Q.
    + destruct (get_charge E p) as [q|] eqn:C; cbn [bind] in H; [|discriminate].
      destruct (is_ion_process_of E l) as [b'|]; cbn [bind] in H; [|discriminate]. specialize (IH b' eq_refl). injection H as <-.
      rewrite Bool.orb_true_iff, IH. split.
      * intros [Q|(p' & z & I & Q)]; [|exists p', z; split; [now right|exact Q]].
        destruct q as [z|]; [|discriminate]. exists p, z. split; [now left|]. split; [exact S|]. split; [exact C|].
        intros ->. discriminate.
      * intros (p' & z & [<-|I] & S' & C' & Nz); [|right; now exists p', z]. left. rewrite C in C'. injection C' as ->.
        apply Bool.negb_true_iff. now apply Z.eqb_neq.
Qed.

(** ** The HPEM text *)
Lemma side_ok l ns : hpem_names l ns -> hpem_side l = Ok (str_join " + " ns).
Proof.
  intros H. unfold hpem_side.
  assert (mapM (fun p => match get_hpem_name p with Some n => Ok n | None => Err EType end) l = Ok ns) as ->; [|reflexivity].
  induction H as [|p n l ns Hp F IH]; [reflexivity|]. cbn [mapM]. rewrite Hp. cbn [bind]. now rewrite IH.
Qed.

Lemma side_inv l s : hpem_side l = Ok s -> exists ns, hpem_names l ns /\ s = str_join " + " ns.
Proof.
  unfold hpem_side. intros H.
  destruct (mapM (fun p => match get_hpem_name p with Some n => Ok n | None => Err EType end) l) as [ns|] eqn:M; [|discriminate].
  injection H as <-. exists ns. split; [|reflexivity]. apply mapM_Ok_inv in M.
  induction M as [|p n l ns Hp F IH]; constructor; [|exact IH]. destruct (get_hpem_name p); congruence.
Qed.

Lemma side_err l : (exists p, In p l /\ get_hpem_name p = None) -> hpem_side l = Err EType.
Proof.
  intros (p & I & N). unfold hpem_side.
  assert (mapM (fun p => match get_hpem_name p with Some n => Ok n | None => Err EType end) l = Err EType) as ->; [|reflexivity].
  induction l as [|q l IH]; [destruct I|]. cbn [mapM]. destruct (get_hpem_name q) as [n|] eqn:Q; [|reflexivity].
  cbn [bind]. destruct I as [->|I]; [congruence|]. now rewrite (IH I).
Qed.

Lemma side_cases l : (exists ns, hpem_names l ns) \/ (exists p, In p l /\ get_hpem_name p = None).
Proof.
  induction l as [|p l IH]; [left; exists []; constructor|]. destruct (get_hpem_name p) as [n|] eqn:Q; [|right; exists p; split; [now left|exact Q]].
  destruct IH as [(ns & H)|(q & I & N)]; [left; exists (n :: ns); now constructor|right; exists q; split; [now right|exact N]].
Qed.

(** The text, spelt out: names joined by plus signs, an arrow between the sides. *)
Lemma hpem_text r ls rs : hpem_names (r_lhs r) ls -> hpem_names (r_rhs r) rs ->
  get_hpem_string false r = Ok (str_join " + " ls ++ " > " ++ str_join " + " rs)%string /\
  get_hpem_string true r = Ok (str_join " + " rs ++ " > " ++ str_join " + " ls)%string.
Proof. intros L R. unfold get_hpem_string. rewrite (side_ok _ _ L), (side_ok _ _ R). split; reflexivity. Qed.

Lemma hpem_missing r b : (exists p, In p (r_lhs r ++ r_rhs r) /\ get_hpem_name p = None) <-> get_hpem_string b r = Err EType.
Proof.
  split.
  - intros (p & I & N). unfold get_hpem_string. apply in_app_iff in I.
    destruct I as [I|I]; destruct b.
    + destruct (side_cases (r_rhs r)) as [(ns & H)|H]; [rewrite (side_ok _ _ H)|rewrite (side_err _ H); reflexivity]. cbn [bind]. rewrite (side_err (r_lhs r)) by eauto. reflexivity.
    + rewrite (side_err (r_lhs r)) by eauto. reflexivity.
    + rewrite (side_err (r_rhs r)) by eauto. reflexivity.
    + destruct (side_cases (r_lhs r)) as [(ns & H)|H]; [rewrite (side_ok _ _ H)|rewrite (side_err _ H); reflexivity]. cbn [bind]. rewrite (side_err (r_rhs r)) by eauto. reflexivity.
  - intros H. destruct (side_cases (r_lhs r)) as [(ls & L)|(p & I & N)]; [|exists p; split; [apply in_app_iff; now left|exact N]].
    destruct (side_cases (r_rhs r)) as [(rs & R)|(p & I & N)]; [|exists p; split; [apply in_app_iff; now right|exact N]].
    destruct (hpem_text r ls rs L R) as [T F]. destruct b; congruence.
Qed.

(** Split at the first blank. *)
Lemma cut_blank a : forall b s t, (forall c, In c (chars a) -> is_space c = false) -> (forall c, In c (chars b) -> is_space c = false) ->
  (a ++ String " " s = b ++ String " " t)%string -> a = b /\ s = t.
Proof.
  induction a as [|x a IH]; intros [|y b] s t Ha Hb H; cbn [String.append] in H.
  - injection H as ->. now split.
  - injection H as <- H. now specialize (Hb " "%char (or_introl eq_refl)).
  - injection H as -> H. now specialize (Ha " "%char (or_introl eq_refl)).
  - injection H as <- H. destruct (IH b s t) as [-> ->]; [intros c Hc; apply Ha; now right|intros c Hc; apply Hb; now right|exact H|]. now split.
Qed.

(** The text of both sides, as one string ending in a mark. *)
Lemma join_cut ls : forall ls' s s', ls <> [] -> ls' <> [] -> unspaced ls -> unspaced ls' ->
  (str_join " + " ls ++ " > " ++ s = str_join " + " ls' ++ " > " ++ s')%string -> ls = ls' /\ s = s'.
Proof.
  assert (AA : forall a b c : string, ((a ++ b) ++ c = a ++ (b ++ c))%string).
  { induction a as [|x a IH]; intros b c; cbn; [reflexivity|]. now rewrite IH. }
  induction ls as [|n ls IH]; intros [|n' ls'] s s' N N' U U' H; try congruence.
  assert (Un : forall c, In c (chars n) -> is_space c = false) by (apply U; now left).
  assert (Un' : forall c, In c (chars n') -> is_space c = false) by (apply U'; now left).
  destruct ls as [|m ls], ls' as [|m' ls'].
  - cbn [str_join] in H. cbn [String.append] in H. destruct (cut_blank n n' _ _ Un Un' H) as [-> Q]. injection Q as ->. now split.
  - change (str_join " + " (n' :: m' :: ls')) with (n' ++ " + " ++ str_join " + " (m' :: ls'))%string in H. rewrite AA in H.
    cbn [str_join] in H. cbn [String.append] in H. destruct (cut_blank n n' _ _ Un Un' H) as [_ Q]. discriminate Q.
  - change (str_join " + " (n :: m :: ls)) with (n ++ " + " ++ str_join " + " (m :: ls))%string in H. rewrite AA in H.
    cbn [str_join] in H. cbn [String.append] in H. destruct (cut_blank n n' _ _ Un Un' H) as [_ Q]. discriminate Q.
  - change (str_join " + " (n :: m :: ls)) with (n ++ " + " ++ str_join " + " (m :: ls))%string in H.
    change (str_join " + " (n' :: m' :: ls')) with (n' ++ " + " ++ str_join " + " (m' :: ls'))%string in H. rewrite !AA in H.
    cbn [String.append] in H. destruct (cut_blank n n' _ _ Un Un' H) as [-> Q]. injection Q as Q.
    destruct (IH (m' :: ls') s s') as [-> ->]; [discriminate|discriminate|intros x Hx; apply U; now right|intros x Hx; apply U'; now right|exact Q|]. now split.
Qed.

Lemma join_inj ls ls' : ls <> [] -> ls' <> [] -> unspaced ls -> unspaced ls' -> str_join " + " ls = str_join " + " ls' -> ls = ls'.
Proof. intros N N' U U' H. rewrite <- (split_names ls N U), <- (split_names ls' N' U'). now rewrite H. Qed.

Lemma hpem_injective r r' b s ls rs ls' rs' :
  hpem_names (r_lhs r) ls -> hpem_names (r_rhs r) rs -> hpem_names (r_lhs r') ls' -> hpem_names (r_rhs r') rs' ->
  r_lhs r <> [] -> r_rhs r <> [] -> r_lhs r' <> [] -> r_rhs r' <> [] -> unspaced (ls ++ rs ++ ls' ++ rs') ->
  get_hpem_string b r = Ok s -> get_hpem_string b r' = Ok s -> ls = ls' /\ rs = rs'.
Proof.
  intros L R L' R' NL NR NL' NR' U H H'.
  assert (NN : forall l ns, hpem_names l ns -> l <> [] -> ns <> []) by (intros l ns F Nl ->; inversion F; congruence).
  apply (NN _ _ L) in NL. apply (NN _ _ R) in NR. apply (NN _ _ L') in NL'. apply (NN _ _ R') in NR'.
  assert (UL : unspaced ls) by (intros n Hn; apply U; rewrite !in_app_iff; tauto).
  assert (UR : unspaced rs) by (intros n Hn; apply U; rewrite !in_app_iff; tauto).
  assert (UL' : unspaced ls') by (intros n Hn; apply U; rewrite !in_app_iff; tauto).
  assert (UR' : unspaced rs') by (intros n Hn; apply U; rewrite !in_app_iff; tauto).
  destruct (hpem_text r ls rs L R) as [T F]. destruct (hpem_text r' ls' rs' L' R') as [T' F'].
  destruct b.
  - rewrite F in H. rewrite F' in H'. rewrite <- H' in H. injection H as H. apply join_cut in H; try assumption.
    destruct H as [-> H]. split; [now apply join_inj|reflexivity].
  - rewrite T in H. rewrite T' in H'. rewrite <- H' in H. injection H as H. apply join_cut in H; try assumption.
    destruct H as [-> H]. split; [reflexivity|now apply join_inj].
Qed.

(** The text, with the data of a reaction after it, is a line of an HPEM file. *)
Lemma hpem_line E r b s ls rs d ta tb tc th ts :
  hpem_names (r_lhs r) ls -> hpem_names (r_rhs r) rs -> get_hpem_string b r = Ok s ->
  d_lhs d = (if b then rs else ls) -> d_rhs d = (if b then ls else rs) -> r_lhs r <> [] -> r_rhs r <> [] ->
  (forall n, In n (ls ++ rs) -> name_token n) -> comment (d_rcomment d) ->
  token ta -> fparse E ta = Some (d_a d) -> token tb -> fparse E tb = Some (d_b d) ->
  token tc -> fparse E tc = Some (d_c d) -> token th -> fparse E th = Some (d_heat d) ->
  token ts -> iparse E ts = Some (d_special d) ->
  rx_text E d (s ++ " : " ++ ta ++ " ; " ++ tb ++ " & " ++ tc ++ " ] " ++ th ++ " [ " ++ ts ++ " ! " ++ d_rcomment d)%string.
Proof.
  intros L R H DL DR NL NR Tok Cm Ka Fa Kb Fb Kc Fc Kh Fh Ks Fs.
  assert (AA : forall a b c : string, ((a ++ b) ++ c = a ++ (b ++ c))%string).
  { induction a as [|x a IH]; intros p q; cbn; [reflexivity|]. now rewrite IH. }
  assert (NN : forall l ns, hpem_names l ns -> l <> [] -> ns <> []) by (intros l ns F Nl ->; inversion F; congruence).
  assert (Sp : s = (str_join " + " (d_lhs d) ++ " > " ++ str_join " + " (d_rhs d))%string).
  { destruct (hpem_text r ls rs L R) as [T F]. rewrite DL, DR. destruct b; congruence. }
  assert (Bl : blank " " /\ blank "").
  { split; intros c Hc; cbn in Hc; [destruct Hc as [<-|[]]; reflexivity|contradiction]. }
  destruct Bl as [B1 B0].
  exists ta, tb, tc, th, ts, (str_join " + " (d_lhs d) ++ " ")%string, (" " ++ str_join " + " (d_rhs d) ++ " ")%string,
    (" " ++ ta ++ " ")%string, (" " ++ tb ++ " ")%string, (" " ++ tc ++ " ")%string, (" " ++ th ++ " ")%string, (" " ++ ts ++ " ")%string, (" " ++ d_rcomment d ++ "")%string.
  split; [rewrite DL; destruct b; eauto|]. split; [rewrite DR; destruct b; eauto|].
  split; [intros n; rewrite DL, DR; intros Hn; apply Tok; destruct b; rewrite in_app_iff in *; tauto|]. split; [exact Cm|].
  do 10 (split; [assumption|]).
  split; [exists "", " "; auto|]. do 6 (split; [exists " ", " "; auto|]). split; [exists " ", ""; auto|].
  assert (En : forall a, (a ++ "" = a)%string) by (induction a as [|x a IH]; cbn; [reflexivity|now rewrite IH]).
  rewrite Sp, En. repeat (rewrite AA || cbn [String.append]). reflexivity.
Qed.

(** Species of HPEM files have no HPEM names. *)
Lemma sp_object_hpem d s : sp_object d s -> get_hpem_name s = None.
Proof.
  intros (uid & n & rn & _ & _ & H). unfold rp_init in H. cbv beta in H.
  destruct (feqb (d_stick d) fzero), (String.eqb (d_comment d) ""); vm_compute in H;
  repeat match type of H with context [match ?x with _ => _ end] => destruct x; try discriminate end;
  injection H as <-; reflexivity.
Qed.

Lemma imported_no_text E so uid skip sps rxs lines objs robjs :
  numbers_readable E -> dat_file E sps rxs lines -> Forall2 sp_object sps objs -> NoDup (map get_name objs) ->
  Forall2 (rx_object E objs) (filter (taken skip) rxs) robjs ->
  exists b sps' rxs', add_chemistry_from_hpem E so skip lines b_empty = (b, Ok tt) /\ reads E uid b sps' rxs' /\
    List.length rxs' = List.length robjs /\ forall r back, In r rxs' -> get_hpem_string back r = Err EType.
Proof.
  intros NR DF SO ND RO. destruct (import_read_back E so NR uid skip sps rxs lines objs robjs DF SO ND RO) as (b & f & sps' & rxs' & I & _ & Rd & SS & SR & Inc).
  exists b, sps', rxs'. split; [exact I|]. split; [exact Rd|]. split; [clear -SR; induction SR; cbn; congruence|].
  intros r back Hr. apply hpem_missing.
  assert (NE : exists p, In p (r_lhs r)).
  { destruct (Forall2_In_r _ _ _ _ SR Hr) as (r0 & H0 & S0). destruct (Forall2_In_r _ _ _ _ RO H0) as (d & _ & (lhs & rhs & ua & uc & F1 & _ & Len & _ & Ini)).
    assert (r_lhs r0 = lhs) as Q0 by (apply reaction_init_parts in Ini; apply Ini).
    pose proof (sr_lhs _ _ _ S0) as F. rewrite Q0 in F.
    destruct lhs as [|p l]; [cbn in Len; intuition congruence|]. inversion F as [|p' q l' m _ _ E1 E2]. exists q. now left. }
  destruct NE as (p & Hp). exists p. split; [apply in_app_iff; now left|].
  assert (In p sps') as Ip by (apply (Inc r Hr), in_app_iff; now left).
  destruct (Forall2_In_r _ _ _ _ SS Ip) as (o & Ho & Same). rewrite (ss_hpem _ _ _ Same).
  apply filter_In in Ho. destruct (Forall2_In_r _ _ _ _ SO (proj1 Ho)) as (d & _ & O1). exact (sp_object_hpem d o O1).
Qed.

Lemma elastic_names r ls rs : get_rp_names_set r WLhs = Ok ls -> get_rp_names_set r WRhs = Ok rs ->
  (xattr r "elastic" = VNone -> exists b, is_elastic_process r = Ok b /\ (b = true <-> (forall n, In n ls <-> In n rs))) /\
  (forall b, xattr r "elastic" = VSc (SBool b) -> is_elastic_process r = Ok b) /\
  (forall s, xattr r "elastic" = VStr s -> exists b, is_elastic_process r = Ok b /\ (b = true <-> In s ["true"; "True"; "TRUE"])).
Proof.
  unfold get_rp_names_set. destruct (names_of (r_lhs r)) as [ms|] eqn:M; [|discriminate]. destruct (names_of (r_rhs r)) as [ns|] eqn:N; [|discriminate].
  cbn [bind]. intros L R. injection L as <-. injection R as <-. unfold is_elastic_process. repeat split.
  - intros X. destruct (default_elastic r ms ns X M N) as (b & B & Q). exists b. split; [exact B|]. rewrite Q.
    split; intros H n; specialize (H n); rewrite !first_seen_In in *; cbn [In] in *; tauto.
  - intros b X. unfold get_elastic. now rewrite X.
  - intros s X. unfold get_elastic. rewrite X. cbn [VStr]. eexists. split; [reflexivity|]. apply memS_In.
Qed.
