(** Importing from the QDB database gives the species and reactions it
    describes. *)
From Coq Require Import Permutation.
From Verif Require Import Base BaseLemmas Species Reactions MolSpec SpeciesProofs ReactionProofs Classification Xml XmlSpec XmlProofs XmlRead XmlReact XmlRound
  XmlMain Qdb QdbSpec QdbProofs.

(** ** Datasets *)
Lemma first_filter {A} (f : A -> bool) (P : A -> Prop) l x : (forall y, f y = true <-> P y) ->
  first_with P l x <-> exists l', filter f l = x :: l'.
Proof.
  intros H. split.
  - intros (l1 & l2 & -> & Px & N). induction l1 as [|y l1 IH]; cbn [app filter].
    + apply H in Px. rewrite Px. eauto.
    + assert (f y = false) as -> by (apply Bool.not_true_iff_false; rewrite H; apply N; now left). apply IH. intros; apply N; now right.
  - induction l as [|y l IH]; intros (l' & F); [discriminate|]. cbn [filter] in F. destruct (f y) eqn:Ef.
    + injection F as -> _. exists [], l. split; [reflexivity|]. split; [now apply H|intros ? []].
    + destruct IH as (l1 & l2 & -> & Px & N); [eauto|]. exists (y :: l1), l2. split; [reflexivity|]. split; [exact Px|].
      intros z [<-|Hz]; [rewrite <- H, Ef; discriminate|now apply N].
Qed.

Lemma filter_none {A} (f : A -> bool) l : filter f l = [] <-> forall x, In x l -> f x = false.
Proof.
  induction l as [|y l IH]; cbn [filter]; [split; [intros _ x []|reflexivity]|]. destruct (f y) eqn:Ef.
  - split; [discriminate|]. intros H. specialize (H y (or_introl eq_refl)). congruence.
  - rewrite IH. split; [intros H x [<-|Hx]; auto|intros H x Hx; apply H; now right].
Qed.

Lemma preferred_spec (e : bool) (P : Prop) d : (e = true <-> P) -> is_type (if e then [2] else [1; 3]) d = true <-> preferred P d.
Proof.
  intros H. unfold is_type, preferred. rewrite memZ_In. destruct e; cbn.
  - assert P by (now apply H). intuition congruence.
  - assert (~ P) by (intros HP; apply H in HP; discriminate). intuition congruence.
Qed.

Lemma choose_spec ls l d : chosen (In "e" ls) l d <-> choose (memS "e" ls) l = Ok d.
Proof.
  unfold chosen, choose. pose proof (fun d => preferred_spec (memS "e" ls) (In "e" ls) d (memS_In "e" ls)) as HP.
  set (f := is_type (if memS "e" ls then [2] else [1; 3])) in *.
  rewrite (first_filter f (preferred (In "e" ls)) l d HP).
  assert (N : (forall x, In x l -> ~ preferred (In "e" ls) x) <-> filter f l = []).
  { rewrite filter_none. split; intros H x Hx; specialize (H x Hx); [apply Bool.not_true_iff_false; now rewrite HP|rewrite <- HP; congruence]. }
  rewrite N. destruct l as [|d1 [|d2 l]].
  - cbn. split; [intros [(l' & H)|[_ (l' & H)]]; discriminate|discriminate].
  - cbn [filter]. destruct (f d1).
    + split; [intros [(l' & H)|[H _]]; [now injection H as ->|discriminate]|intros H; injection H as ->; left; eauto].
    + split; [intros [(l' & H)|[_ (l' & H)]]; [discriminate|now injection H as ->]|intros H; injection H as ->; right; split; [reflexivity|eauto]].
  - destruct (filter f (d1 :: d2 :: l)) as [|p q] eqn:Ef.
    + split; [intros [(l' & H)|[_ (l' & H)]]; [discriminate|now injection H as ->]|intros H; injection H as ->; right; split; [reflexivity|eauto]].
    + split; [intros [(l' & H)|[H _]]; [now injection H as -> _|discriminate]|intros H; injection H as ->; left; eauto].
Qed.

Lemma starts_spec p : starts_A p = true <-> exists x, p_name p = ("A" ++ x)%string.
Proof.
  unfold starts_A. destruct (p_name p) as [|c s]; cbn [chars prefixb]; [split; [discriminate|intros (x & H); discriminate]|].
  rewrite Bool.andb_true_r, Ascii.eqb_eq. split; [intros <-; exists s; reflexivity|intros (x & H); now injection H].
Qed.
Lemma is_n_spec p : is_n p = true <-> p_name p = "n".
Proof. apply String.eqb_eq. Qed.
Lemma ends_spec p : ends_E p = true <-> exists x, p_name p = (x ++ "E")%string.
Proof.
  unfold ends_E. rewrite ends_with_spec. split; intros (x & H).
  - exists (str_of x). rewrite <- (str_of_chars (p_name p)), H. apply str_of_app.
  - exists (chars x). now rewrite H, chars_app.
Qed.

Lemma rate_ok n d a ua b c uc : rate_given n d a ua b c uc -> rate_data n d = Ok (a, ua, b, c, uc).
Proof.
  unfold rate_given, rate_data. intros [(X & F & -> & I)|(X & R & pa & pb & pc & A & B & C & -> & -> & -> & -> & ->)]; rewrite X.
  - rewrite F. cbn in I. destruct I as [I|[I|[]]]; injection I as <- <-; reflexivity.
  - rewrite R. apply (first_filter _ _ _ _ starts_spec) in A as (l1 & ->). apply (first_filter _ _ _ _ is_n_spec) in B as (l2 & ->).
    apply (first_filter _ _ _ _ ends_spec) in C as (l3 & ->). reflexivity.
Qed.

Lemma same_names_spec l r : same_names l r = true <-> Permutation l r.
Proof.
  unfold same_names. rewrite forallb_forall. rewrite (Permutation_count_occ string_dec). split.
  - intros H n. destruct (in_dec string_dec n (l ++ r)) as [Hn|Hn]; [now apply Nat.eqb_eq, H|].
    rewrite (proj1 (count_occ_not_In string_dec l n)), (proj1 (count_occ_not_In string_dec r n)); [reflexivity| |]; intros Hc; apply Hn, in_app_iff; auto.
  - intros H n _. now apply Nat.eqb_eq.
Qed.

Lemma positive_spec x : positive x = true <-> above_zero x.
Proof.
  unfold positive, above_zero. destruct x as [q| | |]; try (split; [discriminate|intros [H|(v & H & _)]; discriminate]); [|tauto].
  destruct (Qlt_le_dec 0 q) as [L|L].
  - split; [intros _; right; eauto|reflexivity].
  - split; [discriminate|]. intros [H|(v & H & P)]; [discriminate|]. injection H as <-. exfalso. exact (Qlt_not_le _ _ P L).
Qed.

Lemma loss_ok ls rs d c loss : loss_given ls rs d c loss -> energy_loss ls rs d c = Ok loss.
Proof.
  unfold loss_given, energy_loss.
  assert (G : memS "e" ls && negb (same_names ls rs) && memS "e" rs = true <-> In "e" ls /\ In "e" rs /\ ~ Permutation ls rs).
  { rewrite !Bool.andb_true_iff, Bool.negb_true_iff, <- Bool.not_true_iff_false, same_names_spec, !memS_In. tauto. }
  intros [(I1 & I2 & NP & H)|(N & ->)].
  - rewrite (proj2 G) by tauto. destruct H as [(A & P & ->)|[(A & P & ->)|(A & X & t & T & ->)]]; rewrite A.
    + apply positive_spec in P. now rewrite P.
    + rewrite <- positive_spec in P. apply Bool.not_true_iff_false in P. now rewrite P.
    + rewrite X. destruct T as [->|[-> ->]]; cbn [nonzero truthy VFlt]; now destruct (feqb _ fzero).
  - destruct (memS "e" ls && negb (same_names ls rs) && memS "e" rs) eqn:Eg; [exfalso; now apply N, G|reflexivity].
Qed.

Lemma doi_ok l x : doi_given l x -> first_doi l = x.
Proof.
  intros [(s & -> & l1 & l2 & -> & [_ Ps] & N)|[-> N]].
  - induction l1 as [|y l1 IH]; cbn [app first_doi].
    + destruct (String.eqb_spec s "None") as [->|]; [congruence|reflexivity].
    + assert (Hy : y = None \/ y = Some "None").
      { specialize (N y (or_introl eq_refl)). destruct y as [t|]; [|now left]. destruct (string_dec t "None") as [->|Nt]; [now right|]. exfalso. apply N. split; congruence. }
      destruct Hy as [->| ->]; cbn; apply IH; intros; apply N; now right.
  - induction l as [|y l IH]; [reflexivity|]. destruct (N y (or_introl eq_refl)) as [->| ->]; cbn; apply IH; intros; apply N; now right.
Qed.

Lemma datum_entry k x : datum k x = entry k (option_map VFlt (nonzero x)).
Proof. unfold datum, nonzero, entry. destruct x as [f|]; [|reflexivity]. cbn [truthy VFlt]. now destruct (feqb f fzero). Qed.

(** ** Lookups in parts *)
Lemma get_app {V} k (l1 l2 : list (string * V)) : sget k (l1 ++ l2) = match sget k l1 with Some v => Some v | None => sget k l2 end.
Proof. induction l1 as [|[k' v] l1 IH]; [reflexivity|]. cbn. now destruct (String.eqb k k'). Qed.
Lemma get_entry {V} k k' (x : option V) : sget k (entry k' x) = if String.eqb k k' then x else None.
Proof. destruct x; cbn; now destruct (String.eqb k k'). Qed.
Lemma get_if {V} k (c : bool) (l1 l2 : list (string * V)) : sget k (if c then l1 else l2) = if c then sget k l1 else sget k l2.
Proof. now destruct c. Qed.

Ltac shrink := cbn [aget String.eqb Ascii.eqb Bool.eqb option_map rp_default_units rx_default_units entry unit_of map fst app].
Ltac parts :=
  shrink; repeat (match goal with
    | |- context [match q_states ?q with _ => _ end] => destruct (q_states q)
    | |- context [match q_hpem ?q with _ => _ end] => destruct (q_hpem q)
    | |- context [nonzero ?x] => destruct (nonzero x)
    | |- context [if ?c then _ else _] => destruct c
    end; shrink); first [split; [reflexivity|discriminate]|congruence].

Ltac rparts loss doi en :=
  shrink; repeat (match goal with
    | |- context [match loss with _ => _ end] => destruct loss
    | |- context [option_map _ loss] => destruct loss
    | |- context [match doi with _ => _ end] => destruct doi
    | |- context [option_map _ doi] => destruct doi
    | |- context [match en with _ => _ end] => destruct en
    | |- context [nonzero ?x] => destruct (nonzero x)
    | |- context [if ?c then _ else _] => destruct c
    end; shrink); first [split; [reflexivity|discriminate]|congruence].

(** ** Objects *)
Section Objects.
  Variables (E : env) (so : pyval -> string).

  Lemma add_init uid id attrs units s ats us b :
    rp_init uid (VInt id) attrs [] units = Ok s ->
    (forall k, In k rp_attr_keys -> sget k ats = sget k attrs /\ sget k attrs <> Some VNone) ->
    (forall k, In k rp_attr_keys -> sget k attrs <> None -> sget k us = sget k rp_default_units) ->
    add_rp_from_attributes E so (Some id) ats [] us b = add_rp_from_instance E so s b.
  Proof.
    intros Hi HA HU. destruct (rp_init_spec _ _ _ _ _ _ Hi) as (_ & Id & _ & A & _ & n & Hn & _); [constructor|].
    assert (H : sp_history s) by (eapply sp_new, Hi).
    cbn [aget] in A. unfold add_rp_from_instance, add_rp_from_attributes. cbv zeta. change (supdate ats []) with ats.
    rewrite (attrs_get s). change (memS "name" rp_attr_keys) with true. cbv iota. rewrite Hn.
    assert (sget "name" ats = Some (VStr n)) as ->.
    { rewrite (proj1 (HA "name" ltac:(now left))). rewrite (A "name") in Hn by (now left). destruct (sget "name" attrs); [now rewrite Hn|discriminate]. }
    unfold VStr. cbv iota. destruct (known b (SStr n)); [reflexivity|].
    assert (rp_id s = id) as -> by (unfold VInt in Id; congruence).
    assert (mapM (rp_item E so ats us) rp_attr_keys =
      mapM (rp_item E so (supdate (map (fun k => (k, rattr s k)) rp_attr_keys) []) (units_of (fun k => let* u := rp_get_unit s k in Ok (Some u)) rp_attr_keys)) rp_attr_keys) as ->; [|reflexivity].
    apply mapM_ext. intros k Hk. unfold rp_item. rewrite (attrs_get s), (proj2 (memS_In k _) Hk), (A k Hk).
    destruct (HA k Hk) as [-> NN]. destruct (sget k attrs) as [v|] eqn:Ev; [|reflexivity].
    destruct (negb (given v)); [reflexivity|]. destruct (String.eqb k "ret_coefs"); [reflexivity|].
    rewrite units_of_get, (proj2 (memS_In k _) Hk), (HU k Hk) by congruence.
    destruct (sget k rp_default_units) as [d|] eqn:Ed.
    - rewrite (history_get_unit s k d H Hk); [reflexivity| |exact Ed]. rewrite (A k Hk), Ev. congruence.
    - unfold rp_get_unit. now rewrite Ed.
  Qed.

  Lemma add_rx_init id lhs rhs attrs units r ats us u q :
    reaction_init E (VInt id) lhs rhs attrs [] units = Ok r -> writable_reaction E r ->
    (forall k, In k rx_attr_keys -> sget k ats = sget k attrs /\ sget k attrs <> Some VNone) ->
    (forall k, In k rx_attr_keys -> sget k attrs <> None ->
       sget k us = match sget k rx_default_units with
                   | None => None
                   | Some d => match sget k units with Some (Some w) => Some w | _ => d end
                   end) ->
    (forall s, In s (lhs ++ rhs) -> In (nm s) (map nm u)) ->
    add_reaction_from_attributes E so (map nm lhs) (map nm rhs) (Some id) ats [] us (holding E so u q) = (holding E so u (q ++ [r]), Ok tt).
  Proof.
    intros H W HA HU K. destruct (reaction_init_parts _ _ _ _ _ _ _ _ H) as (Id & _ & L & R & _ & _ & _ & _ & A).
    unfold add_reaction_from_attributes. cbv zeta. change (supdate attrs []) with attrs in A. change (supdate ats []) with ats.
    assert (forallb (fun n => known (holding E so u q) (SStr n)) (map nm lhs ++ map nm rhs) = true) as ->.
    { apply forallb_forall. intros n Hn. apply known_holding. rewrite <- map_app in Hn. apply in_map_iff in Hn as (s & <- & Hs). now apply K. }
    cbn [negb]. unfold holding. cbn [b_keys b_species b_reactions]. rewrite map_app. cbn [map]. do 4 f_equal.
    unfold rx_written, rx_el. rewrite L, R. unfold VInt in Id. injection Id as <-. do 4 f_equal.
    rewrite <- (rx_items_written E so r W). rewrite !flat_map_concat_map. f_equal. apply map_ext_in. intros k Hk. unfold rx_item.
    change (supdate (map (fun k => (k, xattr r k)) rx_attr_keys) []) with (map (fun k => (k, xattr r k)) rx_attr_keys).
    assert (map (fun k => (k, xattr r k)) rx_attr_keys = keyed (fun k => Some (xattr r k)) rx_attr_keys) as -> by reflexivity.
    rewrite keyed_get, (proj2 (memS_In k _) Hk). destruct (A k Hk) as [-> A2]. destruct (HA k Hk) as [-> NN].
    destruct (sget k attrs) as [v|] eqn:Ev; [|reflexivity]. destruct (given v) eqn:Gv; [|reflexivity].
    rewrite units_of_get, (proj2 (memS_In k _) Hk), (HU k Hk) by congruence. unfold rx_get_unit. rewrite A2.
    destruct (sget k rx_default_units) as [d|]; [|reflexivity]. destruct (sget k units) as [[w|]|]; reflexivity.
  Qed.

  Lemma object_name q s : qsp_object q s -> nm s = qdb_name q.
  Proof.
    intros (uid & a & st & Ha & Hs & Hi). apply stateless_eq in Ha. apply state_eq in Hs. subst.
    destruct (rp_init_spec _ _ _ _ _ _ Hi) as (_ & _ & _ & A & _); [constructor|]. cbn [aget] in A.
    unfold nm, get_name, rstr. rewrite (A "name") by (now left). reflexivity.
  Qed.

  Lemma add_object q s b : qsp_object q s -> add_rp_from_qdb E so q b = add_rp_from_instance E so s b.
  Proof.
    intros (uid & a & st & Ha & Hs & Hi). apply stateless_eq in Ha. apply state_eq in Hs. subst a st. unfold add_rp_from_qdb.
    apply (add_init _ _ _ _ _ _ _ _ Hi).
    - intros k Hk. unfold qdb_attrs. rewrite !datum_entry. fold (qdb_name q). cbn in Hk.
      rewrite !get_app, !get_entry, !get_if.
      repeat (destruct Hk as [<-|Hk]; [parts|]); contradiction.
    - intros k Hk. unfold qdb_units. rewrite !datum_entry. cbn in Hk. rewrite !get_app, !get_entry, !get_if.
      repeat (destruct Hk as [<-|Hk]; [parts|]); contradiction.
  Qed.

  (** ** The loops *)
  Variable sps : list rp.
  Hypothesis W : forall s, In s sps -> writable_species s.
  Hypothesis ND : NoDup (map nm sps).

  Lemma missing_ok l : (forall p, In p l -> exists s, In s sps /\ qsp_object p s) -> forall u q, incl u sps -> NoDup (map nm u) ->
    exists u', add_missing_qdb E so l (holding E so u q) = (holding E so u' q, Ok tt) /\ incl u' sps /\ NoDup (map nm u') /\
      (forall s, In s sps -> In s u' <-> In s u \/ In (nm s) (map qdb_name l)).
  Proof using W ND.
    induction l as [|p l IH]; intros O u q I N; cbn [add_missing_qdb].
    - exists u. cbn. repeat split; auto; tauto.
    - destruct (O p (or_introl eq_refl)) as (s & Hs & Os). pose proof (object_name p s Os) as Hn.
      assert (O' : forall p, In p l -> exists s, In s sps /\ qsp_object p s) by (intros; apply O; now right).
      destruct (known (holding E so u q) (SStr (qdb_name p))) eqn:K.
      + destruct (IH O' u q I N) as (u' & A & I' & N' & H). exists u'. split; [exact A|]. split; [exact I'|]. split; [exact N'|].
        intros t Ht. rewrite (H t Ht). cbn [map In]. apply known_holding in K. split; [tauto|]. intros [Hu|[Hu|Hu]]; try tauto.
        left. apply in_map_iff in K as (v & Hv & Hi). assert (v = t) as <-; [|exact Hi]. apply (NoDup_map_inj nm sps v t ND); auto. congruence.
      + rewrite (add_object p s _ Os), (add_species E so u q s).
        * destruct (IH O' (u ++ [s]) q) as (u' & A & I' & N' & H).
          -- intros x Hx. apply in_app_iff in Hx as [Hx|[<-|[]]]; auto.
          -- rewrite map_app. apply NoDup_snoc; [exact N|]. intros Hc. rewrite Hn in Hc. apply (known_holding E so u q) in Hc. congruence.
          -- exists u'. split; [exact A|]. split; [exact I'|]. split; [exact N'|]. intros t Ht. rewrite (H t Ht), in_app_iff. cbn [map In].
             split; [intros [[Hu|[<-|[]]]|Hu]; auto|]. intros [Hu|[Hu|Hu]]; auto. left. right. left. apply (NoDup_map_inj nm sps s t ND); auto. congruence.
        * now apply W.
        * intros Hc. rewrite Hn in Hc. apply (known_holding E so u q) in Hc. congruence.
  Qed.

  Lemma side_names l ss : Forall2 (fun p s => In s sps /\ qsp_object p s) l ss -> map nm ss = map qdb_name l /\ incl ss sps /\
    forall p, In p l -> exists s, In s sps /\ qsp_object p s.
  Proof.
    induction 1 as [|p s l ss [I O] F (IH1 & IH2 & IH3)]; cbn; [split; [reflexivity|]; split; [intros x []|intros p []]|].
    split; [rewrite IH1, (object_name p s O); reflexivity|]. split; [intros x [<-|Hx]; auto|]. intros p' [<-|Hp]; eauto.
  Qed.

  Definition add_leaf (x : qrx) (b : builder) : builder * res unit :=
    match x with QRx m children datasets _ => add_resolved E so m children datasets b end.

  Lemma leaf_ok x r : qrx_object E sps x r -> writable_reaction E r -> forall u q, incl u sps -> NoDup (map nm u) ->
    exists u', add_leaf x (holding E so u q) = (holding E so u' (q ++ [r]), Ok tt) /\ incl u' sps /\ NoDup (map nm u') /\
      incl (r_lhs r ++ r_rhs r) sps /\
      (forall s, In s sps -> In s u' <-> In s u \/ In s (r_lhs r ++ r_rhs r)).
  Proof using W ND.
    intros (m & children & datasets & master & d & lhs & rhs & ls & rs & ls0 & rs0 & a & ua & b & c & uc & loss & doi & -> & CH & FL & FR & NL & NR & NL0 & NR0 & ALL
      & HC & HR & HL & HD & H) WR u q I N.
    apply qnames_eq in NL, NR, NL0, NR0. subst ls rs ls0 rs0.
    destruct (side_names _ _ FL) as (ML & IL & OL). destruct (side_names _ _ FR) as (MR & IR & OR).
    apply choose_spec in HC. apply rate_ok in HR. apply loss_ok in HL. apply doi_ok in HD.
    destruct (missing_ok (m_all master)) with (u := u) (q := q) as (u' & A & I' & N' & HU); auto.
    { intros p Hp. apply ALL, in_app_iff in Hp as [Hp|Hp]; auto. }
    destruct (reaction_init_parts _ _ _ _ _ _ _ _ H) as (_ & _ & L & R & _).
    assert (IN : forall s, In s sps -> In (nm s) (map qdb_name (m_all master)) <-> In s (r_lhs r ++ r_rhs r)).
    { intros s Hs. assert (In (nm s) (map qdb_name (m_all master)) <-> In (nm s) (map nm (r_lhs r ++ r_rhs r))) as ->.
      { rewrite L, R, map_app, ML, MR, <- map_app. split; intros Hi; apply in_map_iff in Hi as (p & <- & Hp); apply in_map; now apply ALL. }
      split; [|intros; now apply in_map]. intros Hi. apply in_map_iff in Hi as (t & Ht & Hi). assert (t = s) as <-; [|exact Hi].
      apply (NoDup_map_inj nm sps t s ND); auto. rewrite L, R in Hi. apply in_app_iff in Hi as [Hi|Hi]; auto. }
    exists u'. split; [|split; [exact I'|split; [exact N'|split]]].
    2: { rewrite L, R. intros t Ht. apply in_app_iff in Ht as [Ht|Ht]; auto. }
    2: { intros s Hs. rewrite (HU s Hs), (IN s Hs). reflexivity. }
    assert (exists ats us, qdb_rx master m d = Ok (ats, us) /\
      add_reaction_from_attributes E so (map qdb_name (m_lhs master)) (map qdb_name (m_rhs master)) (Some (m_pk m)) ats [] us (holding E so u' q)
      = (holding E so u' (q ++ [r]), Ok tt)) as (ats & us & HQ & HADD).
    { unfold qdb_rx. cbv zeta. rewrite HR. cbn [bind]. rewrite HL. cbn [bind]. eexists _, _. split; [reflexivity|]. rewrite <- ML, <- MR.
      apply (add_rx_init _ _ _ _ _ _ _ _ _ _ H WR).
      - intros k Hk. rewrite !datum_entry, <- HD. cbn in Hk. rewrite !get_app, !get_entry, !get_if.
        repeat (destruct Hk as [<-|Hk]; [rparts loss (first_doi (ds_dois d)) (ds_entry d)|]); contradiction.
      - intros k Hk. rewrite !datum_entry, <- HD. cbn in Hk. rewrite !get_app, !get_entry, !get_if.
        repeat (destruct Hk as [<-|Hk]; [rparts loss (first_doi (ds_dois d)) (ds_entry d)|]); contradiction.
      - intros s Hs. apply in_map. apply HU; [apply in_app_iff in Hs as [Hs|Hs]; auto|].
        right. apply IN; [apply in_app_iff in Hs as [Hs|Hs]; auto|now rewrite L, R]. }
    unfold add_leaf, add_resolved.
    destruct CH as [->|[-> ->]]; cbv zeta; rewrite A, HC; cbn [bind]; rewrite HQ; exact HADD.
  Qed.

  Fixpoint add_leaves (l : list qrx) (b : builder) : builder * res unit :=
    match l with
    | [] => (b, Ok tt)
    | x :: l' => match add_leaf x b with (b', Ok _) => add_leaves l' b' | (b', Err e) => (b', Err e) end
    end.

  Lemma add_leaves_app l1 l2 b : add_leaves (l1 ++ l2) b = match add_leaves l1 b with (b', Ok _) => add_leaves l2 b' | (b', Err e) => (b', Err e) end.
  Proof. revert b. induction l1 as [|x l1 IH]; intros b; cbn [app add_leaves]; [reflexivity|]. destruct (add_leaf x b) as [b' [[]|e]]; [apply IH|reflexivity]. Qed.

  Fixpoint qrx_induction (P : qrx -> Prop) (H : forall m c d ps, (forall p, In p ps -> P p) -> P (QRx m c d ps)) (x : qrx) {struct x} : P x :=
    match x with
    | QRx m c d ps => H m c d ps ((fix go l : forall p, In p l -> P p :=
        match l with
        | [] => fun p Hp => match Hp with end
        | y :: l' => fun p Hp => match Hp with
            | or_introl e => match e in _ = z return P z with eq_refl => qrx_induction P H y end
            | or_intror Hp' => go l' p Hp'
            end
        end) ps)
    end.

  Lemma add_reaction_leaves x : forall b, add_reaction_from_qdb E so x b = add_leaves (resolved x) b.
  Proof.
    induction x as [m c d ps IH] using qrx_induction. intros b. destruct ps as [|p ps].
    - cbn [add_reaction_from_qdb resolved add_leaves add_leaf]. destruct (add_resolved E so m c d b) as [b' [[]|e]]; reflexivity.
    - change (resolved (QRx m c d (p :: ps))) with (flat_map resolved (p :: ps)).
      change (add_reaction_from_qdb E so (QRx m c d (p :: ps)) b) with (add_chemistry_from_qdb E so (p :: ps) b).
      revert b. induction (p :: ps) as [|y l IHl]; intros b; [reflexivity|]. cbn [add_chemistry_from_qdb flat_map].
      rewrite add_leaves_app, (IH y (or_introl eq_refl)). destruct (add_leaves (resolved y) b) as [b' [[]|e]]; [|reflexivity].
      apply IHl. intros z Hz. apply IH. now right.
  Qed.

  Lemma add_chemistry_leaves l : forall b, add_chemistry_from_qdb E so l b = add_leaves (flat_map resolved l) b.
  Proof.
    induction l as [|x l IH]; intros b; [reflexivity|]. cbn [add_chemistry_from_qdb flat_map]. rewrite add_leaves_app, add_reaction_leaves.
    destruct (add_leaves (resolved x) b) as [b' [[]|e]]; [apply IH|reflexivity].
  Qed.

  Lemma leaves_ok xs robjs : Forall2 (qrx_object E sps) xs robjs -> (forall r, In r robjs -> writable_reaction E r) ->
    forall u q, incl u sps -> NoDup (map nm u) ->
    exists u', add_leaves xs (holding E so u q) = (holding E so u' (q ++ robjs), Ok tt) /\ incl u' sps /\ NoDup (map nm u') /\
      (forall r, In r robjs -> incl (r_lhs r ++ r_rhs r) sps) /\
      (forall s, In s sps -> In s u' <-> In s u \/ exists r, In r robjs /\ In s (r_lhs r ++ r_rhs r)).
  Proof using W ND.
    induction 1 as [|x r xs robjs O F IH]; intros WR u q I N; cbn [add_leaves].
    - exists u. rewrite app_nil_r. split; [reflexivity|]. split; [exact I|]. split; [exact N|]. split; [intros r []|]. intros s _. split; [now left|].
      intros [H|(r & [] & _)]. exact H.
    - destruct (leaf_ok x r O (WR r (or_introl eq_refl)) u q I N) as (u1 & -> & I1 & N1 & IR & H1).
      destruct (IH (fun r' Hr => WR r' (or_intror Hr)) u1 (q ++ [r]) I1 N1) as (u2 & -> & I2 & N2 & IR2 & H2).
      exists u2. split; [now rewrite <- app_assoc|]. split; [exact I2|]. split; [exact N2|]. split; [intros r' [<-|Hr]; auto|].
      intros s Hs. rewrite (H2 s Hs), (H1 s Hs). split.
      + intros [[H|H]|(r' & Hr & H)]; [now left|right; exists r; split; [now left|exact H]|right; exists r'; split; [now right|exact H]].
      + intros [H|(r' & [<-|Hr] & H)]; [now left; left|now left; right|right; now exists r'].
  Qed.
End Objects.

Theorem qdb_read_back E so uid l objs robjs : numbers_readable E ->
  (forall s, In s objs -> writable_species s) -> NoDup (map get_name objs) ->
  Forall2 (qrx_object E objs) (flat_map resolved l) robjs -> (forall r, In r robjs -> writable_reaction E r) ->
  exists b u sps' rxs', add_chemistry_from_qdb E so l b_empty = (b, Ok tt) /\
    NoDup u /\ (forall s, In s u <-> In s objs /\ exists r, In r robjs /\ In s (r_lhs r ++ r_rhs r)) /\
    reads E uid b sps' rxs' /\ Forall2 (same_species E) u sps' /\ Forall2 (same_reaction E) robjs rxs' /\
    (forall r', In r' rxs' -> incl (r_lhs r' ++ r_rhs r') sps').
Proof.
  intros NR W ND FR WR. apply names_distinct in ND; [|exact W].
  destruct (leaves_ok E so objs W ND _ _ FR WR [] []) as (u & A & I & N & IR & H); [intros x []|constructor|].
  assert (HU : forall s, In s u <-> In s objs /\ exists r, In r robjs /\ In s (r_lhs r ++ r_rhs r)).
  { intros s. split.
    - intros Hs. pose proof (I s Hs) as Ho. split; [exact Ho|]. apply (H s Ho) in Hs as [[]|Hs]. exact Hs.
    - intros [Ho Hs]. apply (H s Ho). now right. }
  destruct (reads_elements E so NR uid (holding E so u robjs) u robjs) as (u' & q' & G & B1 & B2 & B3 & _); auto.
  - intros r Hr. split; [now apply WR|]. intros s Hs. apply HU. split; [now apply (IR r)|]. now exists r.
  - exists (holding E so u robjs), u, u', q'. rewrite add_chemistry_leaves. change b_empty with (holding E so [] []). rewrite A.
    split; [reflexivity|]. split; [now apply (NoDup_map_inv nm)|]. split; [exact HU|]. auto.
Qed.
