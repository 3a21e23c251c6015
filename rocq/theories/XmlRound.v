(** Round trips of whole chemistries. *)
From Coq Require Import Sorting.Sorted Sorting.Permutation.
From Verif Require Import Base BaseLemmas Species Reactions MolSpec SpeciesProofs ReactionProofs SortLemmas Classification Xml XmlSpec XmlProofs XmlRead XmlReact.

(** The name of a species that has one. *)
Definition nm (s : rp) : string := match get_name s with Ok n => n | Err _ => "" end.

Lemma existsb_false {A} (f : A -> bool) l : (forall x, In x l -> f x = false) -> existsb f l = false.
Proof. induction l as [|x l IH]; intros H; [reflexivity|]. cbn. rewrite (H x (or_introl eq_refl)). apply IH. intros y Hy. apply H. now right. Qed.

Lemma known_names u b x : b_keys b = map (fun s => SStr (nm s)) u -> known b (SStr x) = true <-> In x (map nm u).
Proof.
  intros Hb. unfold known. rewrite Hb. rewrite existsb_exists. split.
  - intros (k & Hk & He). apply in_map_iff in Hk as (s & <- & Hs). cbn in He. apply String.eqb_eq in He. subst. now apply in_map.
  - intros H. apply in_map_iff in H as (s & <- & Hs). exists (SStr (nm s)). split; [now apply (in_map (fun s => SStr (nm s)))|]. cbn. apply String.eqb_refl.
Qed.

Lemma NoDup_snoc {A} (l : list A) x : NoDup l -> ~ In x l -> NoDup (l ++ [x]).
Proof. intros H Hx. apply NoDup_rev in H. rewrite <- (rev_involutive (l ++ [x])), rev_app_distr. apply NoDup_rev. cbn. constructor; [now rewrite <- in_rev|exact H]. Qed.

(** ** Sorting by distinct keys *)
Lemma sorted_keys_unique {A} (l m : list (Z * A)) :
  StronglySorted (fun x y => Z.leb (fst x) (fst y) = true) l -> StronglySorted (fun x y => Z.leb (fst x) (fst y) = true) m ->
  NoDup (map fst l) -> Permutation l m -> l = m.
Proof.
  revert m. induction l as [|x l IH]; intros m Hl Hm ND Hp; [now apply Permutation_nil in Hp|].
  destruct m as [|y m]; [symmetry in Hp; apply Permutation_nil in Hp; discriminate|].
  inversion Hl as [|? ? Sl Al]; subst. inversion Hm as [|? ? Sm Am]; subst. inversion ND as [|? ? N1 N2]; subst.
  assert (x = y) as ->.
  { assert (In y (x :: l)) as [H|Hy] by (apply (Permutation_in y (Permutation_sym Hp)); now left); [exact H|].
    assert (In x (y :: m)) as [H|Hx] by (apply (Permutation_in x Hp); now left); [now symmetry|].
    rewrite Forall_forall in Al, Am. specialize (Al y Hy). specialize (Am x Hx). apply Z.leb_le in Al, Am.
    exfalso. apply N1. replace (fst x) with (fst y) by lia. now apply in_map. }
  f_equal. apply Permutation_cons_inv in Hp. now apply IH.
Qed.

Lemma index_nth pre x suf : NoDup (pre ++ x :: suf) -> index_of Z.eqb x (pre ++ x :: suf) = Ok (Z.of_nat (List.length pre)).
Proof.
  induction pre as [|y pre IH]; intros ND; cbn [app index_of List.length].
  - now rewrite Z.eqb_refl.
  - inversion ND as [|? ? N1 N2]; subst. destruct (Z.eqb_spec x y) as [->|]; [exfalso; apply N1, in_or_app; right; now left|].
    rewrite (IH N2). cbn [bind]. f_equal. lia.
Qed.

Lemma index_inj ids : forall x y i, index_of Z.eqb x ids = Ok i -> index_of Z.eqb y ids = Ok i -> x = y.
Proof.
  assert (P : forall x l i, index_of Z.eqb x l = Ok i -> 0 <= i).
  { intros x l. induction l as [|z l IH]; intros i H; cbn in H; [discriminate|]. destruct (Z.eqb x z); [injection H as <-; lia|].
    destruct (index_of Z.eqb x l) as [j|]; cbn in H; [|discriminate]. injection H as <-. specialize (IH j eq_refl). lia. }
  induction ids as [|z ids IH]; intros x y i Hx Hy; cbn in Hx, Hy; [discriminate|].
  destruct (Z.eqb_spec x z), (Z.eqb_spec y z); try congruence.
  - destruct (index_of Z.eqb y ids) as [j|] eqn:Ej; cbn in Hy; [|discriminate]. apply P in Ej. injection Hx as <-. injection Hy as Hy. lia.
  - destruct (index_of Z.eqb x ids) as [j|] eqn:Ej; cbn in Hx; [|discriminate]. apply P in Ej. injection Hy as <-. injection Hx as Hx. lia.
  - destruct (index_of Z.eqb x ids) as [j|] eqn:Ej; cbn in Hx; [|discriminate]. destruct (index_of Z.eqb y ids) as [j'|] eqn:Ej'; cbn in Hy; [|discriminate].
    injection Hx as <-. injection Hy as Hy. assert (j' = j) as -> by lia. eapply IH; eauto.
Qed.

Definition pos (ids : list Z) (z : Z) : Z := match index_of Z.eqb z ids with Ok i => i | Err _ => 0 end.

Lemma pos_ok ids z : In z ids -> index_of Z.eqb z ids = Ok (pos ids z).
Proof.
  intros H. unfold pos. enough (exists i, index_of Z.eqb z ids = Ok i) as [i ->] by reflexivity.
  induction ids as [|y ids IH]; [destruct H|]. cbn. destruct (Z.eqb_spec z y); [eauto|]. destruct H as [->|H]; [congruence|].
  destruct (IH H) as [i ->]. cbn. eauto.
Qed.

Lemma pos_sorted suf : forall pre, NoDup (pre ++ suf) -> StronglySorted (fun x y => pos (pre ++ suf) x <= pos (pre ++ suf) y) suf.
Proof.
  induction suf as [|x suf IH]; intros pre ND; constructor.
  - specialize (IH (pre ++ [x])). rewrite <- app_assoc in IH. now apply IH.
  - apply Forall_forall. intros y Hy. apply in_split in Hy as (a & c & ->).
    unfold pos at 1. rewrite index_nth by exact ND. unfold pos.
    assert (pre ++ x :: a ++ y :: c = (pre ++ x :: a) ++ y :: c) as E1 by (now rewrite <- app_assoc). rewrite E1 in ND |- *. rewrite index_nth by exact ND.
    rewrite app_length. cbn. lia.
Qed.

Lemma sorted_filter {A} (R : A -> A -> Prop) (f : A -> bool) l : StronglySorted R l -> StronglySorted R (filter f l).
Proof.
  induction 1 as [|x l S IH F]; cbn; [constructor|]. destruct (f x); [|exact IH]. constructor; [exact IH|].
  rewrite Forall_forall in *. intros y Hy. apply filter_In in Hy. now apply F.
Qed.

Lemma sorted_map {A B} (R : B -> B -> Prop) (g : A -> B) l : StronglySorted (fun x y => R (g x) (g y)) l -> StronglySorted R (map g l).
Proof. induction 1 as [|x l S IH F]; cbn; constructor; [exact IH|]. rewrite Forall_forall in *. intros y Hy. apply in_map_iff in Hy as (z & <- & Hz). now apply F. Qed.

Lemma sorted_weaken {A} (R R' : A -> A -> Prop) l : (forall x y, R x y -> R' x y) -> StronglySorted R l -> StronglySorted R' l.
Proof. intros H. induction 1 as [|x l S IH F]; constructor; [exact IH|]. rewrite Forall_forall in *. auto. Qed.

Section Round.
  Variables (E : env) (so : pyval -> string).
  Hypothesis NR : numbers_readable E.

  Definition rx_written (r : reaction) : element := rx_el E so r (map nm (r_lhs r)) (map nm (r_rhs r)).

  (** A builder holding the species [u] and the reactions [q]. *)
  Definition holding (u : list rp) (q : list reaction) : builder :=
    MkB (map (fun s => SStr (nm s)) u) (map (el_of E so) u) (map rx_written q).

  Lemma known_holding u q x : known (holding u q) (SStr x) = true <-> In x (map nm u).
  Proof. now apply known_names. Qed.

  Lemma holding_empty : b_empty = holding [] []. Proof. reflexivity. Qed.

  Lemma writable_nm s : writable_species s -> get_name s = Ok (nm s) /\ writable_name (nm s).
  Proof. intros W. destruct (ws_name _ W) as (n & Hn & Hw & _). unfold nm. rewrite Hn. auto. Qed.

  Lemma names_nm l : (forall s, In s l -> writable_species s) -> names_of l = Ok (map nm l).
  Proof.
    induction l as [|s l IH]; intros H; [reflexivity|]. unfold names_of in *. cbn [mapM map]. rewrite (proj1 (writable_nm s (H s (or_introl eq_refl)))).
    cbn [bind]. rewrite IH; [reflexivity|]. intros t Ht. apply H. now right.
  Qed.

  Lemma add_species u q s : writable_species s -> ~ In (nm s) (map nm u) ->
    add_rp_from_instance E so s (holding u q) = (holding (u ++ [s]) q, Ok tt).
  Proof.
    intros W Hn. rewrite (write_species E so s W _ (nm s)).
    - unfold holding. cbn [b_keys b_species b_reactions]. now rewrite !map_app.
    - now apply writable_nm.
    - apply Bool.not_true_iff_false. intros Hk. apply Hn. now apply known_holding in Hk.
  Qed.

  Lemma add_all_species l : forall u q, (forall s, In s l -> writable_species s) -> NoDup (map nm (u ++ l)) ->
    performed E so (holding u q) (map ORp l) (holding (u ++ l) q).
  Proof.
    induction l as [|s l IH]; intros u q W ND; cbn [map performed]; [now rewrite app_nil_r|].
    exists (holding (u ++ [s]) q). split.
    - cbn [bstep]. apply add_species; [apply W; now left|]. rewrite map_app in ND. cbn in ND. apply NoDup_remove_2 in ND.
      intros H. apply ND, in_or_app. now left.
    - replace (u ++ s :: l) with ((u ++ [s]) ++ l) in * by (now rewrite <- app_assoc). apply IH; [|exact ND]. intros t Ht. apply W. now right.
  Qed.

  Lemma add_one_reaction u q r : writable_reaction E r -> (forall s, In s (r_lhs r ++ r_rhs r) -> writable_species s /\ In (nm s) (map nm u)) ->
    add_reaction_from_instance E so r (holding u q) = (holding u (q ++ [r]), Ok tt).
  Proof.
    intros W S. rewrite (write_reaction E so r W _ (map nm (r_lhs r)) (map nm (r_rhs r))).
    - unfold holding. cbn [b_keys b_species b_reactions]. now rewrite map_app.
    - apply names_nm. intros s Hs. apply S, in_or_app. now left.
    - apply names_nm. intros s Hs. apply S, in_or_app. now right.
    - intros n Hn. rewrite <- map_app in Hn. apply in_map_iff in Hn as (s & <- & Hs). apply known_holding. now apply S.
  Qed.

  Lemma add_all_reactions u l : forall q, (forall r, In r l -> writable_reaction E r) ->
    (forall r s, In r l -> In s (r_lhs r ++ r_rhs r) -> writable_species s /\ In (nm s) (map nm u)) ->
    performed E so (holding u q) (map ORx l) (holding u (q ++ l)).
  Proof.
    induction l as [|r l IH]; intros q W S; cbn [map performed]; [now rewrite app_nil_r|].
    exists (holding u (q ++ [r])). split.
    - cbn [bstep]. apply add_one_reaction; [apply W; now left|]. intros s. apply S. now left.
    - replace (q ++ r :: l) with ((q ++ [r]) ++ l) by (now rewrite <- app_assoc). apply IH.
      + intros r' Hr. apply W. now right.
      + intros r' s Hr. apply S. now right.
  Qed.

  Lemma performed_app b l1 b1 l2 b2 : performed E so b l1 b1 -> performed E so b1 l2 b2 -> performed E so b (l1 ++ l2) b2.
  Proof.
    revert b. induction l1 as [|o l1 IH]; intros b H1 H2; cbn in *; [now subst|]. destruct H1 as (b' & Hs & H1). exists b'. eauto.
  Qed.

  (** ** Reading *)
  Lemma read_all u : (forall s, In s u -> writable_species s) -> forall uid,
    exists u', read_species E uid (map (el_of E so) u) = Ok u' /\ Forall2 (same_species E) u u' /\ map rp_uid u' = seq uid (List.length u).
  Proof using NR.
    induction u as [|s u IH]; intros W uid; cbn [map read_species List.length seq]; [exists []; auto|].
    destruct (species_read E so NR s (W s (or_introl eq_refl)) uid) as (s' & Hs & Hu & S). rewrite Hs. cbn [bind].
    rewrite (ss_name _ _ _ S), (proj1 (writable_nm s (W s (or_introl eq_refl)))). cbn [bind].
    destruct (IH (fun t Ht => W t (or_intror Ht)) (Datatypes.S uid)) as (u' & Hu' & F & N). rewrite Hu'. cbn [bind].
    exists (s' :: u'). split; [reflexivity|]. split; [now constructor|]. cbn [map]. now rewrite Hu, N.
  Qed.

  Lemma lookup_read u u' : (forall s, In s u -> writable_species s) -> Forall2 (same_species E) u u' -> NoDup (map nm u) ->
    forall s, In s u -> exists s', lookup u' (nm s) = Ok s' /\ In s' u' /\ same_species E s s'.
  Proof.
    intros W F ND s Hs.
    assert (exists s', In s' u' /\ same_species E s s') as (s' & Hs' & S).
    { clear -F Hs. induction F as [|x y l l' S F IH]; [destruct Hs|]. destruct Hs as [->|Hs]; [exists y; split; [now left|exact S]|].
      destruct (IH Hs) as (s' & ? & ?). exists s'. split; [now right|assumption]. }
    assert (map nm u' = map nm u) as Hm.
    { clear -F. induction F as [|x y l l' S F IH]; [reflexivity|]. cbn. rewrite IH. f_equal. unfold nm. now rewrite (ss_name _ _ _ S). }
    exists s'. split; [|auto]. unfold lookup.
    assert (Hn : get_name s' = Ok (nm s)) by (rewrite (ss_name _ _ _ S); now apply writable_nm, W).
    match goal with |- context [find ?f ?l] => destruct (find f l) as [t|] eqn:Ef end.
    - apply find_some in Ef as [Ht Et]. apply in_rev in Ht. destruct (get_name t) as [m|] eqn:Em; [|discriminate]. apply String.eqb_eq in Et. subst m.
      f_equal. apply (NoDup_map_inj nm u' t s'); auto; [now rewrite Hm|]. unfold nm at 1 2. now rewrite Em, Hn.
    - exfalso. apply in_rev in Hs'. apply (find_none _ _ Ef) in Hs'. rewrite Hn, String.eqb_refl in Hs'. discriminate.
  Qed.

  Lemma lookup_side u u' : (forall s, In s u -> writable_species s) -> Forall2 (same_species E) u u' -> NoDup (map nm u) ->
    forall l, incl l u -> exists l', mapM (lookup u') (map nm l) = Ok l' /\ Forall2 (same_species E) l l' /\ incl l' u'.
  Proof.
    intros W F ND. induction l as [|s l IH]; intros I; cbn [map mapM].
    - exists []. split; [reflexivity|]. split; [constructor|]. intros x [].
    - destruct (lookup_read u u' W F ND s (I s (or_introl eq_refl))) as (s' & Hl & Hi & S). rewrite Hl. cbn [bind].
      destruct (IH (fun t Ht => I t (or_intror Ht))) as (l' & Hl' & F' & I'). rewrite Hl'. cbn [bind].
      exists (s' :: l'). split; [reflexivity|]. split; [now constructor|]. intros t [<-|Ht]; auto.
  Qed.

  (** What [get_species_and_reactions_from_xml_elements] makes of it. *)
  Definition read_back (uid : nat) (u : list rp) (q : list reaction) (u' : list rp) (q' : list reaction) : Prop :=
    Forall2 (same_species E) u u' /\ Forall2 (same_reaction E) q q' /\
    (forall r', In r' q' -> incl (r_lhs r' ++ r_rhs r') u') /\ map rp_uid u' = seq uid (List.length u).

  Lemma parse_holding u q : (forall s, In s u -> writable_species s) -> NoDup (map nm u) ->
    (forall r, In r q -> writable_reaction E r /\ incl (r_lhs r ++ r_rhs r) u) -> forall uid,
    exists u' q', parse E uid (map (el_of E so) u) (map rx_written q) = Ok (u', q') /\ read_back uid u q u' q'.
  Proof using NR.
    intros W ND R uid. destruct (read_all u W uid) as (u' & Hu & F & N). unfold parse. rewrite Hu. cbn [bind].
    assert (exists q', mapM (reaction_of E u') (map rx_written q) = Ok q' /\ Forall2 (same_reaction E) q q' /\
      forall r', In r' q' -> incl (r_lhs r' ++ r_rhs r') u') as (q' & Hq & Fq & Iq).
    { induction q as [|r q IH]; cbn [map mapM].
      - exists []. split; [reflexivity|]. split; [constructor|]. intros r' [].
      - destruct (R r (or_introl eq_refl)) as [Wr Ir].
        assert (Il : incl (r_lhs r) u) by (intros s Hs; apply Ir, in_or_app; now left).
        assert (Ii : incl (r_rhs r) u) by (intros s Hs; apply Ir, in_or_app; now right).
        destruct (lookup_side u u' W F ND _ Il) as (l' & Hl & Fl & Jl). destruct (lookup_side u u' W F ND _ Ii) as (i' & Hi & Fi & Ji).
        destruct (reaction_read E so NR r Wr u' (map nm (r_lhs r)) (map nm (r_rhs r)) l' i') as (r' & Hr & Lr & Rr & S); auto.
        + apply names_nm. auto.
        + apply names_nm. auto.
        + intros n Hn. rewrite <- map_app in Hn. apply in_map_iff in Hn as (s & <- & Hs). now apply writable_nm, W, Ir.
        + unfold rx_written at 1. rewrite Hr. cbn [bind]. destruct IH as (q' & Hq & Fq & Iq); [intros t Ht; apply R; now right|].
          rewrite Hq. cbn [bind]. exists (r' :: q'). split; [reflexivity|]. split; [now constructor|].
          intros t [<-|Ht]; [|now apply Iq]. rewrite Lr, Rr. intros x Hx. apply in_app_or in Hx as [Hx|Hx]; auto. }
    rewrite Hq. cbn [bind]. exists u', q'. split; [reflexivity|]. unfold read_back. auto.
  Qed.

  Lemma join_nonempty l : l <> [] -> (forall n, In n l -> n <> "") -> str_join ", " l <> "".
  Proof.
    destruct l as [|x l]; intros H1 H2; [congruence|]. intros Hc. apply (f_equal chars) in Hc. rewrite join_chars in Hc. cbn [map join_l] in Hc.
    assert (x <> "") as Hx by (apply H2; now left). destruct x; [congruence|]. destruct l; discriminate Hc.
  Qed.

  Lemma reread_holding u q : (forall s, In s u -> writable_species s) -> (forall r, In r q -> writable_reaction E r /\ incl (r_lhs r ++ r_rhs r) u) ->
    map reread (map (el_of E so) u) = map (el_of E so) u /\ map reread (map rx_written q) = map rx_written q.
  Proof using NR.
    intros W R. split; rewrite map_map; apply map_ext_in.
    - intros s Hs. apply species_reread; auto.
    - intros r Hr. destruct (R r Hr) as [Wr I]. unfold rx_written.
      assert ((1 <= List.length (r_lhs r) <= 3)%nat /\ (1 <= List.length (r_rhs r))%nat) as [L1 L2].
      { destruct (wr_history _ _ Wr) as [id lhs rhs attributes more units r0 l H].
        apply reaction_init_parts in H as (_ & _ & H2 & H3 & H4 & H5 & _). destruct (assigns_keeps E l r0) as (_ & -> & ->). rewrite H2, H3. auto. }
      apply reaction_reread; auto; (apply join_nonempty; [intros Hc; apply (f_equal (@List.length _)) in Hc; rewrite map_length in Hc; cbn in Hc; lia|]);
        intros n Hn; apply in_map_iff in Hn as (s & <- & Hs); apply writable_nm, W, I, in_or_app; auto.
  Qed.

  (** Writing to a file and reading it. *)
  Lemma file_holding u q : (forall s, In s u -> writable_species s) -> NoDup (map nm u) ->
    (forall r, In r q -> writable_reaction E r /\ incl (r_lhs r ++ r_rhs r) u) -> forall uid path overwrite fs,
    (shas path fs = true -> overwrite = true) ->
    exists fs' u' q', dump_xml path overwrite (holding u q) fs = (fs', Ok tt) /\
      get_species_and_reactions E uid path fs' = Ok (u', q') /\ read_back uid u q u' q' /\
      (forall p, p <> path -> sget p fs' = sget p fs).
  Proof using NR.
    intros W ND R uid path overwrite fs Ho. unfold dump_xml.
    assert (shas path fs && negb overwrite = false) as ->.
    { destruct (shas path fs); [|reflexivity]. rewrite (Ho eq_refl). reflexivity. }
    destruct (parse_holding u q W ND R uid) as (u' & q' & Hp & B). eexists _, u', q'. split; [reflexivity|].
    split; [|split; [exact B|]].
    - unfold get_species_and_reactions. rewrite (aget_aset_same _ Seqb_spec). cbn [holding b_species b_reactions].
      destruct (reread_holding u q W R) as [-> ->]. exact Hp.
    - intros p Hp'. apply (aget_aset_other _ Seqb_spec). exact Hp'.
  Qed.

  (** ** Chemistries *)

  Variable sps : list rp.
  Hypothesis SW : forall s, In s sps -> writable_species s.
  Hypothesis SN : NoDup (map nm sps).

  Lemma sps_eq s t : In s sps -> In t sps -> nm s = nm t -> s = t.
  Proof using SN. intros. now apply (NoDup_map_inj nm sps). Qed.

  Lemma missing l : incl l sps -> forall u q, incl u sps -> NoDup (map nm u) ->
    exists u', add_missing E so l (holding u q) = (holding u' q, Ok tt) /\ incl u' sps /\ NoDup (map nm u') /\
      forall s, In s u' <-> In s u \/ In s l.
  Proof using SW SN.
    induction l as [|s l IH]; intros I u q Iu ND; cbn [add_missing].
    - exists u. split; [reflexivity|]. split; [exact Iu|]. split; [exact ND|]. intros s. cbn. tauto.
    - assert (Hs : In s sps) by (apply I; now left). rewrite (proj1 (writable_nm s (SW s Hs))).
      assert (Il : incl l sps) by (intros t Ht; apply I; now right).
      destruct (known (holding u q) (SStr (nm s))) eqn:Ek.
      + destruct (IH Il u q Iu ND) as (u' & H1 & H2 & H3 & H4). exists u'. repeat (split; [assumption|]).
        apply known_holding in Ek. apply in_map_iff in Ek as (t & Et & Ht).
        assert (t = s) as -> by (apply sps_eq; auto). intros x. rewrite H4. cbn. split; [tauto|]. intros [?|[<-|?]]; auto.
      + assert (~ In (nm s) (map nm u)) as Hn by (intros H; apply (known_holding u q) in H; congruence).
        rewrite add_species by auto.
        destruct (IH Il (u ++ [s]) q) as (u' & H1 & H2 & H3 & H4).
        * intros t Ht. apply in_app_or in Ht as [Ht|[<-|[]]]; auto.
        * rewrite map_app. now apply NoDup_snoc.
        * exists u'. repeat (split; [assumption|]). intros x. rewrite H4, in_app_iff. cbn. tauto.
  Qed.

  Lemma missing_reactions l : (forall r, In r l -> writable_reaction E r /\ incl (r_lhs r ++ r_rhs r) sps) ->
    forall u q, incl u sps -> NoDup (map nm u) ->
    exists u', add_reactions E so l (holding u q) = (holding u' (q ++ l), Ok tt) /\ incl u' sps /\ NoDup (map nm u') /\
      forall s, In s u' <-> In s u \/ exists r, In r l /\ In s (r_lhs r ++ r_rhs r).
  Proof using SW SN.
    induction l as [|r l IH]; intros W u q Iu ND; cbn [add_reactions].
    - exists u. rewrite app_nil_r. split; [reflexivity|]. split; [exact Iu|]. split; [exact ND|].
      intros s. split; [auto|]. intros [H|(r & [] & _)]. exact H.
    - destruct (W r (or_introl eq_refl)) as [Wr Ir]. destruct (missing _ Ir u q Iu ND) as (u1 & H1 & H2 & H3 & H4).
      assert (add_reaction_from_instance E so r (holding u q) = (holding u1 (q ++ [r]), Ok tt)) as ->.
      { assert (add_reaction_from_instance E so r (holding u q) = add_reaction_from_instance E so r (holding u1 q)) as ->.
        { unfold add_reaction_from_instance. rewrite H1.
          destruct (missing _ Ir u1 q H2 H3) as (u2 & G1 & _). 
          assert (forall m, incl m u1 -> add_missing E so m (holding u1 q) = (holding u1 q, Ok tt)) as G.
          { clear -SW H2. induction m as [|s m IHm]; intros Im; cbn [add_missing]; [reflexivity|].
            rewrite (proj1 (writable_nm s (SW s (H2 s (Im s (or_introl eq_refl)))))).
            rewrite (proj2 (known_holding u1 q _)) by (apply in_map, Im; now left). apply IHm. intros t Ht. apply Im. now right. }
          rewrite (G (r_lhs r ++ r_rhs r)); [reflexivity|]. intros s Hs. apply H4. now right. }
        apply add_one_reaction; [exact Wr|]. intros s Hs. split; [now apply SW, Ir|]. apply in_map, H4. now right. }
      destruct (IH (fun t Ht => W t (or_intror Ht)) u1 (q ++ [r]) H2 H3) as (u' & G1 & G2 & G3 & G4).
      exists u'. rewrite <- app_assoc in G1. split; [exact G1|]. split; [exact G2|]. split; [exact G3|].
      intros s. rewrite G4, H4. split.
      + intros [[H|H]|(t & Ht & H)]; [now left|right; exists r|right; exists t]; split; auto; [now left|now right].
      + intros [H|(t & [<-|Ht] & H)]; [auto|auto|right; eauto].
  Qed.

  Definition takes_part (q : list reaction) (s : rp) : bool :=
    existsb (fun r => memS (nm s) (map nm (r_lhs r ++ r_rhs r))) q.

  Lemma takes_part_spec q s : (forall r, In r q -> incl (r_lhs r ++ r_rhs r) sps) -> In s sps ->
    takes_part q s = true <-> exists r, In r q /\ In s (r_lhs r ++ r_rhs r).
  Proof using SN.
    intros I Hs. unfold takes_part. rewrite existsb_exists. split; intros (r & Hr & H); exists r; split; auto.
    - apply memS_In in H. apply in_map_iff in H as (t & Et & Ht). rewrite (sps_eq s t); auto. now apply (I r).
    - apply memS_In. now apply in_map.
  Qed.

  Theorem write_chemistry q : NoDup (map rp_id sps) -> (forall r, In r q -> writable_reaction E r /\ incl (r_lhs r ++ r_rhs r) sps) ->
    add_chemistry_from_instance E so (map rp_id sps) q b_empty = (MkB (b_keys (holding [] q) ++ b_keys (fst (add_reactions E so q b_empty))) (b_species (holding (filter (takes_part q) sps) q)) (map rx_written q), Ok tt).
  Proof using NR SW SN.
    intros NI W. unfold add_chemistry_from_instance.
    destruct (missing_reactions q W [] []) as (u & Hu & Iu & ND & Us); [intros x []|constructor|].
    change (holding [] []) with b_empty in Hu. cbn [app] in Hu. rewrite Hu. cbn [fst holding b_species b_keys b_reactions map app].
    set (ids := map rp_id sps).
    set (f := fun s => (pos ids (rp_id s), el_of E so s)).
    unfold sort_by.
    assert (mapM (fun a => let* k := (let* z := py_int_str E (el_id a) in index_of Z.eqb z ids) in Ok (k, a)) (map (el_of E so) u) = Ok (map f u)) as ->.
    { clear Hu Us ND. induction u as [|s u IH]; [reflexivity|]. cbn [map mapM]. cbn [el_of el_id]. unfold py_int_str at 1. destruct NR as (_ & _ & -> & _). cbn [bind].
      rewrite pos_ok by (apply in_map, Iu; now left). cbn [bind]. rewrite IH by (intros t Ht; apply Iu; now right). reflexivity. }
    cbn [bind].
    assert (isort (fun x y => Z.leb (fst x) (fst y)) (map f u) = map f (filter (takes_part q) sps)) as ->.
    { apply sorted_keys_unique.
      - apply isort_sorted; intros; rewrite ?Z.leb_le in *; lia.
      - apply sorted_map. apply sorted_filter. pose proof (pos_sorted ids [] NI) as P. cbn [app] in P. fold ids.
        assert (G : forall l, StronglySorted (fun x y => pos ids x <= pos ids y) (map rp_id l) -> StronglySorted (fun x y : rp => Z.leb (fst (f x)) (fst (f y)) = true) l).
        { induction l as [|s l IH]; intros S; constructor; inversion S as [|? ? S1 F1]; subst; [auto|].
          rewrite Forall_forall in *. intros t Ht. cbn. apply Z.leb_le. apply F1. now apply in_map. }
        now apply G.
      - apply (Permutation_NoDup (l := map fst (map f u))); [apply Permutation_map, isort_perm|].
        rewrite map_map. cbn [f fst]. clear Hu Us.
        assert (forall l, incl l sps -> NoDup (map nm l) -> NoDup (map (fun s => pos ids (rp_id s)) l)) as G; [|now apply G].
        induction l as [|s l IH]; intros Il N; cbn; constructor; inversion N as [|? ? N1 N2]; subst; [|apply IH; auto; intros t Ht; apply Il; now right].
        intros Hc. apply in_map_iff in Hc as (t & Et & Ht). apply N1.
        assert (Is : In s sps) by (apply Il; now left). assert (It : In t sps) by (apply Il; now right).
        assert (rp_id t = rp_id s) as Hid.
        { apply (index_inj ids _ _ (pos ids (rp_id t))); [apply pos_ok|rewrite Et; apply pos_ok]; now apply in_map. }
        assert (t = s) as <- by (now apply (NoDup_map_inj rp_id sps)). now apply in_map.
      - apply Permutation_trans with (l' := map f u); [symmetry; apply isort_perm|]. apply Permutation_map.
        apply NoDup_Permutation.
        + now apply NoDup_map_inv in ND.
        + apply NoDup_filter. now apply NoDup_map_inv in SN.
        + intros s. rewrite filter_In. split.
          * intros Hs. assert (In s sps) as Hs' by auto. split; [exact Hs'|]. apply takes_part_spec; auto; [intros r Hr; now apply W|].
            apply Us in Hs as [[]|Hs]. exact Hs.
          * intros [Hs Ht]. apply Us. right. apply takes_part_spec in Ht; auto. intros r Hr. now apply W. }
    rewrite map_map. reflexivity.
  Qed.
End Round.
