(** The main results about XML files and their builder. *)
From Coq Require Import Sorting.Permutation.
From Verif Require Import Base BaseLemmas Species Reactions MolSpec SortLemmas Classification Xml XmlSpec XmlProofs XmlRead XmlReact XmlRound.

Lemma names_distinct sps : (forall s, In s sps -> writable_species s) -> NoDup (map get_name sps) -> NoDup (map nm sps).
Proof.
  intros W ND. assert (map get_name sps = map (@Ok string) (map nm sps)) as H.
  { rewrite map_map. apply map_ext_in. intros s Hs. now apply writable_nm, W. }
  rewrite H in ND. now apply NoDup_map_inv in ND.
Qed.

Section Main.
  Variables (E : env) (so : pyval -> string).
  Hypothesis NR : numbers_readable E.

  Lemma reads_elements uid b u q : b_species b = map (el_of E so) u -> b_reactions b = map (rx_written E so) q ->
    (forall s, In s u -> writable_species s) -> NoDup (map nm u) -> (forall r, In r q -> writable_reaction E r /\ incl (r_lhs r ++ r_rhs r) u) ->
    exists u' q', reads E uid b u' q' /\ read_back E uid u q u' q'.
  Proof using NR.
    intros Hs Hr W ND R. destruct (parse_holding E so NR u q W ND R uid) as (u' & q' & Hp & B). exists u', q'. split; [|exact B].
    unfold reads. rewrite Hs, Hr. split; [exact Hp|]. intros path overwrite fs Ho. unfold dump_xml.
    assert (shas path fs && negb overwrite = false) as ->.
    { destruct (shas path fs); [|reflexivity]. rewrite (Ho eq_refl). reflexivity. }
    eexists. split; [reflexivity|]. split.
    - unfold get_species_and_reactions. rewrite (aget_aset_same _ Seqb_spec). rewrite Hs, Hr. destruct (reread_holding E so NR u q W R) as [-> ->]. exact Hp.
    - intros p Hp'. apply (aget_aset_other _ Seqb_spec). exact Hp'.
  Qed.

  Theorem roundtrip uid sps rxs : (forall s, In s sps -> writable_species s) -> NoDup (map get_name sps) ->
    (forall r, In r rxs -> writable_reaction E r /\ incl (r_lhs r ++ r_rhs r) sps) ->
    exists b sps' rxs', performed E so b_empty (map ORp sps ++ map ORx rxs) b /\ reads E uid b sps' rxs' /\
      Forall2 (same_species E) sps sps' /\ Forall2 (same_reaction E) rxs rxs' /\
      (forall r', In r' rxs' -> incl (r_lhs r' ++ r_rhs r') sps') /\ map rp_uid sps' = seq uid (List.length sps).
  Proof using NR.
    intros W ND R. apply names_distinct in ND; [|exact W].
    destruct (reads_elements uid (holding E so sps rxs) sps rxs) as (u' & q' & H & B); auto.
    exists (holding E so sps rxs), u', q'. split; [|split; [exact H|exact B]].
    apply (performed_app E so _ _ (holding E so sps [])).
    - apply (add_all_species E so sps [] []); auto.
    - apply (add_all_reactions E so sps rxs []); [intros r Hr; now apply R|]. intros r s Hr Hs. destruct (R r Hr) as [_ I]. split; [now apply W, I|].
      apply in_map. now apply I.
  Qed.

  Theorem chemistry_roundtrip uid sps rxs : (forall s, In s sps -> writable_species s) -> NoDup (map get_name sps) -> NoDup (map rp_id sps) ->
    (forall r, In r rxs -> writable_reaction E r /\ incl (r_lhs r ++ r_rhs r) sps) ->
    exists b f sps' rxs', add_chemistry_from_instance E so (map rp_id sps) rxs b_empty = (b, Ok tt) /\
      (forall s, In s sps -> f s = true <-> exists r, In r rxs /\ In s (r_lhs r ++ r_rhs r)) /\ reads E uid b sps' rxs' /\
      Forall2 (same_species E) (filter f sps) sps' /\ Forall2 (same_reaction E) rxs rxs' /\
      (forall r', In r' rxs' -> incl (r_lhs r' ++ r_rhs r') sps').
  Proof using NR.
    intros W ND NI R. apply names_distinct in ND; [|exact W].
    assert (Rs : forall r, In r rxs -> incl (r_lhs r ++ r_rhs r) sps) by (intros r Hr; now apply R).
    eexists _, (takes_part rxs). 
    match goal with |- exists _ _, _ = (?b, _) /\ _ => set (bb := b) end.
    pose proof (write_chemistry E so NR sps W ND rxs NI R) as H.
    destruct (reads_elements uid (MkB (b_keys (holding E so [] rxs) ++ b_keys (fst (add_reactions E so rxs b_empty)))
      (b_species (holding E so (filter (takes_part rxs) sps) rxs)) (map (rx_written E so) rxs)) (filter (takes_part rxs) sps) rxs) as (u' & q' & G & B); auto.
    - intros s Hs. apply filter_In in Hs as [Hs _]. now apply W.
    - clear -ND. induction sps as [|s l IH]; cbn [filter map]; [constructor|]. cbn in ND. inversion ND as [|? ? N1 N2]; subst.
      destruct (takes_part rxs s); cbn [map]; [constructor|]; auto. intros Hc. apply N1. apply in_map_iff in Hc as (t & Et & Ht).
      apply filter_In in Ht as [Ht _]. rewrite <- Et. now apply in_map.
    - intros r Hr. split; [now apply R|]. intros s Hs. apply filter_In. pose proof (Rs r Hr s Hs) as Hi. split; [exact Hi|].
      apply (takes_part_spec sps ND); eauto.
    - exists u', q'. split; [exact H|]. split; [intros s Hs; now apply (takes_part_spec sps ND)|]. split; [exact G|].
      destruct B as (B1 & B2 & B3 & _). auto.
  Qed.

  (** ** Files are protected *)
  Lemma dump_protected path b fs : shas path fs = true -> dump_xml path false b fs = (fs, Err EXml).
  Proof. intros H. unfold dump_xml. now rewrite H. Qed.

  (** ** Species that are foreign to an added chemistry *)
  Lemma missing_keeps l : forall b, incl (b_species b) (b_species (fst (add_missing E so l b))) /\ b_reactions (fst (add_missing E so l b)) = b_reactions b.
  Proof.
    induction l as [|s l IH]; intros b; cbn [add_missing]; [split; [intros x H; exact H|reflexivity]|].
    destruct (get_name s) as [n|e]; [|split; [intros x H; exact H|reflexivity]]. destruct (known b (SStr n)); [apply IH|].
    assert (incl (b_species b) (b_species (fst (add_rp_from_instance E so s b))) /\ b_reactions (fst (add_rp_from_instance E so s b)) = b_reactions b) as [A B].
    { unfold add_rp_from_instance, add_rp_from_attributes. cbv zeta. destruct (sget "name" _) as [[k|d|]|]; try (split; [intros x H; exact H|reflexivity]).
      destruct (known b k); [split; [intros x H; exact H|reflexivity]|]. destruct (mapM _ rp_attr_keys); cbn [fst b_species b_reactions]; split; try reflexivity;
      [now apply incl_appl|intros x H; exact H]. }
    destruct (add_rp_from_instance E so s b) as [b1 [[]|e]]; cbn [fst] in *; [|auto]. destruct (IH b1) as [C D]. split; [intros x H; auto|congruence].
  Qed.

  Lemma reactions_keep l : forall b, snd (add_reactions E so l b) = Ok tt ->
    incl (b_species b) (b_species (fst (add_reactions E so l b))) /\
    exists new, b_reactions (fst (add_reactions E so l b)) = b_reactions b ++ new /\ List.length new = List.length l.
  Proof.
    induction l as [|r l IH]; intros b H; cbn [add_reactions] in *; [split; [intros x Hx; exact Hx|exists []; now rewrite app_nil_r]|].
    unfold add_reaction_from_instance in *. destruct (missing_keeps (r_lhs r ++ r_rhs r) b) as [A B].
    destruct (add_missing E so (r_lhs r ++ r_rhs r) b) as [b1 [[]|e]]; cbn [fst snd] in *; [|discriminate].
    destruct (names_of (r_lhs r)) as [ls|e1]; [|discriminate]. destruct (names_of (r_rhs r)) as [rs|e2]; [|discriminate].
    unfold add_reaction_from_attributes in *. cbv zeta in *. destruct (negb _); [discriminate|].
    match goal with H : snd (add_reactions _ _ l ?bb) = Ok tt |- _ => destruct (IH bb H) as (C & new & D & L) end. cbn [b_species b_reactions] in *.
    split; [intros x Hx; auto|]. rewrite D, B, <- app_assoc. eexists. split; [reflexivity|]. cbn. congruence.
  Qed.

  (** Adding a chemistry to a builder with a species whose id the chemistry does
      not have: the call fails, yet its reactions have all been added. *)
  Theorem foreign_species b ids rxs e z : In e (b_species b) -> iparse E (el_id e) = Some z -> ~ In z ids ->
    snd (add_reactions E so rxs b) = Ok tt ->
    exists b', (exists x, add_chemistry_from_instance E so ids rxs b = (b', Err x)) /\
      exists new, b_reactions b' = b_reactions b ++ new /\ List.length new = List.length rxs.
  Proof.
    intros He Hz Hn Hok. unfold add_chemistry_from_instance. destruct (reactions_keep rxs b Hok) as (I & new & Hr & L).
    destruct (add_reactions E so rxs b) as [b1 [[]|x]]; cbn [fst snd] in *; [|discriminate].
    exists b1. split; [|exists new; auto].
    destruct (sort_by Z.leb _ (b_species b1)) as [m|x] eqn:Es; [|eauto]. exfalso.
    unfold sort_by in Es. destruct (mapM _ (b_species b1)) as [ks|] eqn:Ek; [|discriminate]. apply mapM_Ok_inv in Ek.
    assert (exists k, (let* k0 := (let* z0 := py_int_str E (el_id e) in index_of Z.eqb z0 ids) in Ok (k0, e)) = Ok k) as [k Hk].
    { apply I in He. clear -Ek He. induction Ek as [|a k l ks H F IH]; [destruct He|]. destruct He as [->|He]; eauto. }
    unfold py_int_str in Hk. rewrite Hz in Hk. cbn [bind] in Hk. destruct (index_of Z.eqb z ids) as [i|] eqn:Ei; [|discriminate].
    apply Hn. clear -Ei. revert i Ei. induction ids as [|y ids IH]; intros i H; cbn in H; [discriminate|].
    destruct (Z.eqb_spec z y); [left; now symmetry|]. destruct (index_of Z.eqb z ids) as [j|]; [|discriminate]. right. now apply (IH j).
  Qed.
End Main.
