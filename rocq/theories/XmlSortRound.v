(** Reading a chemistry after its elements have been sorted. *)
From Coq Require Import Permutation.
From Verif Require Import Base BaseLemmas Species Reactions MolSpec Classification Xml XmlSpec XmlProofs XmlRead XmlReact XmlRound XmlIds XmlBuilder XmlMain XmlExamples.

Section SortRound.
  Variables (E : env) (so : pyval -> string).
  Hypothesis NR : numbers_readable E.

  Theorem sorted_roundtrip uid0 uid sps rxs : (forall s, In s sps -> writable_species s) -> NoDup (map get_name sps) -> NoDup (map rp_id sps) ->
    (forall r, In r rxs -> writable_reaction E r /\ incl (r_lhs r ++ r_rhs r) sps) -> NoDup (map r_id rxs) ->
    exists b sps2 rxs2 sps' rxs', performed E so b_empty (map ORp sps ++ map ORx rxs) b /\
      Permutation sps2 sps /\ Permutation rxs2 rxs /\ reads E uid (fst (sort_elements E uid0 b)) sps' rxs' /\
      Forall2 (same_species E) sps2 sps' /\ Forall2 (same_reaction E) rxs2 rxs' /\
      (forall r', In r' rxs' -> incl (r_lhs r' ++ r_rhs r') sps').
  Proof using NR.
    intros W ND NI R NX. pose proof (names_distinct sps W ND) as NN.
    set (b := holding E so sps rxs).
    assert (P : performed E so b_empty (map ORp sps ++ map ORx rxs) b).
    { apply (performed_app E so _ _ (holding E so sps [])).
      - apply (add_all_species E so sps [] []); auto.
      - apply (add_all_reactions E so sps rxs []); [intros r Hr; now apply R|]. intros r s Hr Hs. destruct (R r Hr) as [_ I]. split; [now apply W, I|].
        apply in_map. now apply I. }
    assert (IJ : FinFun.Injective (ishow E)) by (intros z w H; now apply (readable_injective E NR)).
    assert (N1 : NoDup (map el_id (b_species b))).
    { cbn [b holding b_species]. rewrite map_map. rewrite <- (map_map rp_id (ishow E)). now apply FinFun.Injective_map_NoDup. }
    assert (N2 : NoDup (map el_id (b_reactions b))).
    { cbn [b holding b_reactions]. rewrite map_map.
      replace (map (fun x => el_id (rx_written E so x)) rxs) with (map (fun x => ishow E (r_id x)) rxs) by (apply map_ext; reflexivity).
      rewrite <- (map_map r_id (ishow E)). now apply FinFun.Injective_map_NoDup. }
    exists b. destruct (sort_perm E uid0 b N1 N2) as [S1 S2]. set (b' := fst (sort_elements E uid0 b)) in *. clearbody b'. cbn [b holding b_species b_reactions] in S1, S2.
    apply Permutation_sym, Permutation_map_inv in S1 as (u & Q1 & S1). apply Permutation_sym, Permutation_map_inv in S2 as (q & Q2 & S2).
    destruct (reads_elements E so NR uid b' u q Q1 Q2) as (u' & q' & H & B & C & D & _).
    - intros s Hs. apply W. now apply (Permutation_in _ (Permutation_sym S1)).
    - now apply (Permutation_NoDup (Permutation_map nm S1)).
    - intros r Hr. apply (Permutation_in _ (Permutation_sym S2)) in Hr. destruct (R r Hr) as [A I]. split; [exact A|].
      intros s Hs. apply (Permutation_in _ S1). now apply I.
    - exists u, q, u', q'. split; [exact P|]. split; [now symmetry|]. split; [now symmetry|]. split; [exact H|]. split; [exact B|]. split; [exact C|exact D].
  Qed.
End SortRound.
Lemma chem_rx_ids : NoDup (map r_id chem_rxs).
Proof. vm_compute. repeat constructor; cbn; intuition discriminate. Qed.
