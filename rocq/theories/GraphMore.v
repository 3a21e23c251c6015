(** Node attributes, and the order of the ranking. *)
From Coq Require Import Sorted Permutation Lqa.
From Verif Require Import Base BaseLemmas SpeciesProofs Graph GraphSpec GraphProofs GraphPaths ChemGraph.
Local Open Scope Q_scope.

(** [graph.get_node_attributes(n).get(k)], graph.py L45-50. *)
Definition node_attribute {A} (g : graph A) (n k : string) : option A :=
  match sget n (g_nattr g) with Some d => sget k d | None => None end.

Lemma add_node_nattr {A} (g : graph A) x n : In n (g_nodes g) ->
  sget n (g_nattr (add_node g x)) = sget n (g_nattr g) /\ In n (g_nodes (add_node g x)).
Proof.
  intros H. unfold add_node. destruct (memS x (g_nodes g)) eqn:M; [auto|]. cbn. split.
  - apply (aget_aset_other String.eqb Seqb_spec). intros ->. assert (memS x (g_nodes g) = true) by now apply memS_In. congruence.
  - apply in_or_app. auto.
Qed.

Lemma add_edge_nattr {A} (g : graph A) u v n : In n (g_nodes g) -> sget n (g_nattr (fst (add_edge g u v))) = sget n (g_nattr g).
Proof.
  intros H. destruct (add_node_nattr g u n H) as [E1 H1]. destruct (add_node_nattr (add_node g u) v n H1) as [E2 _].
  rewrite <- E1, <- E2. unfold add_edge. destruct (edge_mem _ _); [reflexivity|]. destruct (set_add u v _); [|reflexivity].
  destruct (set_add v u _); reflexivity.
Qed.

Lemma node_step {A} (pos : A -> bool) h o n k :
  (forall x at_, o = GNodeAttr x at_ -> NoDup (map fst at_)) ->
  let g := grun pos h in
  In n (g_nodes g) ->
  node_attribute (grun pos (h ++ [o])) n k =
  match o with
  | GNodeAttr x at_ =>
      if String.eqb n x then match sget k at_ with Some a => Some a | None => node_attribute g n k end
      else node_attribute g n k
  | _ => node_attribute g n k
  end.
Proof.
  intros Hd g Hn. unfold grun. rewrite fold_left_app. cbn [fold_left]. fold (grun pos h). fold g.
  pose proof (run_wf pos h) as W. fold g in W.
  destruct (proj1 (wf_nattr g W n) Hn) as [d Ed].
  destruct o as [x y|x at_|x y at_|b]; cbn [gstep]; unfold node_attribute.
  - now rewrite (add_edge_nattr g x y n Hn).
  - unfold update_node_attributes. destruct (String.eqb_spec n x) as [<-|Hne].
    + rewrite Ed. cbn [fst g_nattr]. rewrite (aget_aset_same String.eqb Seqb_spec), supdate_get by (eapply Hd; reflexivity).
      destruct (sget k at_); reflexivity.
    + destruct (sget x (g_nattr g)); cbn [fst g_nattr]; [|reflexivity].
      now rewrite (aget_aset_other String.eqb Seqb_spec).
  - unfold update_edge_attributes. destruct (match sget "weight" at_ with Some w => negb (pos w) | None => false end); [reflexivity|].
    destruct (eget (x, y) (g_eattr g)); reflexivity.
  - reflexivity.
Qed.

(** A ranking sorted by score. *)
Lemma ascending (l a b d : list (string * option Q)) x y v :
  LocallySorted (fun p q => score_leb Qltb p q = true) l -> l = a ++ x :: b ++ y :: d -> snd y = Some v ->
  exists w, snd x = Some w /\ w <= v.
Proof.
  intros S E Hv. assert (T : Transitive (fun p q : string * option Q => score_leb Qltb p q = true)).
  { intros [p [p1|]] [q [q1|]] [r [r1|]]; unfold score_leb, Qltb; cbn [snd]; rewrite ?negb_involutive, ?Qle_bool_iff;
      try discriminate; try reflexivity; intros; lra. }
  apply Sorted_LocallySorted_iff in S. apply (Sorted_StronglySorted T) in S. rewrite E in S.
  assert (F : Forall (fun q => score_leb Qltb x q = true) (b ++ y :: d)).
  { clear - S. induction a as [|z a IH]; cbn in S; inversion S; auto. }
  rewrite Forall_forall in F. assert (Iy : In y (b ++ y :: d)) by (apply in_or_app; right; now left). specialize (F y Iy).
  unfold score_leb in F. rewrite Hv in F. destruct (snd x) as [w|]; [|discriminate]. exists w. split; [reflexivity|].
  unfold Qltb in F. rewrite negb_involutive in F. now apply Qle_bool_iff.
Qed.

Lemma needs_weights {V} k (vltb : V -> V -> bool) label scores important :
  ranking_values k vltb label scores [] important = Err EValue.
Proof. reflexivity. Qed.
