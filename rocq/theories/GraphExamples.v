(** Bookkeeping of the graph; witnesses and counterexamples for the graph
    algorithms and the ranking. *)
From Coq Require Import Permutation Qabs Lra Lqa Qreals Reals.
From Verif Require Import Base BaseLemmas SortLemmas Graph GraphSpec GraphProofs GraphPaths GraphFlow ChemGraph ChemGraphSpec
  ChemGraphProofs ChemRanking.
Local Open Scope Q_scope.

Section Book.
  Context {A : Type}.
  Variable pos : A -> bool.

  Lemma step_edges g o : wfg g ->
    (forall u v, In (u, v) (g_edges (gstep pos g o)) <-> In (u, v) (g_edges g) \/ o = GEdge u v) /\
    (forall n, In n (g_nodes (gstep pos g o)) <-> In n (g_nodes g) \/ exists u v, o = GEdge u v /\ (n = u \/ n = v)).
  Proof using.
    intros W. destruct o as [x y|x at_|x y at_|b]; cbn [gstep].
    - destruct (add_edge_spec g x y W) as (g' & E & _ & HE & HN & _). rewrite E. cbn [fst]. split.
      + intros u v. rewrite HE. split; (intros [H|H]; [now left|right]); congruence.
      + intros n. rewrite HN. split; (intros [H|H]; [now left|right]).
        * exists x, y. auto.
        * destruct H as (u & v & H & Hn). injection H as -> ->. exact Hn.
    - assert (g_edges (fst (update_node_attributes g x at_)) = g_edges g /\ g_nodes (fst (update_node_attributes g x at_)) = g_nodes g) as [-> ->].
      { unfold update_node_attributes. destruct (sget x (g_nattr g)); auto. }
      split; [intros u v|intros n]; (split; [auto|]); intros [H|H]; auto; [discriminate|destruct H as (? & ? & H & _); discriminate].
    - assert (g_edges (fst (update_edge_attributes pos g x y at_)) = g_edges g /\ g_nodes (fst (update_edge_attributes pos g x y at_)) = g_nodes g) as [-> ->].
      { unfold update_edge_attributes. destruct (match sget _ _ with Some _ => _ | None => _ end); [auto|]. destruct (eget _ _); auto. }
      split; [intros u v|intros n]; (split; [auto|]); intros [H|H]; auto; [discriminate|destruct H as (? & ? & H & _); discriminate].
    - split; [intros u v|intros n]; (split; [auto|]); intros [H|H]; auto; [discriminate|destruct H as (? & ? & H & _); discriminate].
  Qed.

  Lemma run_edges h : forall g, wfg g ->
    let g' := fold_left (gstep pos) h g in
    (forall u v, In (u, v) (g_edges g') <-> In (u, v) (g_edges g) \/ In (GEdge u v) h) /\
    (forall n, In n (g_nodes g') <-> In n (g_nodes g) \/ exists u v, In (GEdge u v) h /\ (n = u \/ n = v)).
  Proof using.
    induction h as [|o h IH]; intros g W; cbn [fold_left]; cbv zeta.
    - split; [intros u v|intros n]; (split; [auto|]); intros [H|H]; auto; [contradiction|destruct H as (? & ? & [] & _)].
    - destruct (IH (gstep pos g o) (step_wf pos g o W)) as [H1 H2]. cbv zeta in *. destruct (step_edges g o W) as [S1 S2]. split.
      + intros u v. rewrite H1, S1. cbn [In]. tauto.
      + intros n. rewrite H2, S2. cbn [In]. split.
        * intros [[H|(u & v & -> & H)]|(u & v & H & K)]; [now left|right; eauto|right; eauto].
        * intros [H|(u & v & [H|H] & K)]; [auto|left; right; eauto|right; eauto].
  Qed.

  Lemma graph_book h :
    let g := grun pos h in
    (forall u v, has_edge g u v = true <-> In (GEdge u v) h) /\
    (forall n, In n (g_nodes g) <-> exists u v, In (GEdge u v) h /\ (n = u \/ n = v)) /\
    NoDup (g_nodes g) /\ NoDup (g_edges g) /\
    (forall n, In n (g_nodes g) -> exists ps ss, sget n (g_pred g) = Some ps /\ sget n (g_succ g) = Some ss /\
       (forall u, In u ps <-> In (GEdge u n) h) /\ (forall u, In u ss <-> In (GEdge n u) h)).
  Proof using.
    intros g. pose proof (run_wf pos h) as W. fold g in W.
    destruct (run_edges h graph_new new_wf) as [H1 H2]. cbv zeta in *. change (fold_left (gstep pos) h graph_new) with g in *.
    assert (forall u v, In (u, v) (g_edges g) <-> In (GEdge u v) h) as H1'.
    { intros u v. rewrite H1. cbn. tauto. }
    split; [intros u v; rewrite has_edge_In; apply H1'|]. split; [intros n; rewrite H2; cbn; tauto|].
    split; [apply (wf_nodup g W)|]. split; [apply (wf_enodup g W)|].
    intros n Hn. destruct (wf_pred g W n Hn) as (ps & E1 & _ & P). destruct (wf_succ g W n Hn) as (ss & E2 & _ & S).
    exists ps, ss. split; [exact E1|]. split; [exact E2|]. split; intros u; [rewrite P|rewrite S]; apply H1'.
  Qed.

  (** [d.update(e)] *)
  Lemma supdate_get {V} (e : list (string * V)) : forall d k, NoDup (map fst e) ->
    sget k (supdate d e) = match sget k e with Some v => Some v | None => sget k d end.
  Proof using.
    unfold supdate. induction e as [|[k' v'] e IH]; intros d k Hn; [reflexivity|]. cbn [fold_left fst snd].
    inversion Hn as [|? ? N1 N2]; subst. rewrite IH by exact N2. cbn.
    destruct (String.eqb_spec k k') as [->|Ne].
    - assert (sget k' e = None) as -> by (apply (proj2 (aget_None String.eqb String.eqb_eq k' e)); exact N1). apply sget_same.
    - destruct (sget k e); [reflexivity|]. now apply sget_other.
  Qed.

  (** An attribute of an edge is changed by an accepted update of that edge
      only. *)
  Lemma attribute_step h o u v k :
    (forall x y at_, o = GEdgeAttr x y at_ -> NoDup (map fst at_)) ->
    let g := grun pos h in
    has_edge g u v = true ->
    edge_attribute (grun pos (h ++ [o])) u v k =
    match o with
    | GEdgeAttr x y at_ =>
        if edge_eqb (u, v) (x, y) && match sget "weight" at_ with Some w => pos w | None => true end
        then match sget k at_ with Some a => Ok a | None => edge_attribute g u v k end
        else edge_attribute g u v k
    | _ => edge_attribute g u v k
    end.
  Proof using.
    intros Hd g He. unfold grun. rewrite fold_left_app. cbn [fold_left]. fold (grun pos h). fold g.
    pose proof (run_wf pos h) as W. fold g in W. apply has_edge_In in He.
    destruct (proj1 (wf_eattr g W u v) He) as [d Ed].
    destruct o as [x y|x at_|x y at_|b]; cbn [gstep].
    - destruct (add_edge_spec g x y W) as (g' & E & _ & _ & _ & HA & _). rewrite E. cbn [fst].
      unfold edge_attribute. rewrite HA. destruct (edge_eqb (u, v) (x, y)) eqn:Ee; [|reflexivity].
      apply edge_eqb_spec in Ee. injection Ee as <- <-. rewrite Ed. reflexivity.
    - unfold update_node_attributes. destruct (sget x (g_nattr g)); reflexivity.
    - unfold update_edge_attributes. destruct (sget "weight" at_) as [w|] eqn:Ew; [destruct (pos w) eqn:Pw|]; cbn [negb].
      2: { rewrite andb_false_r. reflexivity. }
      all: rewrite andb_true_r; destruct (edge_eqb (u, v) (x, y)) eqn:Ee.
      1,3: apply edge_eqb_spec in Ee; injection Ee as <- <-; rewrite Ed; unfold edge_attribute; cbn [fst g_eattr];
           rewrite (aget_aset_same edge_eqb edge_eqb_spec), Ed, supdate_get by (eapply Hd; reflexivity);
           destruct (sget k at_); reflexivity.
      all: unfold edge_attribute; destruct (eget (x, y) (g_eattr g)); cbn [fst g_eattr]; [|reflexivity];
           rewrite (aget_aset_other edge_eqb edge_eqb_spec); [reflexivity|];
           intros C; apply edge_eqb_spec in C; congruence.
    - reflexivity.
  Qed.
End Book.

(** ** A graph built through the API *)
Definition keep (_ : nat) (l : list string) : list string := l.
Lemma keep_permuting : permuting keep.
Proof. intros k l. apply Permutation_refl. Qed.

Definition wt (u v : string) (w : Q) : list (gop Q) := [GEdge u v; GEdgeAttr u v [("weight", w)]].
(** s -> a -> t, s -> b -> t, a -> b, and z which cannot reach t. *)
Definition ex_h : list (gop Q) :=
  wt "s" "a" (3#1) ++ wt "a" "t" (2#1) ++ wt "s" "b" (2#1) ++ wt "b" "t" (3#1) ++ wt "a" "b" (1#1) ++ wt "t" "z" (1#1)
  ++ [GDistributed true].
Definition ex_g : graph Q := grun (Qltb 0) ex_h.

Example ex_weighted : g_dist ex_g = true /\ weights_pos ex_g.
Proof.
  split; [reflexivity|]. intros u v H. vm_compute in H.
  repeat (destruct H as [H|H]; [injection H as <- <-; eexists; split; [vm_compute; reflexivity|reflexivity]|]). contradiction.
Qed.

Example ex_widest :
  find_max_bottleneck_paths (N := GraphPaths.Qnum) keep Ok (fun x => x) ex_g "weight" "t" =
  Ok ([("s", [Some "s"; Some "b"; Some "t"]); ("a", [Some "a"; Some "t"]); ("t", [Some "t"]); ("b", [Some "b"; Some "t"]);
       ("z", [Some "z"; None])],
      [("s", Num (2#1)); ("a", Num (2#1)); ("t", Inf); ("b", Num (3#1)); ("z", Num 0)]).
Proof. vm_compute. reflexivity. Qed.

Example ex_shortest :
  find_shortest_paths (N := GraphPaths.Qnum) keep Ok (fun x => x) ex_g "weight" "t" =
  Ok ([("s", [Some "s"; Some "a"; Some "t"]); ("a", [Some "a"; Some "t"]); ("t", [Some "t"]); ("b", [Some "b"; Some "t"]);
       ("z", [Some "z"; None])],
      [("s", Some (Num (5#1))); ("a", Some (Num (2#1))); ("t", None); ("b", Some (Num (3#1))); ("z", Some Inf)]).
Proof. vm_compute. reflexivity. Qed.

Example ex_flow : exists x, get_max_flow 5 keep Ok (fun x => x) ex_g "s" "t" "weight" = Ok x /\ x == 5#1.
Proof. eexists. split; [vm_compute; reflexivity|reflexivity]. Qed.

Example ex_flow_hyp : In "s" (g_nodes ex_g) /\
  forall u v, In (u, v) (g_edges ex_g) -> exists a c, edge_attribute ex_g u v "weight" = Ok a /\ @Ok Q a = Ok c /\ 0 <= c.
Proof.
  split; [exact (proj1 (memS_In "s" (g_nodes ex_g)) eq_refl)|]. intros u v H. destruct (proj2 ex_weighted u v H) as (w & E & P).
  exists w, w. split; [exact E|]. split; [reflexivity|]. exact (Qlt_le_weak _ _ P).
Qed.

(** ** Chemistry graphs *)
Definition tab {X} (d : X) (l : list X) (i : nat) : X := nth i l d.
Definition tab2 {X} (d : X) (l : list (list X)) (i j : nat) : X := nth j (nth i l []) d.

(** A + A -> B, B + C -> A + C; wall: B returns as A; D takes part in
    nothing that runs (A + D -> B + D has rate 0). *)
Definition ex_k : cgraph :=
  MkCG ["A"; "B"; "C"; "D"] [] 3 [0; 1] 1 2
    (tab2 0 [[0; 1#2]]) (tab2 0 [[1; 2; 0]; [1; 1; 0]]) (tab2 0 [[0; -3#1]; [0; -1#1]])
    (tab2 0%Z [[2; 0; 0; 0]; [0; 1; 1; 0]; [1; 0; 0; 1]]%Z) (tab2 0%Z [[0; 1; 0; 0]; [1; 0; 1; 0]; [0; 1; 0; 1]]%Z).

Lemma tab2_Forall {X} (P : X -> Prop) d l : P d -> Forall (Forall P) l -> forall i j, P (tab2 d l i j).
Proof.
  intros Hd H i j. unfold tab2. destruct (nth_in_or_default j (nth i l []) d) as [I| ->]; [|exact Hd].
  destruct (nth_in_or_default i l []) as [K|K].
  - rewrite Forall_forall in H. specialize (H _ K). rewrite Forall_forall in H. apply H. exact I.
  - rewrite K in I. contradiction.
Qed.

Ltac nodup_names :=
  repeat constructor; cbn; let H := fresh in intros H; repeat (destruct H as [H|H]; [discriminate|]); exact H.
Ltac admissible_tac :=
  constructor; [nodup_names|
    apply (tab2_Forall (fun z => (0 <= z)%Z)); [lia|repeat constructor; lia]|
    apply (tab2_Forall (fun z => (0 <= z)%Z)); [lia|repeat constructor; lia]|
    apply (tab2_Forall (fun q => 0 <= q)); [apply Qle_refl|repeat constructor; discriminate]|
    reflexivity|reflexivity].

Example ex_k_admissible : admissible ex_k.
Proof. admissible_tac. Qed.

Definition ex_gs : list (graph Q) := match distribute_weights ex_k DRG true with Ok gs => gs | Err _ => [] end.
Example ex_gs_ok : distribute_weights ex_k DRG true = Ok ex_gs.
Proof. vm_compute. reflexivity. Qed.

Example ex_gs_edges : forall g, In g ex_gs -> g_edges g = [("B", "A"); ("C", "A"); ("A", "B"); ("C", "B")].
Proof. intros g H. vm_compute in H. repeat (destruct H as [<-|H]; [vm_compute; reflexivity|]). contradiction. Qed.

Definition ex_label (s : string) (t : Q) : string := (s ++ if Qle_bool t 0 then " (0)" else " (1)")%string.
Example ex_labels : NoDup (map (fun x => ex_label (fst x) (snd x)) (list_prod ["A"; "C"] (cg_times ex_k))).
Proof. repeat constructor; vm_compute; intros H; repeat (destruct H as [H|H]; [discriminate|]); exact H. Qed.

Example ex_ranking : exists v,
  ranking_values ex_k Qltb ex_label (scores_shortest keep) ex_gs ["A"; "C"] = Ok [("B", Some v); ("D", None)] /\
  v == 1#1.
Proof. eexists. split; [vm_compute; reflexivity|]. reflexivity. Qed.

(** ** Isolated species are ranked as the most important ones *)
Definition iso_k : cgraph :=
  MkCG ["A"; "B"; "D"] [] 1 [1] 1 1 (tab2 0 []) (tab2 0 [[1]])
    (tab2 0 [[0; 0; 0]]) (tab2 0%Z [[1; 0; 0]]%Z) (tab2 0%Z [[0; 1; 0]]%Z).
Definition iso_gs : list (graph Q) := match distribute_weights iso_k DRG true with Ok gs => gs | Err _ => [] end.

Lemma isolated_last :
  exists k gs, admissible k /\ distribute_weights k DRG true = Ok gs /\
  forall label, exists r v, ranking_values k Qltb label (scores_shortest keep) gs ["A"] = Ok r /\
    (forall j, (j < cg_reactions k)%nat -> ~ involves k j 2) /\ species_at k 2 "D" /\
    sget "B" r = Some (Some v) /\ 0 < v /\ sget "D" r = Some None /\
    score_leb Qltb ("B", Some v) ("D", None) = true /\ score_leb Qltb ("D", None) ("B", Some v) = false.
Proof.
  exists iso_k, iso_gs. split; [admissible_tac|]. split; [vm_compute; reflexivity|]. intros label.
  eexists; eexists. split; [vm_compute; reflexivity|]. split.
  { intros j Hj [H|H]; cbn in Hj; destruct j as [|j]; try lia; vm_compute in H; discriminate. }
  split; [reflexivity|]. split; [reflexivity|]. split; [reflexivity|]. split; [reflexivity|]. split; reflexivity.
Qed.

Lemma isolated_flow : exists k gs g, admissible k /\ distribute_weights k DRG true = Ok gs /\ nth_error gs 0 = Some g /\
  In "D" (assessed k ["A"]) /\ forall fuel, scores_flow keep (S fuel) (assessed k ["A"]) g "A" = Err EKey.
Proof.
  exists iso_k, iso_gs, (nth 0 iso_gs graph_new). split; [admissible_tac|]. split; [vm_compute; reflexivity|].
  split; [vm_compute; reflexivity|]. split; [exact (proj1 (memS_In "D" (assessed iso_k ["A"])) eq_refl)|].
  intros fuel. destruct fuel; vm_compute; reflexivity.
Qed.

(** ** Rows with equal labels overwrite each other *)
(** B -> A only at the first time; C -> A at both. *)
Definition two_k (t1 t2 : Q) : cgraph :=
  MkCG ["A"; "B"; "C"] [] 2 [t1; t2] 1 1 (tab2 0 []) (tab2 0 [[1; 1]; [0; 1]])
    (tab2 0 [[0; 0; 0]; [0; 0; 0]]) (tab2 0%Z [[0; 1; 0]; [0; 0; 1]]%Z) (tab2 0%Z [[1; 0; 0]; [1; 0; 0]]%Z).

Definition two_gs : list (graph Q) := match distribute_weights (two_k 0 0) DRG true with Ok gs => gs | Err _ => [] end.

(** The most important species of the first time is not ranked at all when
    the second time is printed alike. *)
Lemma equal_labels label t1 t2 : label "A" t1 = label "A" t2 ->
  exists gs r1 r v, admissible (two_k t1 t2) /\ distribute_weights (two_k t1 t2) DRG true = Ok gs /\
    scores_shortest keep (nth 0 gs graph_new) "A" = Ok r1 /\ sget "B" r1 = Some (Some v) /\ 0 < v /\
    ranking_values (two_k t1 t2) Qltb label (scores_shortest keep) gs ["A"] = Ok r /\ sget "B" r = Some None.
Proof.
  intros H. assert (admissible (two_k t1 t2)) as AD by admissible_tac.
  exists two_gs. eexists; eexists; eexists. split; [exact AD|]. split; [vm_compute; reflexivity|].
  split; [vm_compute; reflexivity|]. split; [reflexivity|]. split; [reflexivity|]. 
  unfold ranking_values. set (sc := scores_shortest keep).
  assert (exists s1 s2, two_gs = [nth 0 two_gs graph_new; nth 1 two_gs graph_new] /\
            sc (nth 0 two_gs graph_new) "A" = Ok s1 /\ sc (nth 1 two_gs graph_new) "A" = Ok s2 /\
            row_of ["B"; "C"] s2 = [("B", None); ("C", Some (inv_length (Num (1#1))))]) as (s1 & s2 & E0 & E1 & E2 & E3).
  { eexists; eexists. split; [vm_compute; reflexivity|]. split; [vm_compute; reflexivity|]. split; [vm_compute; reflexivity|].
    vm_compute; reflexivity. }
  rewrite E0. cbn [raise_if bind map list_prod combine cg_times two_k app fst snd rows nth].
  assert (assessed (two_k t1 t2) ["A"] = ["B"; "C"]) as -> by reflexivity.
  rewrite E1. cbn [bind]. rewrite E2. cbn [bind]. rewrite E3, H. cbn [sset aset]. rewrite String.eqb_refl. cbn [bind map].
  split; [reflexivity|]. vm_compute. reflexivity.
Qed.

(** ** Other weightings *)
(** A -> B at rate 2, C -> A at rate 1. *)
Definition over_k : cgraph :=
  MkCG ["A"; "B"; "C"] [] 2 [1] 1 1 (tab2 0 []) (tab2 0 [[2; 1]])
    (tab2 0 [[0; 0; 0]]) (tab2 0%Z [[1; 0; 0]; [0; 0; 1]]%Z) (tab2 0%Z [[0; 1; 0]; [1; 0; 0]]%Z).
Definition over_gs (m : weighting) : list (graph Q) :=
  match distribute_weights over_k m true with Ok gs => gs | Err _ => [] end.

Lemma over_one m : m = DRG1 \/ m = DRG2 ->
  exists k gs g w, admissible k /\ distribute_weights k m true = Ok gs /\ nth_error gs 0 = Some g /\
    edge_attribute g "B" "A" "weight" = Ok w /\ 1 < w.
Proof.
  assert (admissible over_k) as AD by admissible_tac.
  intros [-> | ->]; exists over_k; [exists (over_gs DRG1)|exists (over_gs DRG2)]; eexists; eexists;
    (split; [exact AD|]); (split; [vm_compute; reflexivity|]); (split; [vm_compute; reflexivity|]);
    (split; [vm_compute; reflexivity|]); reflexivity.
Qed.

Lemma negative_assertion {N : num} (wf : Q -> res N) x (B : Type) (inverse : ext N -> B) m :
  m = DRG1 \/ m = DRG2 -> (forall w, w == 2#1 -> wf w = Ok x) -> nltb N x (nzero N) = true ->
  find_shortest_paths keep wf inverse (nth 0 (over_gs m) graph_new) "weight" "A" = Err EAssertion.
Proof.
  intros Hm Hw Hx. destruct Hm as [-> | ->]; cbv - [nltb nzero];
    repeat lazymatch goal with |- context [wf ?w] => rewrite (Hw w eq_refl); cbv beta iota end; rewrite Hx; reflexivity.
Qed.

Lemma product_raises m : m = DRG1 \/ m = DRG2 ->
  exists k gs g, admissible k /\ distribute_weights k m true = Ok gs /\ nth_error gs 0 = Some g /\
    scores_product keep g "A" = Err EAssertion.
Proof.
  intros Hm. assert (admissible over_k) as AD by admissible_tac.
  exists over_k, (over_gs m), (nth 0 (over_gs m) graph_new). split; [exact AD|].
  split; [destruct Hm as [-> | ->]; vm_compute; reflexivity|]. split; [destruct Hm as [-> | ->]; vm_compute; reflexivity|].
  unfold scores_product. rewrite (negative_assertion (N := Rnum) log_weight (ln (1 / Q2R (2#1))) _ unlog m Hm).
  - reflexivity.
  - intros w Hw. unfold log_weight. rewrite (Qeq_eqR _ _ Hw). reflexivity.
  - cbn. apply Rltb_true. rewrite <- ln_1. replace (Q2R (2#1)) with 2%R by (unfold Q2R; cbn; Lra.lra). apply ln_increasing; Lra.lra.
Qed.

(** A -> B and B -> A at the same rate. *)
Definition even_k : cgraph :=
  MkCG ["A"; "B"] [] 2 [1] 1 1 (tab2 0 []) (tab2 0 [[1; 1]])
    (tab2 0 [[0; 0]]) (tab2 0%Z [[1; 0]; [0; 1]]%Z) (tab2 0%Z [[0; 1]; [1; 0]]%Z).
Definition even_gs : list (graph Q) := match distribute_weights even_k DRGEP true with Ok gs => gs | Err _ => [] end.

Lemma even_dropped :
  exists k gs g, admissible k /\ distribute_weights k DRGEP true = Ok gs /\ nth_error gs 0 = Some g /\
    species_at k 0 "A" /\ species_at k 1 "B" /\ linked k true 0 1 0 /\ linked k true 0 0 1 /\ g_nodes g = [] /\ g_edges g = [].
Proof.
  assert (admissible even_k) as AD by admissible_tac.
  exists even_k, even_gs, (nth 0 even_gs graph_new). split; [exact AD|]. split; [vm_compute; reflexivity|]. split; [vm_compute; reflexivity|].
  split; [reflexivity|]. split; [reflexivity|]. split; [|split; [|split; vm_compute; reflexivity]].
  - left. exists 0%nat. split; [cbn; lia|]. split; [reflexivity|]. split; [right; reflexivity|discriminate].
  - left. exists 0%nat. split; [cbn; lia|]. split; [reflexivity|]. split; [left; reflexivity|discriminate].
Qed.

(** The best possible path is reported as NaN by 'max_product'. *)
Lemma product_one_nan : exists g paths scores,
  (exists h, g = grun (Qltb 0) h) /\ walk (N := GraphPaths.Qnum) g Ok "weight" "A" "B" ["B"; "A"] [1] /\
  find_shortest_paths (N := Rnum) keep log_weight unlog g "weight" "A" = Ok (paths, scores) /\ sget "B" scores = Some None.
Proof.
  set (h := wt "B" "A" 1 ++ [GDistributed true]). set (g := grun (Qltb 0) h).
  assert (forall u v, In (u, v) (g_edges g) -> u = "B" /\ v = "A") as He.
  { intros u v [H|[]]. injection H as <- <-. auto. }
  assert (walk (N := GraphPaths.Qnum) g Ok "weight" "A" "B" ["B"; "A"] [1]) as Hw.
  { apply (walk_step (N := GraphPaths.Qnum) g Ok "weight" "A" "B" "A"); [|].
    - split; [left; reflexivity|]. exists 1. split; reflexivity.
    - constructor. }
  destruct (max_product keep g "A" (run_wf (Qltb 0) h) keep_permuting eq_refl) as (ps & sc & E & K & H).
  { intros u v Hi. destruct (He u v Hi) as [-> ->]. exists 1. split; [reflexivity|]. split; [reflexivity|discriminate]. }
  exists g, ps, sc. split; [exists h; reflexivity|]. split; [exact Hw|]. split; [exact E|].
  destruct (H "B" (proj1 (memS_In "B" (g_nodes g)) eq_refl)) as (o & Eo & Ho & _). rewrite Eo. f_equal. apply Ho.
  exists ["B"; "A"], [1]. split; [exact Hw|reflexivity].
Qed.

Example ex_book : has_edge ex_g "a" "b" = true /\ has_edge ex_g "b" "a" = false /\ g_nodes ex_g = ["s"; "a"; "t"; "b"; "z"] /\
  edge_attribute ex_g "a" "t" "weight" = Ok (2#1) /\
  edge_attribute (grun (Qltb 0) (ex_h ++ [GEdge "a" "t"])) "a" "t" "weight" = Ok (2#1) /\
  edge_attribute (grun (Qltb 0) (ex_h ++ [GEdgeAttr "a" "t" [("weight", 7#1)]])) "a" "t" "weight" = Ok (7#1) /\
  edge_attribute (grun (Qltb 0) (ex_h ++ [GEdgeAttr "a" "t" [("weight", -1#1)]])) "a" "t" "weight" = Ok (2#1).
Proof. vm_compute. auto 10. Qed.
