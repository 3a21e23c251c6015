(** Property theorems about the graph algorithms and the species ranking
    (C45 - C48, C59 - C62). Vocabulary: GraphSpec.v and ChemGraphSpec.v. *)
From Coq Require Import Permutation Sorted Qabs Qreals Reals.
From Verif Require Import Base BaseLemmas SortLemmas Graph GraphSpec GraphProofs GraphPaths GraphFlow ChemGraph ChemGraphSpec
  ChemGraphProofs ChemRanking GraphExamples GraphMore.
Local Open Scope Q_scope.

(** C45: [find_max_bottleneck_paths], for every history of calls on the
    graph, every iteration order of Python's sets and every transformation
    of the weights. *)
Theorem C45_widest_paths {A} {N : num} {B} (OK : num_ok N) it pos (h : list (gop A)) wf attr target (inverse : ext N -> B) :
  let g := grun pos h in
  permuting it -> g_dist g = true -> weighted g wf attr ->
  exists paths widths, find_max_bottleneck_paths it wf inverse g attr target = Ok (paths, widths) /\
    akeys paths = g_nodes g /\ akeys widths = g_nodes g /\
    forall n, In n (g_nodes g) ->
      exists p x, sget n paths = Some p /\ sget n widths = Some (inverse x) /\
        (forall q ws, walk g wf attr target n q ws -> xle (width ws) x) /\
        ((n <> target /\ x = Num (nzero N) /\ p = [Some n; None]) \/
         (exists q ws, p = map Some q /\ walk g wf attr target n q ws /\ x = width ws /\ NoDup q)).
Proof. exact (widest_history OK it pos h wf attr target inverse). Qed.

Theorem C45_unreachable {A} {N : num} {B} (OK : num_ok N) it pos (h : list (gop A)) wf attr target (inverse : ext N -> B) :
  let g := grun pos h in
  permuting it -> g_dist g = true -> weighted g wf attr ->
  (forall u v w, arc g wf attr u v w -> nltb N (nzero N) w = true) ->
  exists paths widths, find_max_bottleneck_paths it wf inverse g attr target = Ok (paths, widths) /\
    forall n, In n (g_nodes g) ->
      (sget n paths = Some [Some n; None] <-> forall q ws, ~ walk g wf attr target n q ws) /\
      ((forall q ws, ~ walk g wf attr target n q ws) -> sget n widths = Some (inverse (Num (nzero N)))).
Proof. exact (widest_unreachable OK it pos h wf attr target inverse). Qed.

Theorem C45_numbers : num_ok GraphPaths.Qnum /\ num_ok Rnum.
Proof. exact (conj Qnum_ok Rnum_ok). Qed.

Example C45_not_vacuous :
  permuting keep /\ g_dist (grun (Qltb 0) ex_h) = true /\ weights_pos (grun (Qltb 0) ex_h) /\
  find_max_bottleneck_paths (N := GraphPaths.Qnum) keep Ok (fun x => x) (grun (Qltb 0) ex_h) "weight" "t" =
  Ok ([("s", [Some "s"; Some "b"; Some "t"]); ("a", [Some "a"; Some "t"]); ("t", [Some "t"]); ("b", [Some "b"; Some "t"]);
       ("z", [Some "z"; None])],
      [("s", Num (2#1)); ("a", Num (2#1)); ("t", Inf); ("b", Num (3#1)); ("z", Num 0)]).
Proof. exact (conj keep_permuting (conj (proj1 ex_weighted) (conj (proj2 ex_weighted) ex_widest))). Qed.

(** C46: [find_shortest_paths]; a length that is not above zero is reported
    as NaN (None). *)
Theorem C46_shortest_paths {A} {N : num} {B} (OK : num_ok N) it pos (h : list (gop A)) wf attr target (inverse : ext N -> B) :
  let g := grun pos h in
  permuting it -> g_dist g = true -> weighted g wf attr ->
  exists paths lengths, find_shortest_paths it wf inverse g attr target = Ok (paths, lengths) /\
    akeys paths = g_nodes g /\ akeys lengths = g_nodes g /\
    forall n, In n (g_nodes g) ->
      exists p x, sget n paths = Some p /\
        sget n lengths = Some (if xltb (Num (nzero N)) x then Some (inverse x) else None) /\
        (forall q ws, walk g wf attr target n q ws -> xle x (total ws)) /\
        ((n <> target /\ x = Inf /\ p = [Some n; None] /\ forall q ws, ~ walk g wf attr target n q ws) \/
         (exists q ws, p = map Some q /\ walk g wf attr target n q ws /\ x = total ws /\ NoDup q)).
Proof. exact (shortest_history OK it pos h wf attr target inverse). Qed.

(** Search method 'max_product': lengths are logarithms of inverse weights. *)
Theorem C46_max_product it (h : list (gop Q)) target :
  let g := grun (Qltb 0) h in
  permuting it -> g_dist g = true ->
  (forall u v, In (u, v) (g_edges g) -> exists w, edge_attribute g u v "weight" = Ok w /\ 0 < w /\ w <= 1) ->
  exists paths scores, find_shortest_paths (N := Rnum) it log_weight unlog g "weight" target = Ok (paths, scores) /\
    akeys scores = g_nodes g /\
    forall n, In n (g_nodes g) ->
      exists o, sget n scores = Some o /\
        (o = None <-> exists q ws, walk (N := GraphPaths.Qnum) g Ok "weight" target n q ws /\ qproduct ws == 1) /\
        (forall x, o = Some x ->
           (forall q ws, walk (N := GraphPaths.Qnum) g Ok "weight" target n q ws -> (Q2R (qproduct ws) <= x)%R) /\
           ((exists q ws, walk (N := GraphPaths.Qnum) g Ok "weight" target n q ws /\ x = Q2R (qproduct ws)) \/
            (x = 0%R /\ forall q ws, ~ walk (N := GraphPaths.Qnum) g Ok "weight" target n q ws))).
Proof. exact (fun Hi Hd H => max_product it (grun (Qltb 0) h) target (run_wf (Qltb 0) h) Hi Hd H). Qed.

Example C46_not_vacuous :
  find_shortest_paths (N := GraphPaths.Qnum) keep Ok (fun x => x) (grun (Qltb 0) ex_h) "weight" "t" =
  Ok ([("s", [Some "s"; Some "a"; Some "t"]); ("a", [Some "a"; Some "t"]); ("t", [Some "t"]); ("b", [Some "b"; Some "t"]);
       ("z", [Some "z"; None])],
      [("s", Some (Num (5#1))); ("a", Some (Num (2#1))); ("t", None); ("b", Some (Num (3#1))); ("z", Some Inf)]).
Proof. exact ex_shortest. Qed.

(** C47: [get_max_flow] terminates (after [k] augmenting paths) with the
    value of a feasible flow that equals the capacity of a cut. *)
Theorem C47_max_flow {A B} it pos (h : list (gop A)) wf (inverse : Q -> B) s t attr :
  let g := grun pos h in
  permuting it -> g_dist g = true -> In s (g_nodes g) -> s <> t ->
  (forall u v, In (u, v) (g_edges g) -> exists a c, edge_attribute g u v attr = Ok a /\ wf a = Ok c /\ 0 <= c) ->
  exists k x cap f S,
    (forall j, (k <= j)%nat -> get_max_flow j it wf inverse g s t attr = Ok (inverse x)) /\
    capacity_of g wf attr cap /\
    feasible (g_nodes g) cap s t f x /\
    S s = true /\ S t = false /\ x == cut_capacity (g_nodes g) cap S.
Proof. exact (max_flow it (grun pos h) wf inverse s t attr (run_wf pos h)). Qed.

Theorem C47_no_larger_flow nodes cap s t f x f' x' S :
  NoDup nodes -> In s nodes -> feasible nodes cap s t f x -> S s = true -> S t = false -> x == cut_capacity nodes cap S ->
  feasible nodes cap s t f' x' -> x' <= x.
Proof. exact (max_flow_largest nodes cap s t f x f' x' S). Qed.

Example C47_not_vacuous :
  (In "s" (g_nodes (grun (Qltb 0) ex_h)) /\
   forall u v, In (u, v) (g_edges (grun (Qltb 0) ex_h)) ->
     exists a c, edge_attribute (grun (Qltb 0) ex_h) u v "weight" = Ok a /\ @Ok Q a = Ok c /\ 0 <= c) /\
  exists x, get_max_flow 5 keep Ok (fun x => x) (grun (Qltb 0) ex_h) "s" "t" "weight" = Ok x /\ x == 5#1.
Proof. exact (conj ex_flow_hyp ex_flow). Qed.

(** C48: the weights of the schemes DRG and DRGEP. *)
Theorem C48_normalised k m surface :
  admissible k -> m = DRG \/ m = DRGEP ->
  exists gs, distribute_weights k m surface = Ok gs /\ List.length gs = List.length (cg_times k) /\
    forall t g, nth_error gs t = Some g ->
      g_dist g = true /\
      forall x y, In (x, y) (g_edges g) ->
        In x (cg_species k) /\ In y (cg_species k) /\ x <> y /\
        exists w, edge_attribute g x y "weight" = Ok w /\ 0 < w /\ w <= 1.
Proof. exact (fun AD => normalised_graphs k AD m surface). Qed.

(** The edges of the scheme DRG, and the values of their weights. *)
Theorem C48_drg_edges k surface :
  admissible k ->
  exists gs, distribute_weights k DRG surface = Ok gs /\ List.length gs = List.length (cg_times k) /\
    forall t g, nth_error gs t = Some g ->
      (forall x y, In (x, y) (g_edges g) <-> x <> y /\ exists a b, species_at k a y /\ species_at k b x /\ linked k surface t b a) /\
      (forall x y a b w, species_at k a y -> species_at k b x -> edge_attribute g x y "weight" = Ok w ->
         In (x, y) (g_edges g) ->
         w * (turnover k t a (seq 0 (cg_reactions k)) +
              qsum (fun c => if surface then Qabs (wall_rate k t c a) else 0) (seq 0 (List.length (cg_species k)))) ==
         turnover k t a (filter (fun j => involvesb k j b) (seq 0 (cg_reactions k))) +
         (if surface then Qabs (wall_rate k t b a) else 0)).
Proof. exact (fun AD => drg_graphs k AD surface). Qed.

Example C48_not_vacuous :
  admissible ex_k /\ distribute_weights ex_k DRG true = Ok ex_gs /\
  forall g, In g ex_gs -> g_edges g = [("B", "A"); ("C", "A"); ("A", "B"); ("C", "B")].
Proof. exact (conj ex_k_admissible (conj ex_gs_ok ex_gs_edges)). Qed.

(** C59: bookkeeping of the graph, for every history of calls. *)
Theorem C59_edges_and_nodes {A} (pos : A -> bool) h :
  let g := grun pos h in
  (forall u v, has_edge g u v = true <-> In (GEdge u v) h) /\
  (forall n, In n (g_nodes g) <-> exists u v, In (GEdge u v) h /\ (n = u \/ n = v)) /\
  NoDup (g_nodes g) /\ NoDup (g_edges g) /\
  (forall n, In n (g_nodes g) -> exists ps ss, sget n (g_pred g) = Some ps /\ sget n (g_succ g) = Some ss /\
     (forall u, In u ps <-> In (GEdge u n) h) /\ (forall u, In u ss <-> In (GEdge n u) h)).
Proof. exact (graph_book pos h). Qed.

Theorem C59_attributes {A} (pos : A -> bool) h o u v k :
  (forall x y at_, o = GEdgeAttr x y at_ -> NoDup (map fst at_)) ->
  let g := grun pos h in
  has_edge g u v = true ->
  edge_attribute (grun pos (h ++ [o])) u v k =
  match o with
  | GEdgeAttr x y at_ =>
      if edge_eqb (u, v) (x, y) && match sget "weight" at_ with Some w => pos w | None => true end
      then match sget k at_ with Some a => Ok a | None => edge_attribute g u v k end
      else edge_attribute g u v k
  | _ => edge_attribute g u v k
  end.
Proof. exact (attribute_step pos h o u v k). Qed.

Theorem C59_node_attributes {A} (pos : A -> bool) h o n k :
  (forall x at_, o = GNodeAttr x at_ -> NoDup (map fst at_)) ->
  let g := grun pos h in
  In n (g_nodes g) ->
  node_attribute (grun pos (h ++ [o])) n k =
  match o with
  | GNodeAttr x at_ =>
      if String.eqb n x then match sget k at_ with Some a => Some a | None => node_attribute g n k end
      else node_attribute g n k
  | _ => node_attribute g n k
  end.
Proof. exact (node_step pos h o n k). Qed.

Example C59_not_vacuous :
  has_edge ex_g "a" "b" = true /\ has_edge ex_g "b" "a" = false /\ g_nodes ex_g = ["s"; "a"; "t"; "b"; "z"] /\
  edge_attribute ex_g "a" "t" "weight" = Ok (2#1) /\
  edge_attribute (grun (Qltb 0) (ex_h ++ [GEdge "a" "t"])) "a" "t" "weight" = Ok (2#1) /\
  edge_attribute (grun (Qltb 0) (ex_h ++ [GEdgeAttr "a" "t" [("weight", 7#1)]])) "a" "t" "weight" = Ok (7#1) /\
  edge_attribute (grun (Qltb 0) (ex_h ++ [GEdgeAttr "a" "t" [("weight", -1#1)]])) "a" "t" "weight" = Ok (2#1).
Proof. exact ex_book. Qed.

(** C60: the default search method ranks by the best path. *)
Theorem C60_ranking k label it m surface gs important :
  admissible k -> permuting it -> distribute_weights k m surface = Ok gs -> cg_times k <> [] ->
  NoDup (map (fun x => label (fst x) (snd x)) (list_prod important (cg_times k))) ->
  exists r, ranking_values k Qltb label (scores_shortest it) gs important = Ok r /\
    map fst r = assessed k important /\
    forall s, In s (cg_species k) -> ~ In s important -> ~ In s (cg_special k) -> exists o, sget s r = Some o /\
      (o = None <-> important = [] \/ forall t g, nth_error gs t = Some g -> ~ connected g s) /\
      (forall v, o = Some v ->
         (forall imp t g q ws, In imp important -> nth_error gs t = Some g ->
            walk (N := GraphPaths.Qnum) g Ok "weight" imp s q ws -> conductance ws <= v) /\
         ((exists imp t g q ws, In imp important /\ nth_error gs t = Some g /\
             walk (N := GraphPaths.Qnum) g Ok "weight" imp s q ws /\ v == conductance ws) \/
          (v == 0 /\ forall imp t g q ws, In imp important -> nth_error gs t = Some g ->
             ~ walk (N := GraphPaths.Qnum) g Ok "weight" imp s q ws))).
Proof. exact (fun AD Hit Hgs Hne Hl => rank_shortest k AD label it Hit m surface gs important Hgs Hne Hl). Qed.

(** A ranking sorted by score is ascending, species without a score come
    last. *)
Theorem C60_ascending (l a b d : list (string * option Q)) x y v :
  LocallySorted (fun p q => score_leb Qltb p q = true) l -> l = a ++ x :: b ++ y :: d -> snd y = Some v ->
  exists w, snd x = Some w /\ w <= v.
Proof. exact (ascending l a b d x y v). Qed.

Theorem C60_needs_weights {V} k (vltb : V -> V -> bool) label scores important :
  ranking_values k vltb label scores [] important = Err EValue.
Proof. exact (needs_weights k vltb label scores important). Qed.

Example C60_not_vacuous :
  NoDup (map (fun x => ex_label (fst x) (snd x)) (list_prod ["A"; "C"] (cg_times ex_k))) /\
  exists v, ranking_values ex_k Qltb ex_label (scores_shortest keep) ex_gs ["A"; "C"] = Ok [("B", Some v); ("D", None)] /\
    v == 1#1.
Proof. exact (conj ex_labels ex_ranking). Qed.

(** C61 *)
Theorem C61_isolated_last_refuted :
  exists k gs, admissible k /\ distribute_weights k DRG true = Ok gs /\
  forall label, exists r v, ranking_values k Qltb label (scores_shortest keep) gs ["A"] = Ok r /\
    (forall j, (j < cg_reactions k)%nat -> ~ involves k j 2) /\ species_at k 2 "D" /\
    sget "B" r = Some (Some v) /\ 0 < v /\ sget "D" r = Some None /\
    score_leb Qltb ("B", Some v) ("D", None) = true /\ score_leb Qltb ("D", None) ("B", Some v) = false.
Proof. exact isolated_last. Qed.

Theorem C61_isolated_flow_refuted :
  exists k gs g, admissible k /\ distribute_weights k DRG true = Ok gs /\ nth_error gs 0 = Some g /\
  In "D" (assessed k ["A"]) /\ forall fuel, scores_flow keep (S fuel) (assessed k ["A"]) g "A" = Err EKey.
Proof. exact isolated_flow. Qed.

Theorem C61_equal_labels_refuted label t1 t2 : label "A" t1 = label "A" t2 ->
  exists gs r1 r v, admissible (two_k t1 t2) /\ distribute_weights (two_k t1 t2) DRG true = Ok gs /\
    scores_shortest keep (nth 0 gs graph_new) "A" = Ok r1 /\ sget "B" r1 = Some (Some v) /\ 0 < v /\
    ranking_values (two_k t1 t2) Qltb label (scores_shortest keep) gs ["A"] = Ok r /\ sget "B" r = Some None.
Proof. exact (equal_labels label t1 t2). Qed.

Theorem C61_best_product_refuted : exists g paths scores,
  (exists h, g = grun (Qltb 0) h) /\ walk (N := GraphPaths.Qnum) g Ok "weight" "A" "B" ["B"; "A"] [1] /\
  find_shortest_paths (N := Rnum) keep log_weight unlog g "weight" "A" = Ok (paths, scores) /\ sget "B" scores = Some None.
Proof. exact product_one_nan. Qed.

(** C62 *)
Theorem C62_weights_refuted m : m = DRG1 \/ m = DRG2 ->
  exists k gs g w, admissible k /\ distribute_weights k m true = Ok gs /\ nth_error gs 0 = Some g /\
    edge_attribute g "B" "A" "weight" = Ok w /\ 1 < w.
Proof. exact (over_one m). Qed.

Theorem C62_product_raises_refuted m : m = DRG1 \/ m = DRG2 ->
  exists k gs g, admissible k /\ distribute_weights k m true = Ok gs /\ nth_error gs 0 = Some g /\
    scores_product keep g "A" = Err EAssertion.
Proof. exact (product_raises m). Qed.

Theorem C62_balanced_dropped_refuted :
  exists k gs g, admissible k /\ distribute_weights k DRGEP true = Ok gs /\ nth_error gs 0 = Some g /\
    species_at k 0 "A" /\ species_at k 1 "B" /\ linked k true 0 1 0 /\ linked k true 0 0 1 /\ g_nodes g = [] /\ g_edges g = [].
Proof. exact even_dropped. Qed.

(** All theorems of this file at once (one traversal instead of one per
    theorem). *)
Definition all_theorems := (
  @C45_widest_paths,
  @C45_unreachable,
  @C45_numbers,
  @C46_shortest_paths,
  @C46_max_product,
  @C47_max_flow,
  @C47_no_larger_flow,
  @C48_normalised,
  @C48_drg_edges,
  @C59_edges_and_nodes,
  @C59_attributes,
  @C59_node_attributes,
  @C60_ranking,
  @C60_ascending,
  @C60_needs_weights,
  @C61_isolated_last_refuted,
  @C61_isolated_flow_refuted,
  @C61_equal_labels_refuted,
  @C61_best_product_refuted,
  @C62_weights_refuted,
  @C62_product_raises_refuted,
  @C62_balanced_dropped_refuted).
Print Assumptions all_theorems.
