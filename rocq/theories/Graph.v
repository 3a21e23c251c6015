(** Model of pygmo_fwork/optichem/graph.py, class Graph.

    Sets are lists without repetitions. Python iterates over a set in an
    arbitrary order: wherever the code iterates over one and the order may
    matter, the model asks the oracle [it] for the order; the theorems hold
    for every oracle that returns a permutation of what it is given.
    Attribute values have an arbitrary type [A]; the numbers the algorithms
    calculate with are those of a [num] structure. *)
From Verif Require Import Base SortLemmas.

(** Numbers: comparison and addition. *)
Record num : Type := MkNum {
  nV :> Type;
  nltb : nV -> nV -> bool;
  nadd : nV -> nV -> nV;
  nzero : nV
}.

(** Numbers and [float('inf')]. *)
Inductive ext (V : Type) : Type := Num (v : V) | Inf.
Arguments Num {V} v.
Arguments Inf {V}.

Definition xltb {N : num} (x y : ext N) : bool :=
  match x, y with
  | Num a, Num b => nltb N a b
  | Num _, Inf => true
  | Inf, _ => false
  end.
(** Python [min(x, y)]. *)
Definition xmin {N : num} (x y : ext N) : ext N := if xltb y x then y else x.
Definition xadd {N : num} (x y : ext N) : ext N :=
  match x, y with Num a, Num b => Num (nadd N a b) | _, _ => Inf end.

Definition edge_eqb (x y : string * string) : bool :=
  String.eqb (fst x) (fst y) && String.eqb (snd x) (snd y).
Definition edge_mem (x : string * string) (l : list (string * string)) : bool := existsb (edge_eqb x) l.
Notation eget := (aget edge_eqb).
Notation eset := (aset edge_eqb).

(** ** The graph *)

Section Graph.
  Context {A : Type}.

  Record graph : Type := MkGraph {
    g_nodes : list string;
    g_nattr : list (string * list (string * A));               (* node_attributes *)
    g_edges : list (string * string);
    g_eattr : list ((string * string) * list (string * A));    (* edge_attributes *)
    g_succ : list (string * list string);                      (* successors *)
    g_pred : list (string * list string);                      (* predecessors *)
    g_dist : bool                                              (* weights_distributed *)
  }.

  (** graph.py L19-28 [__init__]. *)
  Definition graph_new : graph := MkGraph [] [] [] [] [] [] false.

  Definition add_node (g : graph) (n : string) : graph :=
    if memS n (g_nodes g) then g
    else MkGraph (g_nodes g ++ [n]) (sset n [] (g_nattr g)) (g_edges g) (g_eattr g)
                 (sset n [] (g_succ g)) (sset n [] (g_pred g)) (g_dist g).

  (** [d[k].add(x)] *)
  Definition set_add (k x : string) (d : list (string * list string)) : res (list (string * list string)) :=
    match sget k d with
    | None => Err EKey
    | Some l => Ok (if memS x l then d else sset k (l ++ [x]) d)
    end.

  (** graph.py L52-68 [add_edge]. *)
  Definition add_edge (g : graph) (u v : string) : graph * res unit :=
    let g := add_node (add_node g u) v in
    if edge_mem (u, v) (g_edges g) then (g, Ok tt)
    else match set_add u v (g_succ g) with
         | Err e => (g, Err e)
         | Ok s =>
             match set_add v u (g_pred g) with
             | Err e => (MkGraph (g_nodes g) (g_nattr g) (g_edges g) (g_eattr g) s (g_pred g) (g_dist g), Err e)
             | Ok p => (MkGraph (g_nodes g) (g_nattr g) (g_edges g ++ [(u, v)]) (eset (u, v) [] (g_eattr g))
                                s p (g_dist g), Ok tt)
             end
         end.

  (** graph.py L70-76 [has_edge]. *)
  Definition has_edge (g : graph) (u v : string) : bool := edge_mem (u, v) (g_edges g).

  (** graph.py L37-43 [update_node_attributes]. *)
  Definition update_node_attributes (g : graph) (n : string) (at_ : list (string * A)) : graph * res unit :=
    match sget n (g_nattr g) with
    | None => (g, Err EKey)
    | Some d => (MkGraph (g_nodes g) (sset n (supdate d at_) (g_nattr g)) (g_edges g) (g_eattr g)
                         (g_succ g) (g_pred g) (g_dist g), Ok tt)
    end.

  (** graph.py L85-95 [update_edge_attributes]; [pos] is the test
      [attributes['weight'] > 0]. *)
  Definition update_edge_attributes (pos : A -> bool) (g : graph) (u v : string) (at_ : list (string * A))
    : graph * res unit :=
    if match sget "weight" at_ with Some w => negb (pos w) | None => false end then (g, Err EAssertion)
    else match eget (u, v) (g_eattr g) with
         | None => (g, Err EKey)
         | Some d => (MkGraph (g_nodes g) (g_nattr g) (g_edges g) (eset (u, v) (supdate d at_) (g_eattr g))
                              (g_succ g) (g_pred g) (g_dist g), Ok tt)
         end.

  (** [graph.weights_distributed = b] (graph.py L491). *)
  Definition set_distributed (g : graph) (b : bool) : graph :=
    MkGraph (g_nodes g) (g_nattr g) (g_edges g) (g_eattr g) (g_succ g) (g_pred g) b.

  (** [self.get_edge_attributes(u, v)[k]], graph.py L97-104. *)
  Definition edge_attribute (g : graph) (u v k : string) : res A :=
    match eget (u, v) (g_eattr g) with
    | None => Err EKey
    | Some d => match sget k d with None => Err EKey | Some a => Ok a end
    end.

  (** ** Dijkstra: the two copies of the loop (graph.py L145-172, L194-221)
      differ in the comparison, the combination and the initial values. *)
  Section Search.
    Variable it : nat -> list string -> list string.
    Context {N : num}.
    Variable wf : A -> res N.                         (* weighting_func *)
    Variable better : ext N -> ext N -> bool.         (* the new value replaces the old one *)
    Variable extend : ext N -> N -> ext N.            (* value at the head, weight of the edge *)
    Variable top bot : ext N.                         (* value of the target, of all others *)

    Record dstate : Type := MkD {
      d_val : list (string * ext N);                  (* widths / lengths *)
      d_succ : list (string * option string);         (* successors *)
      d_unrelaxed : list string
    }.

    (** The loop over the predecessors (L156-164, L205-213). *)
    Fixpoint relax (g : graph) (attr node : string) (ps : list string) (s : dstate) : res dstate :=
      match ps with
      | [] => Ok s
      | p :: ps' =>
          if memS p (d_unrelaxed s)
          then let* a := edge_attribute g p node attr in
               let* w := wf a in
               let* _ := raise_if (nltb N w (nzero N)) EAssertion in
               match sget node (d_val s), sget p (d_val s) with
               | Some x, Some y =>
                   let alt := extend x w in
                   relax g attr node ps'
                     (if better alt y
                      then MkD (sset p alt (d_val s)) (sset p (Some node) (d_succ s)) (d_unrelaxed s)
                      else s)
               | _, _ => Err EKey
               end
          else relax g attr node ps' s
      end.

    (** [sorted(unrelaxed, key=...)[0]]; all nodes have a value, the default
        is never used. *)
    Definition val_of (s : dstate) (n : string) : ext N :=
      match sget n (d_val s) with Some x => x | None => bot end.
    Definition pick (k : nat) (s : dstate) : option string :=
      hd_error (isort (fun x y => negb (better (val_of s y) (val_of s x))) (it k (d_unrelaxed s))).

    (** The main loop (L152-164, L201-213): one node less in each iteration,
        so the number of nodes bounds it. *)
    Fixpoint dijkstra (k : nat) (g : graph) (attr : string) (s : dstate) : res dstate :=
      match k with
      | O => Ok s
      | S k' =>
          match pick (2 * k) s with
          | None => Ok s
          | Some n =>
              let s := MkD (d_val s) (d_succ s) (filter (fun m => negb (String.eqb m n)) (d_unrelaxed s)) in
              match sget n (g_pred g) with
              | None => Err EKey
              | Some ps => let* s' := relax g attr n (it (2 * k + 1)%nat ps) s in dijkstra k' g attr s'
              end
          end
      end.

    (** Reconstruction of a path (L170-171, L219-220); the last element is
        None when the target cannot be reached. *)
    Fixpoint follow (k : nat) (target : string) (succ : list (string * option string)) (n : string)
      : res (list (option string)) :=
      if String.eqb n target then Ok [Some n]
      else match sget n succ with
           | None => Err EKey
           | Some None => Ok [Some n; None]
           | Some (Some m) =>
               match k with
               | O => Err EFuel
               | S k' => let* p := follow k' target succ m in Ok (Some n :: p)
               end
           end.

    Definition search (g : graph) (attr target : string)
      : res (list (string * list (option string)) * list (string * ext N)) :=
      let* _ := raise_if (negb (g_dist g)) EAssertion in
      let nodes := g_nodes g in
      let* s := dijkstra (List.length nodes) g attr
                  (MkD (map (fun n => (n, if String.eqb n target then top else bot)) nodes)
                       (map (fun n => (n, None)) nodes) nodes) in
      let* ps := mapM (fun n => let* p := follow (List.length nodes) target (d_succ s) n in Ok (n, p)) nodes in
      Ok (ps, d_val s).
  End Search.

  (** graph.py L126-174 [find_max_bottleneck_paths]. *)
  Definition find_max_bottleneck_paths {N : num} {B} it (wf : A -> res N) (inverse : ext N -> B)
             (g : graph) (attr target : string)
    : res (list (string * list (option string)) * list (string * B)) :=
    let* r := search it wf (fun alt old => xltb old alt) (fun x w => xmin x (Num w)) Inf (Num (nzero N))
                     g attr target in
    Ok (fst r, map (fun kv => (fst kv, inverse (snd kv))) (snd r)).

  (** graph.py L176-223 [find_shortest_paths]; None stands for nan. *)
  Definition find_shortest_paths {N : num} {B} it (wf : A -> res N) (inverse : ext N -> B)
             (g : graph) (attr target : string)
    : res (list (string * list (option string)) * list (string * option B)) :=
    let* r := search it wf (fun alt old => xltb alt old) (fun x w => xadd x (Num w)) (Num (nzero N)) Inf
                     g attr target in
    Ok (fst r, map (fun kv => (fst kv, if xltb (Num (nzero N)) (snd kv) then Some (inverse (snd kv)) else None))
                   (snd r)).

  (** ** Maximum flow (capacities are rational numbers) *)

  Definition Qltb (x y : Q) : bool := negb (Qle_bool y x).

  (** graph.py L243-250: the matrix of capacities. *)
  Definition capacities (wf : A -> res Q) (g : graph) (attr : string) : res (list ((string * string) * Q)) :=
    mapM (fun e => let* a := edge_attribute g (fst e) (snd e) attr in
                   let* c := wf a in
                   let* _ := raise_if (Qltb c 0%Q) EAssertion in
                   Ok (e, c))
         (filter (fun e => has_edge g (fst e) (snd e)) (list_prod (g_nodes g) (g_nodes g))).

  Definition matrix : Type := string -> string -> Q.
  Definition matrix_of (l : list ((string * string) * Q)) : matrix :=
    fun u v => match eget (u, v) l with Some c => c | None => 0%Q end.
  (** [capacity.at[u, v] = x] *)
  Definition mset (c : matrix) (u v : string) (x : Q) : matrix :=
    fun a b => if edge_eqb (a, b) (u, v) then x else c a b.

  Record bstate : Type := MkB {
    b_queue : list string;
    b_visited : list string;
    b_pred : list (string * string);
    b_found : bool
  }.

  (** graph.py L263-271: the neighbours of one node. *)
  Fixpoint scan (c : matrix) (t u : string) (vs : list string) (b : bstate) : bstate :=
    match vs with
    | [] => b
    | v :: vs' =>
        if negb (memS v (b_visited b)) && Qltb 0%Q (c u v)
        then let b1 := MkB (b_queue b ++ [v]) (b_visited b ++ [v]) (sset v u (b_pred b)) (b_found b) in
             if String.eqb v t then MkB (b_queue b1) (b_visited b1) (b_pred b1) true
             else scan c t u vs' b1
        else scan c t u vs' b
    end.

  (** graph.py L256-271: breadth first search; [capacity.loc[u]] raises
      KeyError when [u] is not a node. *)
  Fixpoint bfs (k : nat) (nodes : list string) (c : matrix) (t : string) (b : bstate) : res bstate :=
    match b_queue b with
    | [] => Ok b
    | u :: q =>
        if b_found b then Ok b
        else match k with
             | O => Err EFuel
             | S k' =>
                 if memS u nodes
                 then bfs k' nodes c t (scan c t u nodes (MkB q (b_visited b) (b_pred b) (b_found b)))
                 else Err EKey
             end
    end.

  (** graph.py L276-280, L286-291: the edges of the path, from the target
      back to the source. *)
  Fixpoint trace (k : nat) (pred : list (string * string)) (s n : string) : res (list (string * string)) :=
    if String.eqb n s then Ok []
    else match sget n pred with
         | None => Err EKey
         | Some u => match k with
                     | O => Err EFuel
                     | S k' => let* es := trace k' pred s u in Ok ((u, n) :: es)
                     end
         end.

  (** L279: [min] over the path, starting from infinity (None). *)
  Fixpoint bottleneck (c : matrix) (es : list (string * string)) (x : option Q) : option Q :=
    match es with
    | [] => x
    | (u, v) :: es' =>
        bottleneck c es' (Some (match x with
                                | None => c u v
                                | Some y => if Qltb (c u v) y then c u v else y
                                end))
    end.

  (** L289-290 *)
  Fixpoint push (c : matrix) (f : Q) (es : list (string * string)) : matrix :=
    match es with
    | [] => c
    | (u, v) :: es' =>
        let c1 := mset c u v (c u v - f)%Q in
        push (mset c1 v u (c1 v u + f)%Q) f es'
    end.

  (** graph.py L253-293: the main loop. The path found is never empty, so
      its bottleneck is never infinite; [EFuel] means that the loop needs
      more iterations. *)
  Fixpoint augment (k : nat) (nodes : list string) (s t : string) (c : matrix) (flow : Q) : res Q :=
    let n := List.length nodes in
    let* b := bfs (S n) nodes c t (MkB [s] [s] [] false) in
    if b_found b
    then let* es := trace n (b_pred b) s t in
         match bottleneck c es None with
         | None => Err EFuel
         | Some f => match k with
                     | O => Err EFuel
                     | S k' => augment k' nodes s t (push c f es) (flow + f)%Q
                     end
         end
    else Ok flow.

  (** graph.py L225-294 [get_max_flow]; the iteration order of the set of
      nodes is the order of rows and columns of the matrix. *)
  Definition get_max_flow {B} (k : nat) (it : nat -> list string -> list string) (wf : A -> res Q)
             (inverse : Q -> B) (g : graph) (s t attr : string) : res B :=
    let* _ := raise_if (negb (g_dist g)) EAssertion in
    let* l := capacities wf g attr in
    let* f := augment k (it 0%nat (g_nodes g)) s t (matrix_of l) 0%Q in
    Ok (inverse f).
End Graph.
Arguments graph A : clear implicits.
