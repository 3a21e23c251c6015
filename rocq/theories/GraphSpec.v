(** Specification vocabulary for the graph algorithms: graphs as built
    through the API, walks and their values, flows and cuts. *)
From Coq Require Import Permutation.
From Verif Require Import Base Graph.

(** ** Laws of the numbers used *)
Record num_ok (N : num) : Prop := MkNumOk {
  lt_asym : forall a b : N, nltb N a b = true -> nltb N b a = false;
  lt_negtrans : forall a b c : N, nltb N a b = false -> nltb N b c = false -> nltb N a c = false;
  add_mono : forall a b w : N, nltb N b a = false -> nltb N (nadd N b w) (nadd N a w) = false;
  add_nonneg : forall a w : N, nltb N w (nzero N) = false -> nltb N (nadd N a w) a = false
}.

Definition permuting (it : nat -> list string -> list string) : Prop :=
  forall k l, Permutation (it k l) l.

(** ** Histories of a graph *)
Inductive gop (A : Type) :=
| GEdge (u v : string)                                  (* add_edge *)
| GNodeAttr (n : string) (at_ : list (string * A))      (* update_node_attributes *)
| GEdgeAttr (u v : string) (at_ : list (string * A))    (* update_edge_attributes *)
| GDistributed (b : bool).                              (* weights_distributed = b *)
Arguments GEdge {A}. Arguments GNodeAttr {A}. Arguments GEdgeAttr {A}. Arguments GDistributed {A}.

Definition gstep {A} (pos : A -> bool) (g : graph A) (o : gop A) : graph A :=
  match o with
  | GEdge u v => fst (add_edge g u v)
  | GNodeAttr n at_ => fst (update_node_attributes g n at_)
  | GEdgeAttr u v at_ => fst (update_edge_attributes pos g u v at_)
  | GDistributed b => set_distributed g b
  end.
(** Exceptions are caught by the caller, who goes on with the graph as it is. *)
Definition grun {A} (pos : A -> bool) (h : list (gop A)) : graph A := fold_left (gstep pos) h graph_new.

Section Walks.
  Context {A : Type} {N : num}.
  Variables (g : graph A) (wf : A -> res N) (attr : string).

  (** The edge [(u, v)] has weight [w]. *)
  Definition arc (u v : string) (w : N) : Prop :=
    In (u, v) (g_edges g) /\ exists a, edge_attribute g u v attr = Ok a /\ wf a = Ok w.

  (** Every edge has a weight, none is negative. *)
  Definition weighted : Prop :=
    forall u v, In (u, v) (g_edges g) -> exists w, arc u v w /\ nltb N w (nzero N) = false.

  (** Walks from [u] to the target: nodes and weights of the edges. *)
  Inductive walk (target : string) : string -> list string -> list N -> Prop :=
  | walk_end : walk target target [target] []
  | walk_step u v w p ws : arc u v w -> walk target v p ws -> walk target u (u :: p) (w :: ws).
End Walks.

(** Width of a walk: the smallest weight; length: the sum of the weights. *)
Definition width {N : num} (ws : list N) : ext N := fold_right (fun w x => xmin x (Num w)) Inf ws.
Definition total {N : num} (ws : list N) : ext N := fold_right (fun w x => xadd x (Num w)) (Num (nzero N)) ws.

(** [x <= y] *)
Definition xle {N : num} (x y : ext N) : Prop := xltb y x = false.

(** ** Flows and cuts, for rational capacities *)

Definition qsum {X} (f : X -> Q) (l : list X) : Q := fold_right (fun x a => (f x + a)%Q) 0%Q l.

(** A feasible flow of value [x] from [s] to [t]. *)
Definition feasible (nodes : list string) (cap : string -> string -> Q) (s t : string)
           (f : string -> string -> Q) (x : Q) : Prop :=
  (forall u v, In u nodes -> In v nodes -> (0 <= f u v /\ f u v <= cap u v)%Q) /\
  (forall n, In n nodes -> n <> s -> n <> t ->
             (qsum (fun u => f u n) nodes == qsum (fun v => f n v) nodes)%Q) /\
  (qsum (fun v => f s v) nodes - qsum (fun u => f u s) nodes == x)%Q.

(** Capacity of the cut between [S] and the other nodes. *)
Definition cut_capacity (nodes : list string) (cap : string -> string -> Q) (S : string -> bool) : Q :=
  qsum (fun u => qsum (fun v => if S u && negb (S v) then cap u v else 0%Q) nodes) nodes.

(** Capacity of the pair [(u, v)]: the weight of the edge, 0 without edge. *)
Definition capacity_of {A} (g : graph A) (wf : A -> res Q) (attr : string) (cap : string -> string -> Q) : Prop :=
  forall u v, (In (u, v) (g_edges g) -> exists a c, edge_attribute g u v attr = Ok a /\ wf a = Ok c /\ (cap u v == c)%Q) /\
              (~ In (u, v) (g_edges g) -> (cap u v == 0)%Q).
