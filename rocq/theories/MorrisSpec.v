(** Vocabulary of the Morris properties. *)
From Coq Require Import Qround Qabs.
From Verif Require Import Base Species Reactions Chemistry ChemSpec Morris.
Open Scope Q_scope.

(** The centre of cell number [k] when the unit interval is cut into
    [density] equal cells. *)
Definition centre (density k : Z) : Q := inject_Z (2 * k + 1) / inject_Z (2 * density).

Definition on_grid (m : morris) (q : Q) : Prop :=
  exists k : Z, (0 <= k < mm_density m)%Z /\ q == centre (mm_density m) k.

(** [x'] is [x] with coordinate [i] changed by [d], and nothing else. *)
Definition moved (i : nat) (d : Q) (x x' : list Q) : Prop :=
  List.length x' = List.length x /\
  (forall j, j <> i -> nth_error x' j = nth_error x j) /\
  exists a b, nth_error x i = Some a /\ nth_error x' i = Some b /\ b == a + d.

(** A sequence of points, each reached from the one before by changing one
    coordinate by [step] up or down, all of them on the grid. *)
Fixpoint design (m : morris) (step : Q) (x : list Q) (l : list (nat * Q * list Q)) : Prop :=
  match l with
  | [] => True
  | (i, d, x') :: l' =>
      moved i d x x' /\ (d == step \/ d == - step) /\ Forall (on_grid m) x' /\ design m step x' l'
  end.

(** The first coordinates of the triples a generator yields. *)
Definition changed (l : list (nat * Q * list Q)) : list nat := map (fun t => fst (fst t)) l.

(** All points of a trajectory, the start included. *)
Definition points (x0 : list Q) (l : list (nat * Q * list Q)) : list (list Q) := x0 :: map snd l.

(** ** Factors *)

(** [w] is the product of [2 x] over the factors [(s, x)] of the species that
    take part in reaction [r]. *)
Inductive weight (r : rx) : list (sp * Q) -> Q -> Prop :=
| weight_nil : weight r [] 1
| weight_in s x l w : takes_part s r -> weight r l w -> weight r ((s, x) :: l) (2 * x * w)
| weight_out s x l w : ~ takes_part s r -> weight r l w -> weight r ((s, x) :: l) w.

(** Factor of reaction number [j] of [rs] in an evaluation with the factor
    vector [x]: [2 x_j] when the factors belong to the reactions, the product
    over the species taking part when they belong to the species. *)
Definition factor (ty : traj_type) (c : chem) (x : list Q) (j : nat) (r : rx) (w : Q) : Prop :=
  match ty with
  | TReactions => exists xj, nth_error x j = Some xj /\ w = 2 * xj
  | TSpecies => weight r (combine (get_species c false false true) x) w
  end.

(** Number of factors of a trajectory. *)
Definition num_factors (ty : traj_type) (c : chem) : nat :=
  match ty with
  | TReactions => List.length (get_reactions c false)
  | TSpecies => List.length (get_species c false false true)
  end.

(** ** Return coefficients *)

(** What is assumed of the float power [r ** y] for [r > 1]. *)
Record power_like (pw : Q -> Q -> Q) : Prop := {
  pw_compat : forall r y y', y == y' -> pw r y == pw r y';
  pw_zero : forall r, 1 < r -> pw r 0 == 1;
  pw_one : forall r, 1 < r -> pw r 1 == r;
  pw_inv : forall r, 1 < r -> pw r (-(1)) == / r;
  pw_mono : forall r y y', 1 < r -> y <= y' -> pw r y <= pw r y'
}.

(** The coefficients of a dictionary, all of them finite. *)
Definition finite_dict (d : list (string * flt)) (q : list (string * Q)) : Prop :=
  d = map (fun nq => (fst nq, Fin (snd nq))) q.

Definition total (q : list (string * Q)) : Q := fold_right (fun nq a => snd nq + a) 0 q.

(** One call of the mapping: factor value, stuck and returned species,
    nominal coefficient, range. *)
Record ret_call : Type := MkCall { rc_x : Q; rc_stuck : ref; rc_ret : ref; rc_nominal : Q; rc_range : Q }.

(** Calls in sequence, all of which succeed. *)
Fixpoint ret_calls (pw : Q -> Q -> Q) (E : env) (c : chem) (l : list ret_call) (c' : chem) : Prop :=
  match l with
  | [] => c' = c
  | k :: l' => exists c1 out,
      map_ret_coef pw E c (rc_x k) (rc_stuck k) (rc_ret k) (Fin (rc_nominal k)) (rc_range k) = (c1, Ok out) /\
      ret_calls pw E c1 l' c'
  end.

(** The last call that targets the coefficient of [t] returned per stuck [s]. *)
Definition targets (c : chem) (s t : sp) (k : ret_call) : Prop := denotes c (rc_stuck k) s /\ denotes c (rc_ret k) t.

Inductive last_target (c : chem) (s t : sp) : list ret_call -> option ret_call -> Prop :=
| last_none l : (forall k, In k l -> ~ targets c s t k) -> last_target c s t l None
| last_some l k m : targets c s t k -> (forall k', In k' m -> ~ targets c s t k') ->
    last_target c s t (l ++ k :: m) (Some k).
