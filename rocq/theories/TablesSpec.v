(** What the user is told about logged solutions; no reference to the loops
    of the code. *)
From Coq Require Import Qabs Reals Qreals Sorted.
From Verif Require Import Base Tables.
Open Scope Q_scope.

Definition time (r : Z * row) : Q := snd r "t"%string.
Definition at_col (r : Z * row) (c : string) : Q := snd r c.

Definition ascending (tb : table) : Prop := StronglySorted (fun a b => time a <= time b) (tb_rows tb).
Definition strictly_ascending (tb : table) : Prop := StronglySorted (fun a b => time a < time b) (tb_rows tb).

(** [t] lies in the logged time range. *)
Definition covered (tb : table) (t : Q) : Prop :=
  exists a l b, tb_rows tb = a :: l /\ (exists pre, tb_rows tb = pre ++ [b]) /\ time a <= t <= time b.

(** [v] is column [c] at time [t]: on the straight line between two
    neighbouring logged rows, or the last row. *)
Definition sampled (tb : table) (c : string) (t v : Q) : Prop :=
  (exists pre a b post, tb_rows tb = pre ++ a :: b :: post /\ time a <= t < time b /\
     v == at_col a c + (at_col b c - at_col a c) * ((t - time a) / (time b - time a)))
  \/ (exists pre a, tb_rows tb = pre ++ [a] /\ time a <= t /\ v == at_col a c).

(** ** compress_solution *)

(** Rows numbered 0, 1, 2, ... *)
Definition default_index (tb : table) : Prop :=
  map fst (tb_rows tb) = map Z.of_nat (seq 0 (List.length (tb_rows tb))).

Definition non_negative (tb : table) : Prop :=
  forall r c, In r (tb_rows tb) -> In c (tb_cols tb) -> 0 <= at_col r c.

(** [r] adds nothing to [front]: too early after it, or all columns are
    within the relative threshold (a column that is zero never is). *)
Definition redundant (cols : list string) (threshold step : Q) (front r : Z * row) : Prop :=
  Qabs (time r - time front) < step \/
  forall c, In c cols -> c <> "t"%string -> 0 < at_col front c /\ Qabs (at_col r c - at_col front c) < threshold * at_col front c.

(** The table falls into consecutive groups; of each group the first row is
    kept and the others add nothing to it; consecutive kept rows differ,
    except that the last row is kept anyway. *)
Definition thinned (R : Z * row -> Z * row -> Prop) (all kept : list (Z * row)) : Prop :=
  exists groups last,
    all = flat_map (fun g => fst g :: snd g) groups ++ [last] /\ kept = map fst groups ++ [last] /\
    (forall front ds d, In (front, ds) groups -> In d ds -> R front d) /\
    (forall pre front ds front' ds' post, groups = pre ++ (front, ds) :: (front', ds') :: post -> ~ R front front').

(** ** SolutionsDiff *)

(** The largest value of an output of the full solution at the times. *)
Definition largest (full : table) (out : string) (times : list Q) (top : Q) : Prop :=
  (exists t, In t times /\ sampled full out t top) /\
  (forall t v, In t times -> sampled full out t v -> v <= top).

(** The mixed error of one output at one time. *)
Definition mixed_error (full red : table) (out : string) (top t e : Q) : Prop :=
  exists vf vr, sampled full out t vf /\ sampled red out t vr /\ e == 2 * (vr - vf) / (vf + top).

(** The requests that make sense. *)
Definition comparable (full red : table) (outs : list string) (times : list Q) : Prop :=
  ascending full /\ ascending red /\ times <> [] /\ outs <> [] /\
  (forall o, In o outs -> In o (tb_cols full) /\ In o (tb_cols red)) /\
  (forall t, In t times -> covered full t /\ covered red t) /\
  (forall o r, In o outs -> In r (tb_rows full) -> 0 < at_col r o).

Definition rms_of (l : list R) (v : R) : Prop :=
  (0 <= v)%R /\ (Rsqr v * INR (List.length l) = fold_right Rplus 0%R (map Rsqr l))%R.
