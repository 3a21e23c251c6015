(** Which species a reduction tries next. *)
From Verif Require Import Base Chemistry Tables GlobalModel Reduction ReductionSpec.
Open Scope list_scope.

(** Neither undone nor failed. *)
Definition good_row (k : rconf) (r : hrow) : Prop := h_base r <> NaN /\ ~ over_limit k (h_base r).

(** Not to be tried any more. *)
Definition done_with (st : rstate) (x : string) : Prop := In x (r_tried st) \/ ~ In x (r_eligible st).

(** [driven st R]: [st] was reached by trying, each time, the first species of
    the current ranking that was not tried and may be removed, one with the
    least score; [R] is the current ranking. A ranking function is asked again
    after each success, a given ranking stays. *)
Inductive driven E fhash default_dir scan backend (k : rconf) (r : ranking) (g : gmodel) (s : gfs) : rstate -> list (string * Q) -> Prop :=
| dr_base s1 st st1 R : r_init k g s = (s1, Ok st) ->
    run_base_case E fhash default_dir scan backend k st = (st1, Ok tt) ->
    match r with Static l => R = l | Dynamic f => f (r_gm st1) (r_runs st1) = Ok R end ->
    driven E fhash default_dir scan backend k r g s st1 R
| dr_next st R before sp score after st1 row R' : driven E fhash default_dir scan backend k r g s st R ->
    R = before ++ (sp, score) :: after -> (forall x, In x (map fst before) -> done_with st x) -> ~ done_with st sp ->
    (forall x v, In (x, v) after -> (score <= v)%Q) ->
    remove_one E fhash default_dir scan backend k st sp score true = (st1, Ok row) ->
    match r with
    | Static _ => R' = R
    | Dynamic f => (good_row k row -> f (r_gm st1) (r_runs st1) = Ok R') /\ (~ good_row k row -> R' = R)
    end ->
    driven E fhash default_dir scan backend k r g s st1 R'.
