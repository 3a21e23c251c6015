(** Vocabulary of C183: the rows of a reduction history and the solutions they
    compare. *)
From Verif Require Import Base MorrisStats Tables GlobalModel Reduction ReductionSpec.
Local Open Scope string_scope.

(** The name of the run of iteration [n], which removes [sp]: at least two
    digits; [ishow] is Python's [str] of an int. *)
Definition run_name (E : env) (n : nat) (sp name : string) : Prop :=
  ((n < 10)%nat /\ name = "0" ++ ishow E (Z.of_nat n) ++ "_disabled_" ++ sp) \/
  ((10 <= n)%nat /\ name = ishow E (Z.of_nat n) ++ "_disabled_" ++ sp).

(** The row of iteration [n] whose run gave [sol], after runs that started with
    [base] and of which [last] was kept last. *)
Definition tells (E : env) (k : rconf) (n : nat) (base last sol : table) (r : hrow) : Prop :=
  h_success r = Some true /\
  (exists sp name, h_species r = Some sp /\ h_run r = Some name /\ run_name E n sp name) /\
  get_error_max base sol (rc_outs k) (rc_times k) = Ok (h_base r) /\
  get_error_max last sol (rc_outs k) (rc_times k) = Ok (h_last r).

(** [chain rows last]: the rows so far, and the solution kept last. *)
Inductive chain (E : env) (k : rconf) (bt : bool) (base : table) : list hrow -> table -> Prop :=
| chain_base r : h_run r = Some "00_full_chemistry" -> h_success r = Some true -> h_base r = Fin 0 -> h_last r = Fin 0 ->
    chain E k bt base [r] base
| chain_failed rows last r : chain E k bt base rows last -> h_success r = Some false -> h_run r = None ->
    h_base r = NaN -> h_last r = NaN -> chain E k bt base (rows ++ [r])%list last
| chain_undone rows last r sol : chain E k bt base rows last -> tells E k (List.length rows) base last sol r ->
    bt = true -> over_limit k (h_base r) -> chain E k bt base (rows ++ [r])%list last
| chain_kept rows last r sol : chain E k bt base rows last -> tells E k (List.length rows) base last sol r ->
    ~ (bt = true /\ over_limit k (h_base r)) -> chain E k bt base (rows ++ [r])%list sol.

(** A solver that does in one run what another does, but is interrupted by the
    user where the other fails. *)
Definition interrupted_for (n : nat) (b b' : nat -> solving) : Prop :=
  exists rest, b n = SRaise EModelSolution rest /\ b' n = SRaise EInterrupt rest.
