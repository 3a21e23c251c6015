(** Model of the book-keeping of a Morris run (morris.py L337-445, L449-792):
    trajectory ids, the directory of a run, the coherence check, the order of
    file-system actions of a trajectory, crashes and parallel trajectories.

    A trajectory is a list of atomic actions on the directory; writing one
    file is atomic. The back-end is an oracle: each evaluation either produces
    a solution or raises. *)
From Coq Require Import Decimal DecimalString DecimalNat.
From Verif Require Import Base.

(** ** Identifiers *)

(** [str.lower] (ASCII). *)
Definition lower_char (c : ascii) : ascii :=
  let n := nat_of_ascii c in if (65 <=? n)%nat && (n <=? 90)%nat then ascii_of_nat (n + 32) else c.
Definition str_lower (s : string) : string := str_of (map lower_char (chars s)).

(** ['{:03d}'.format(i)]. *)
Fixpoint ndigits (u : Decimal.uint) : nat :=
  match u with
  | Decimal.Nil => 0
  | Decimal.D0 u | Decimal.D1 u | Decimal.D2 u | Decimal.D3 u | Decimal.D4 u | Decimal.D5 u | Decimal.D6 u
  | Decimal.D7 u | Decimal.D8 u | Decimal.D9 u => S (ndigits u)
  end.
Definition pad3 (u : Decimal.uint) : Decimal.uint := Nat.iter (3 - ndigits u) Decimal.D0 u.

(** morris.py L62, [traj_id = 'traj{:03d}']. *)
Definition traj_name (i : nat) : string := ("traj" ++ NilEmpty.string_of_uint (pad3 (Nat.to_uint i)))%string.

(** ** The directory of a Morris run *)

Section Run.
  (** [cfg]: what determines the results (chemistry, model parameters) and
      what the coherence check compares; [same] is that comparison. *)
  Context {cfg : Type} (same : cfg -> cfg -> bool).

  (** meta.yaml of a trajectory, L706-711. *)
  Record tmeta : Type := MkMeta { tm_base : string; tm_runs : list string; tm_deltas : list Q; tm_factors : list string }.

  (** Under what a solution was produced: configuration, trajectory type,
      back-end. Not written to the directory; it stands for the contents of
      solution.csv. *)
  Record origin : Type := MkOrigin { o_cfg : cfg; o_type : string; o_backend : string }.

  (** A trajectory directory: the run subdirectories, each with a solution,
      and the meta file. *)
  Record tdir : Type := MkDir { t_runs : list (string * origin); t_meta : option tmeta }.

  (** logs_dir and meta_dir. *)
  Record mfs : Type := MkFs {
    f_trajs : list (string * tdir);
    f_cfg : option cfg;                     (* chemistry_attributes.yaml, model_parameters.yaml *)
    f_cfg2 : option cfg;
    f_meta : option (string * string)       (* meta.yaml: trajectory_type, model_backend *)
  }.

  Definition fs0 : mfs := MkFs [] None None None.

  Definition has_meta (s : mfs) (id : string) : bool :=
    match sget id (f_trajs s) with Some d => match t_meta d with Some _ => true | None => false end | None => false end.

  (** morris.py L371-383 [_get_next_traj_id]. *)
  Definition next_traj_id (s : mfs) : res string :=
    match find (fun i => negb (has_meta s (traj_name i))) (seq 1 998) with
    | Some i => Ok (traj_name i)
    | None => Err EMorrisLog
    end.

  Definition action := mfs -> mfs * res unit.

  Definition put_dir (id : string) (d : tdir) (s : mfs) : mfs :=
    MkFs (sset id d (f_trajs s)) (f_cfg s) (f_cfg2 s) (f_meta s).

  (** L357-369: the directory of the trajectory. *)
  Definition act_prepare (id : string) : action := fun s =>
    if has_meta s id then (s, Err EMorrisLog)
    else match sget id (f_trajs s) with
         | Some _ => (s, Ok tt)
         | None => (put_dir id (MkDir [] None) s, Ok tt)
         end.

  Definition meta_dir_empty (s : mfs) : bool :=
    match f_cfg s, f_cfg2 s, f_meta s with None, None, None => true | _, _, _ => false end.

  (** L386-412 [_assert_coherence]; a missing file raises FileNotFoundError. *)
  Definition act_coherence (c : cfg) (ty backend : string) : action := fun s =>
    (s, if meta_dir_empty s then Ok tt
        else match f_cfg s with
             | None => Err EOS
             | Some a =>
                 let* _ := raise_if (negb (same c a)) EMorrisCoherence in
                 match f_cfg2 s with
                 | None => Err EOS
                 | Some b =>
                     let* _ := raise_if (negb (same c b)) EMorrisCoherence in
                     match f_meta s with
                     | None => Err EOS
                     | Some (ty', backend') =>
                         let* _ := raise_if (negb (String.eqb ty' ty)) EMorrisCoherence in
                         raise_if (negb (String.eqb backend' backend)) EMorrisCoherence
                     end
                 end
             end).

  (** One evaluation, L630-638, L690-697: the back-end runs, then
      [os.mkdir(run_dir)] (which raises if it exists) and the solution is
      written. *)
  Definition act_log (c : origin) (id : string) (run : string * res unit) : action := fun s =>
    match snd run with
    | Err e => (s, Err e)
    | Ok tt =>
        match sget id (f_trajs s) with
        | None => (s, Err EOS)
        | Some d => if shas (fst run) (t_runs d) then (s, Err EOS)
                    else (put_dir id (MkDir (t_runs d ++ [(fst run, c)]) (t_meta d)) s, Ok tt)
        end
    end.

  (** L710-711. *)
  Definition act_meta (id : string) (tm : tmeta) : action := fun s =>
    match sget id (f_trajs s) with
    | None => (s, Err EOS)
    | Some d => (put_dir id (MkDir (t_runs d) (Some tm)) s, Ok tt)
    end.

  (** L414-434 [_dump_meta], its three files. *)
  Definition act_dump1 (c : cfg) : action := fun s => (MkFs (f_trajs s) (Some c) (f_cfg2 s) (f_meta s), Ok tt).
  Definition act_dump2 (c : cfg) : action := fun s => (MkFs (f_trajs s) (f_cfg s) (Some c) (f_meta s), Ok tt).
  Definition act_dump3 (ty backend : string) : action := fun s =>
    (MkFs (f_trajs s) (f_cfg s) (f_cfg2 s) (Some (ty, str_lower backend)), Ok tt).

  (** A call of [run_trajectory]: the object's configuration and back-end,
      the trajectory type, the evaluations (name and outcome, the base run
      first) and the values logged. *)
  Record call : Type := MkTraj {
    k_cfg : cfg; k_backend : string; k_type : string; k_id : option string;
    k_base : string * res unit; k_steps : list (string * res unit);
    k_deltas : list Q; k_factors : list string
  }.

  Definition call_origin (k : call) : origin := MkOrigin (k_cfg k) (k_type k) (k_backend k).
  Definition call_meta (k : call) : tmeta := MkMeta (fst (k_base k)) (map fst (k_steps k)) (k_deltas k) (k_factors k).

  (** The actions of [run_trajectory] once the id is known, in order. *)
  Definition actions (k : call) (id : string) : list action :=
    act_prepare id :: act_coherence (k_cfg k) (k_type k) (k_backend k) ::
    map (act_log (call_origin k) id) (k_base k :: k_steps k) ++
    [act_meta id (call_meta k); act_dump1 (k_cfg k); act_dump2 (k_cfg k); act_dump3 (k_type k) (k_backend k)].

  Inductive outcome := Finished | Failed (e : exn) | Crashed.

  (** Execute actions; [budget] is the number of actions after which the
      process dies, if it does. *)
  Fixpoint exec (budget : option nat) (l : list action) (s : mfs) : mfs * outcome :=
    match l with
    | [] => (s, Finished)
    | a :: l' =>
        match budget with
        | Some O => (s, Crashed)
        | _ => match a s with
               | (s', Err e) => (s', Failed e)
               | (s', Ok tt) => exec (option_map pred budget) l' s'
               end
        end
    end.

  (** morris.py L449-713 [run_trajectory]. *)
  Definition run_trajectory (budget : option nat) (k : call) (s : mfs) : mfs * outcome :=
    match (match k_id k with Some id => Ok id | None => next_traj_id s end) with
    | Err e => (s, Failed e)
    | Ok id => exec budget (actions k id) s
    end.

  (** Calls one after the other, whatever their outcome. *)
  Definition run_calls (l : list (option nat * call)) (s : mfs) : mfs :=
    fold_left (fun s bk => fst (run_trajectory (fst bk) (snd bk) s)) l s.

  (** L884-893 (start of [get_morris_stats]): every directory found is
      opened; a missing meta.yaml raises FileNotFoundError. *)
  Definition stats_metas (s : mfs) : res (list (string * tmeta)) :=
    mapM (fun d => match t_meta (snd d) with Some tm => Ok (fst d, tm) | None => Err EOS end) (f_trajs s).

  (** ** run_morris *)

  (** L767-773: the queue of trajectory ids. *)
  Fixpoint queue (fuel : nat) (taken : string -> bool) (i num : nat) : res (list string) :=
    match num with
    | O => Ok []
    | S num' =>
        match fuel with
        | O => Err EFuel
        | S fuel' => if taken (traj_name i) then queue fuel' taken (S i) num
                     else let* l := queue fuel' taken (S i) num' in Ok (traj_name i :: l)
        end
    end.

  Definition morris_queue (s : mfs) (num : nat) : res (list string) :=
    queue (num + List.length (f_trajs s)) (has_meta s) 1 num.

  Fixpoint replace {A} (p : nat) (x : A) (l : list A) : list A :=
    match l, p with
    | [], _ => []
    | _ :: l', O => x :: l'
    | y :: l', S p' => y :: replace p' x l'
    end.

  (** Parallel trajectories: each process has the actions it still has to
      do; [sched] says which one moves next. A process whose action raises
      stops (the exception is swallowed by [pool.apply_async]). *)
  Fixpoint parallel (sched : list nat) (ps : list (list action)) (s : mfs) : list (list action) * mfs :=
    match sched with
    | [] => (ps, s)
    | p :: sched' =>
        match nth_error ps p with
        | Some (a :: l) =>
            match a s with
            | (s', Ok tt) => parallel sched' (replace p l ps) s'
            | (s', Err _) => parallel sched' (replace p [] ps) s'
            end
        | _ => parallel sched' ps s
        end
    end.
End Run.
Arguments origin : clear implicits.
Arguments tdir : clear implicits.
Arguments mfs : clear implicits.
Arguments call : clear implicits.
