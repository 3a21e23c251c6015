(** What the book-keeping of a Morris run is supposed to guarantee. *)
From Verif Require Import Base MorrisRun.

Section Spec.
  Context {cfg : Type} (same : cfg -> cfg -> bool).
  Implicit Types s : mfs cfg.

  (** The directory of a trajectory. *)
  Definition dir s (id : string) : option (tdir cfg) := sget id (f_trajs s).

  (** A trajectory counts as done when its meta.yaml exists. *)
  Definition completed s (id : string) (tm : tmeta) (rs : list (string * origin cfg)) : Prop :=
    dir s id = Some (MkDir rs (Some tm)).

  (** The runs a meta.yaml promises. *)
  Definition listed (tm : tmeta) : list string := tm_base tm :: tm_runs tm.

  (** Trajectory [id] is done and each run it lists has a solution, all
      produced under [o]. *)
  Definition produced s (id : string) (o : origin cfg) : Prop :=
    exists tm rs, completed s id tm rs /\ forall r, In r (listed tm) -> In (r, o) rs.

  (** Every trajectory that is done has all the solutions it lists. *)
  Definition all_logged s : Prop := forall id tm rs, completed s id tm rs -> exists o, produced s id o.

  Definition coherent (o1 o2 : origin cfg) : Prop :=
    same (o_cfg o1) (o_cfg o2) = true /\ o_type o1 = o_type o2 /\ str_lower (o_backend o1) = str_lower (o_backend o2).

  (** All the trajectories done are comparable. *)
  Definition all_coherent s : Prop :=
    forall id1 id2 o1 o2, produced s id1 o1 -> produced s id2 o2 -> coherent o1 o2.

  (** Nothing done is touched. *)
  Definition keeps_done s s' : Prop := forall id tm rs, completed s id tm rs -> completed s' id tm rs.

  (** A call whose back-end runs all succeed and have distinct names. *)
  Definition sound_call (k : call cfg) : Prop :=
    Forall (fun r => snd r = Ok tt) (k_base k :: k_steps k) /\ NoDup (map fst (k_base k :: k_steps k)).

  (** The contents of a finished trajectory. *)
  Definition finished_dir (k : call cfg) : tdir cfg :=
    MkDir (map (fun r => (fst r, call_origin k)) (k_base k :: k_steps k)) (Some (call_meta k)).

  (** The files of the run's meta directory agree with the call. *)
  Definition meta_agrees (k : call cfg) s : Prop :=
    exists c1 c2, f_cfg s = Some c1 /\ f_cfg2 s = Some c2 /\ f_meta s = Some (k_type k, k_backend k)
                  /\ same (k_cfg k) c1 = true /\ same (k_cfg k) c2 = true.
End Spec.
