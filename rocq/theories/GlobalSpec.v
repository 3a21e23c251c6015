(** What is claimed about runs and their logs. *)
From Verif Require Import Base Species Reactions Chemistry MorrisStats Tables InitialGuess GlobalModel.
Open Scope Q_scope.

(** A file lies in a directory and is not itself one; directories lie in
    directories. *)
Definition fs_ok (s : gfs) : Prop :=
  (forall p c, fget p (fs_files s) = Some c -> isdir s (removelast p) = true /\ isdir s p = false) /\
  (forall p, isdir s p = true -> isdir s (removelast p) = true).

(** Nothing of [s] is changed or removed in [s']. *)
Definition kept (s s' : gfs) : Prop :=
  (forall p, isdir s p = true -> isdir s' p = true) /\
  (forall p c, fget p (fs_files s) = Some c -> fget p (fs_files s') = Some c).

(** [s'] equals [s] outside the directory [p]. *)
Definition same_outside (p : path) (s s' : gfs) : Prop :=
  forall q, under p q = false -> isdir s' q = isdir s q /\ fget q (fs_files s') = fget q (fs_files s).

Definition no_overwrite (o : gop) : Prop :=
  match o with
  | GRun a _ => ra_over a = false
  | GLog _ _ _ _ ow _ => ow = false
  | _ => True
  end.

(** Neither a run nor a change of the model. *)
Definition harmless (o : gop) : Prop :=
  match o with GLog _ _ _ _ _ _ | GChem _ => True | _ => False end.

(** The files of a complete log. *)
Definition log_files_of (t : tables) (a : cattrs) (p : gparams) (el_temp : Q) (init_n : list (string * Q)) : list (string * content) :=
  [("solution.csv", CTable (tb_sol t)); ("rates.csv", CTable (tb_rates t)); ("wall_fluxes.csv", CTable (tb_flux t));
   ("chemistry_attributes.yaml", CAttrs a); ("model_attributes.yaml", CModel p el_temp init_n); ("solver_log.yaml", CLog (tb_log t))]%string.

Definition log_file_names : list string :=
  ["solution.csv"; "rates.csv"; "wall_fluxes.csv"; "chemistry_attributes.yaml"; "model_attributes.yaml"; "solver_log.yaml"]%string.

(** A written solver log says that the log is complete. *)
Definition marked (s : gfs) : Prop :=
  forall p z, fget (p ++ ["solver_log.yaml"%string]) (fs_files s) = Some (CLog z) ->
  forall n, In n log_file_names -> exists c, fget (p ++ [n]) (fs_files s) = Some c /\ c <> CEmpty.

(** What is logged of a table. *)
Definition logged (compress : bool) (t t' : table) : Prop :=
  if compress then compress_solution t (1 # 20) (1 # 1000) = Ok t' else t' = t.
