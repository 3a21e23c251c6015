(** What is claimed about workspaces and about reading logs back. *)
From Verif Require Import Base Species Reactions Chemistry MorrisStats MorrisRun Tables InitialGuess GlobalModel GlobalSpec Workspace.

Definition keeps (o : wop) : Prop := match o with WModel g => no_overwrite g | _ => True end.

(** The queries for directories of the workspace. *)
Inductive query : Type := QBackend (backend : string) | QStage | QMorris | QReduction.
Definition ask (cfg : cfg_file) (to_path : string -> path) (q : query) : gfs -> gfs * res path :=
  match q with
  | QBackend b => results_dir cfg to_path b
  | QStage => stage_dir cfg to_path
  | QMorris => morris_dir cfg to_path
  | QReduction => reduction_dir cfg to_path
  end.
Definition same_query (a b : query) : Prop :=
  match a, b with
  | QBackend x, QBackend y => str_lower x = str_lower y
  | _, _ => a = b
  end.
(** The place of a directory within the workspace. *)
Definition place (q : query) : path :=
  match q with
  | QBackend b => ["results"%string; str_lower b]
  | QStage => ["globalkin_stage"%string]
  | QMorris => ["results"; "morris_sensitivity"]%string
  | QReduction => ["results"; "reduction"]%string
  end.

(** The step [o] in the world [w] logs the object [g] to the directory [p],
    with the initial values [te] and [i] and, if [co], compressed. A run logs
    the model with the solution the solver has returned. *)
Definition logs (cfg : cfg_file) (to_path : string -> path) (w : world) (o : gop) (p : path) (g : gmodel) (te : Q) (i : list (string * Q)) (co : bool) : Prop :=
  match o with
  | GLog id dir te' i' _ co' => w_obj w = Some g /\ p = run_path dir id /\ te' = te /\ i' = i /\ co' = co
  | GRun a (SDone true r) =>
      exists g0 m id dir, w_obj w = Some g0 /\ gm_model g0 = Some m /\ ra_log a = true /\ ra_id a = Some id /\
        (ra_to a = Some dir \/ ra_to a = None /\ snd (results_dir cfg to_path (gm_backend g0) (w_fs w)) = Ok dir) /\
        p = run_path dir id /\ te = ra_temp a /\ co = ra_compress a /\
        match ra_init a with Some i0 => i = i0 | None => generate_initial_n (bm_chem m) (bm_par m) default_fractions = Ok i end /\
        g = MkGm (gm_backend g0)
              (Some (MkBm (bm_chem m) (bm_par m)
                 (Some (MkStored r (List.length (get_species (bm_chem m) false false true)) (List.length (get_reactions (bm_chem m) false))))))
              (Some true)
  | _ => False
  end.
