(** Which partial results of the equations can be diagnosed, and what they
    are. *)
From Coq Require Import Reals Qreals.
From Verif Require Import Base Morris Tables ExtReal Equations EqSpec Diagnose.
Open Scope R_scope.

(** One value per heavy species, per reaction, or one for the system. *)
Inductive shape : Type := PerSpecies | PerReaction | OneNumber.

(** The name of a quantity, its shape, and the call of the equations that
    gives it for a state. *)
Definition quantities : list (string * shape * (list ext -> call)) := [
  ("density_vector", PerSpecies, fun y => CDensity y);
  ("electron_energy_density", OneNumber, fun y => CRho y);
  ("total_density", OneNumber, fun y => CTotal y None);
  ("total_pressure", OneNumber, fun y => CPressure y None);
  ("electron_density", OneNumber, fun y => CElectrons y None);
  ("electron_temperature", OneNumber, fun y => CElTemp y None None);
  ("debye_length", OneNumber, fun y => CDebye y None None);
  ("reaction_rate_coefficients", PerReaction, fun y => CCoefs y None);
  ("reaction_rates", PerReaction, fun y => CRates y None None None None);
  ("volumetric_source_rates", PerSpecies, fun y => CVolume y None);
  ("flow_source_rates", PerSpecies, fun y => CFlow y None None);
  ("mean_speeds", PerSpecies, fun y => CSpeeds y None);
  ("mean_free_paths", PerSpecies, fun y => CPaths y None None);
  ("free_diffusivities", PerSpecies, fun y => CFree y None None);
  ("ambipolar_diffusivity_pos", OneNumber, fun y => CAmbipolar y None None None None None);
  ("diffusivities", PerSpecies, fun y => CDiff y None None None);
  ("wall_fluxes", PerSpecies, fun y => CFluxes y None None None);
  ("diffusion_sinks", PerSpecies, fun y => CSinks y None);
  ("diffusion_sources", PerSpecies, fun y => CSources y None);
  ("diffusion_source_rates", PerSpecies, fun y => CSurface y None None);
  ("min_n_correction", PerSpecies, fun y => CMinN y None);
  ("dn_dt", PerSpecies, fun y => CDn y None None None None);
  ("el_en_losses", PerReaction, fun y => CLosses y None);
  ("drho_dt_el_inel", OneNumber, fun y => CElInel y None None);
  ("drho_dt_gain_loss", OneNumber, fun y => CGain y None None);
  ("drho_dt_el_walls", OneNumber, fun y => CElWalls y None None);
  ("sheath_voltage", OneNumber, fun y => CSheath y None);
  ("drho_dt_ions_walls", OneNumber, fun y => CIonWalls y None None None);
  ("min_rho_correction", OneNumber, fun y => CMinRho y None)
]%string.

(** The labels of the columns of a table of this shape. *)
Definition columns (sh : shape) (names : list string) (ids : list Z) : list dlabel :=
  match sh with
  | PerSpecies => map LText names
  | PerReaction => map LId ids
  | OneNumber => [LText "value"%string]
  end.

(** The numbers in an answer, left to right. *)
Definition numbers (a : answer) (l : list ext) : Prop := a = AVec l \/ exists x, a = ANum x /\ l = [x].

(** The shapes can be told from the number of columns. *)
Definition distinguishable (v : view) (sh : shape) : Prop :=
  match sh with
  | PerSpecies => True
  | PerReaction => List.length (v_a v) <> List.length (v_names v)
  | OneNumber => (2 <= List.length (v_names v))%nat /\ List.length (v_a v) <> 1%nat
  end.

(** The names the table needs for itself. *)
Definition own_names (names : list string) : Prop := NoDup names /\ ~ In "t"%string names /\ ~ In "total"%string names.

(** A row of the table: the time, the values of the quantity in this state,
    and their sum if totals are asked for. *)
Definition row_of (e : equations) (c : list ext -> call) (cols : list dlabel) (totals : bool) (ty : ext * list ext)
    (row : list (dlabel * ext)) : Prop :=
  exists a l rest, answers e (c (snd ty)) a /\ numbers a l /\ List.length l = List.length cols /\
    row = ((LText "t"%string, fst ty) :: combine cols l ++ rest)%list /\
    (totals = false -> rest = []) /\
    (totals = true -> exists x, rest = [(LText "total"%string, x)] /\
       forall rs, l = map X rs -> x = X (fold_right Rplus 0 rs)).

(** All names for which the equations have a method. *)
Definition known : list string :=
  (["ion_temperature"; "sigma_sc"; "ambipolar_diffusivity_neg"; "power_ext"; "drho_dt_ext"; "drho_dt"; "dy_dt"; "objective_functions"]%string
   ++ map (fun x => fst (fst x)) quantities)%list.
