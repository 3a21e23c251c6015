(** Model of pygmo_fwork/pygmol/neutral_model.py: NeutralEquations (L42-105)
    and the start vector of NeutralModel (L108-160).

    NeutralEquations inherits from Equations (Equations.v) and overrides some
    methods. An inherited method that calls an overridden one is written out
    again here with the overridden one in its place. *)
From Verif Require Import Base Chemistry Morris MorrisStats InitialGuess Tables ExtReal Equations.
From Coq Require Import Reals Qreals.
Open Scope R_scope.

(** ** Overridden methods *)

(** L54-58 *)
Definition n_electron_temperature (y : list ext) : ext := XNaN.
Definition n_electron_density (y : list ext) : ext := X 0.
(** L61-68: the arrays filled in by [__init__], returned as they are. *)
Definition n_coefficients : M (list ext) := fun e => (e, k_r (ca e)).
Definition n_speeds : M (list ext) := fun e => (e, v_m (ca e)).
Definition n_sigma : M (list (list ext)) := fun e => (e, sigma_sc (ca e)).
(** L70-71: the argument, [None] if it is not given. *)
Definition n_diffusivities (free : option (list ext)) : option (list ext) := free.

(** ** Inherited methods that call them *)

(** equations.py L432-459 *)
Definition n_rates (y : list ext) (n : option (list ext)) (n_e n_tot : option ext) (k : option (list ext)) : M (list ext) :=
  do k' <- optM k n_coefficients;
  get_reaction_rates y n (Some (opt n_e (n_electron_density y))) n_tot (Some k').
(** equations.py L461-477 *)
Definition n_volumetric (y : list ext) (rates : option (list ext)) : M (list ext) :=
  do r <- optM rates (n_rates y None None None None);
  get_volumetric_source_rates y (Some r).
(** equations.py L555-571 *)
Definition n_paths (y : list ext) (n : option (list ext)) (sigma : option (list (list ext))) : M (list ext) :=
  do m <- optM sigma n_sigma;
  get_mean_free_paths y n (Some m).
(** equations.py L573-589 *)
Definition n_free (y : list ext) (mfp v : option (list ext)) : M (list ext) :=
  do l <- optM mfp (n_paths y None None);
  do v' <- optM v n_speeds;
  get_free_diffusivities y (Some l) (Some v').
(** equations.py L663-699: [- diff_c] of [None] is a TypeError. *)
Definition n_wall_fluxes (y : list ext) (n diff v : option (list ext)) : M (res (list ext)) :=
  do v' <- optM v n_speeds;
  match (match diff with Some d => Some d | None => n_diffusivities None end) with
  | Some d => do w <- get_wall_fluxes y n (Some d) (Some v'); ret_ (Ok w)
  | None => ret_ (Err EType)
  end.
(** equations.py L701-714 *)
Definition n_sinks (y : list ext) (fluxes : option (list ext)) : M (res (list ext)) :=
  do w <- match fluxes with Some w => ret_ (Ok w) | None => n_wall_fluxes y None None None end;
  match w with
  | Ok w => do d <- get_diffusion_sinks y (Some w); ret_ (Ok d)
  | Err x => ret_ (Err x)
  end.
(** equations.py L716-730 *)
Definition n_sources (y : list ext) (sinks : option (list ext)) : M (res (list ext)) :=
  do d <- match sinks with Some d => ret_ (Ok d) | None => n_sinks y None end;
  match d with
  | Ok d => do r <- get_diffusion_sources y (Some d); ret_ (Ok r)
  | Err x => ret_ (Err x)
  end.
(** equations.py L732-750 *)
Definition n_source_rates (y : list ext) (sinks sources : option (list ext)) : M (res (list ext)) :=
  do d <- match sinks with Some d => ret_ (Ok d) | None => n_sinks y None end;
  match d with
  | Err x => ret_ (Err x)
  | Ok d =>
      do r <- match sources with Some r => ret_ (Ok r) | None => n_sources y (Some d) end;
      match r with
      | Err x => ret_ (Err x)
      | Ok r => do q <- get_diffusion_source_rates y (Some d) (Some r); ret_ (Ok q)
      end
  end.
(** equations.py L774-800 *)
Definition n_dn_dt (y : list ext) (vol flow diff cor : option (list ext)) : M (res (list ext)) :=
  do a <- optM vol (n_volumetric y None);
  do c <- match diff with Some c => ret_ (Ok c) | None => n_source_rates y None None end;
  match c with
  | Ok c => do d <- get_dn_dt y (Some a) flow (Some c) cor; ret_ (Ok d)
  | Err x => ret_ (Err x)
  end.
(** L364-376 of equations.py is overridden; [get_debye_length] and the
    energy terms of equations.py still exist and use the values above; they
    are not called by the objective function and not modelled here. *)

(** L74-105 [obj_function] *)
Definition n_obj_function (t : Q) (y : list ext) : M (res (list ext)) := fun e =>
  let s := st e in
  let n := get_density_vector y in
  let n_tot := get_total_density y (Some n) in
  let p := get_total_pressure s y (Some n_tot) in
  (do k <- n_coefficients;
   do rates <- n_rates y (Some n) (Some (X 0)) (Some n_tot) (Some k);
   do source_vol <- n_volumetric y (Some rates);
   let source_flow := get_flow_source_rates s y (Some n) (Some p) in
   do v <- n_speeds;
   do sigma <- n_sigma;
   do mfp <- n_paths y (Some n) (Some sigma);
   do free <- n_free y (Some mfp) (Some v);
   let diff := n_diffusivities (Some free) in
   do fluxes <- n_wall_fluxes y (Some n) diff (Some v);
   match fluxes with
   | Err x => ret_ (Err x)
   | Ok fluxes =>
     do sinks <- n_sinks y (Some fluxes);
     match sinks with
     | Err x => ret_ (Err x)
     | Ok sinks =>
       do sources <- n_sources y (Some sinks);
       match sources with
       | Err x => ret_ (Err x)
       | Ok sources =>
         do source_diff <- n_source_rates y (Some sinks) (Some sources);
         match source_diff with
         | Err x => ret_ (Err x)
         | Ok source_diff =>
           let cor := get_min_n_correction s y (Some n) in
           do dn <- n_dn_dt y (Some source_vol) (Some source_flow) (Some source_diff) (Some cor);
           match dn with
           | Err x => ret_ (Err x)
           | Ok dn => get_dy_dt t y (Some dn) (Some (X 0))
           end
         end
       end
     end
   end) e.

(** ** NeutralModel: the start of a run (numbers exact and finite, as in
    InitialGuess.v) *)
Open Scope Q_scope.

(** L120-122 *)
Definition seed_fraction : Q := 1 # 1000000000000000.

(** L115-139 [_build_y0] for the names of the species; with an empty list
    of names numpy yields an empty array. *)
Definition n_density (names : list string) (feeds : list (string * Q)) (n_tot : Q) (name : string) : Q :=
  let total := qsum (map (feed_of feeds) names) in
  let seeds := qsum (map (fun _ => 1 * n_tot * seed_fraction) names) in
  if Qltb 0 total then
    if Qltb 0 (feed_of feeds name) then feed_of feeds name / total * (n_tot - seeds) else 1 * n_tot * seed_fraction
  else 1 * n_tot / zlen names.
Definition n_build_y0 (names : list string) (p : gparams) : list Q * Q :=
  (map (n_density names (gp_feeds p) (total_density p)) names, 0).

(** L141-152 [_y0_from_init_params]; the temperature is not used. *)
Definition n_y0_from_init_params (names : list string) (p : gparams) (init_n : option (list (string * Q))) : res (list Q * Q) :=
  match init_n with
  | None => Ok (n_build_y0 names p)
  | Some d =>
      let* _ := raise_if (negb (same_names (map fst d) names)) EInitialSolution in
      let* ns := mapM (fun s => match sget s d with Some q => Ok q | None => Err EKey end) names in
      Ok (ns, 0)
  end.

(** L154-157 [_validate_y0] *)
Definition n_validate_y0 (names : list string) (y0 : list Q * Q) : res unit :=
  raise_if (negb (Nat.eqb (List.length (fst y0)) (List.length names))) EInitialSolution.

(** L113-116 of NeutralModel.__init__: [assert not any(charges)]. A charge
    that is not set counts as false. *)
Definition neutral_model_names (c : chem) : res (list string) :=
  let sps := get_species c false false true in
  let* _ := raise_if (existsb (fun s => match sp_charge s with Some z => negb (Z.eqb z 0) | None => false end) sps) EAssertion in
  Ok (map sp_name sps).
