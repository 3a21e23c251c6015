(** Model of Model.diagnose (pygmo_fwork/pygmol/model.py L229-261) for the
    class Equations, with totals and with solutions given as an argument. *)
From Coq Require Import Reals Qreals.
From Verif Require Import Base Chemistry Morris MorrisStats InitialGuess Tables ExtReal Equations Neutral Solution.
Open Scope R_scope.

(** What a method of the equations may return: a number of numpy, a plain
    Python number, a vector, a matrix. *)
Inductive dvalue : Type := DNum (x : ext) | DPlain (x : ext) | DVec (l : list ext) | DMat (m : list (list ext)).

Definition vec_ (m : M (list ext)) : M (res dvalue) := do l <- m; ret_ (Ok (DVec l)).
Definition num_ (m : M ext) : M (res dvalue) := do x <- m; ret_ (Ok (DNum x)).

(** equations.py L344-362: below one millitorr the value is computed from
    constants only and is a plain Python number. *)
Definition ion_value (s : static) (y : list ext) : dvalue :=
  if xltb (X mtorr) (get_total_pressure s y None) then DNum (get_ion_temperature s y None) else DPlain (get_ion_temperature s y None).

Section Diagnose.
  (** equations.py L802-809: [np.interp] of the power at any number; here the
      "time" is a component of the state vector. *)
  Variable power_at : static -> ext -> ext.

  (** [getattr(self.equations, 'get_{}'.format(quantity))(y)]: the methods of
      equations.py by their names (L297-1012), called with one argument. The
      first argument of [get_power_ext] and [get_drho_dt_ext] is the time;
      [get_drho_dt] and [get_dy_dt] need two arguments; the argument of
      [get_objective_functions] is tested like a truth value. *)
  Definition methods : list (string * (list ext -> M (res dvalue))) := [
    ("density_vector", fun y => ret_ (Ok (DVec (get_density_vector y))));
    ("electron_energy_density", fun y => ret_ (Ok (DNum (get_electron_energy_density y))));
    ("total_density", fun y => ret_ (Ok (DNum (get_total_density y None))));
    ("total_pressure", fun y => num_ (asks (fun s => get_total_pressure s y None)));
    ("ion_temperature", fun y => asks (fun s => Ok (ion_value s y)));
    ("electron_density", fun y => num_ (asks (fun s => get_electron_density s y None)));
    ("electron_temperature", fun y => num_ (asks (fun s => get_electron_temperature s y None None)));
    ("debye_length", fun y => num_ (asks (fun s => get_debye_length s y None None)));
    ("reaction_rate_coefficients", fun y => vec_ (get_reaction_rate_coefficients y None));
    ("reaction_rates", fun y => vec_ (get_reaction_rates y None None None None));
    ("volumetric_source_rates", fun y => vec_ (get_volumetric_source_rates y None));
    ("flow_source_rates", fun y => vec_ (asks (fun s => get_flow_source_rates s y None None)));
    ("mean_speeds", fun y => vec_ (get_mean_speeds y None));
    ("sigma_sc", fun y => do m <- get_sigma_sc y None None; ret_ (Ok (DMat m)));
    ("mean_free_paths", fun y => vec_ (get_mean_free_paths y None None));
    ("free_diffusivities", fun y => vec_ (get_free_diffusivities y None None));
    ("ambipolar_diffusivity_pos", fun y => num_ (get_ambipolar_diffusivity_pos y None None None None None));
    ("ambipolar_diffusivity_neg", fun y => ret_ (Ok (DPlain get_ambipolar_diffusivity_neg)));
    ("diffusivities", fun y => vec_ (get_diffusivities y None None None));
    ("wall_fluxes", fun y => vec_ (get_wall_fluxes y None None None));
    ("diffusion_sinks", fun y => vec_ (get_diffusion_sinks y None));
    ("diffusion_sources", fun y => vec_ (get_diffusion_sources y None));
    ("diffusion_source_rates", fun y => vec_ (get_diffusion_source_rates y None None));
    ("min_n_correction", fun y => vec_ (asks (fun s => get_min_n_correction s y None)));
    ("dn_dt", fun y => vec_ (get_dn_dt y None None None None));
    ("power_ext", fun y => vec_ (asks (fun s => map (power_at s) y)));
    ("drho_dt_ext", fun y => vec_ (asks (fun s => map (fun t => xdiv (xdiv (power_at s t) (X (volume s))) (X (c_e (s_const s)))) y)));
    ("el_en_losses", fun y => vec_ (get_el_en_losses y None));
    ("drho_dt_el_inel", fun y => num_ (get_drho_dt_el_inel y None None));
    ("drho_dt_gain_loss", fun y => num_ (get_drho_dt_gain_loss y None None));
    ("drho_dt_el_walls", fun y => num_ (get_drho_dt_el_walls y None None));
    ("sheath_voltage", fun y => num_ (asks (fun s => get_sheath_voltage s y None)));
    ("drho_dt_ions_walls", fun y => num_ (get_drho_dt_ions_walls y None None None));
    ("min_rho_correction", fun y => ret_ (Ok (DNum (get_min_rho_correction y None))));
    ("drho_dt", fun y => ret_ (Err EType));
    ("dy_dt", fun y => ret_ (Err EType));
    ("objective_functions", fun y => ret_ (Err EValue))
  ]%string.

  Definition evaluate (q : string) (y : list ext) : M (res dvalue) :=
    match sget q methods with Some f => f y | None => ret_ (Err EAttribute) end.

  (** L246: the comprehension; a plain number has no [copy]. *)
  Fixpoint evaluations (q : string) (ys : list (list ext)) : M (res (list dvalue)) :=
    match ys with
    | [] => ret_ (Ok [])
    | y :: ys' =>
        do r <- evaluate q y;
        match r with
        | Err x => ret_ (Err x)
        | Ok (DPlain _) => ret_ (Err EAttribute)
        | Ok v => do r' <- evaluations q ys'; ret_ (let* l := r' in Ok (v :: l))
        end
    end.

  (** [pd.DataFrame] of numbers has one column, of vectors one per component;
      matrices are refused. The states of a solution all have one length, and
      so have the vectors of a quantity. *)
  Definition cells (v : dvalue) : res (list ext) :=
    match v with DNum x | DPlain x => Ok [x] | DVec l => Ok l | DMat _ => Err EValue end.

  (** Labels of columns: texts, and the ids of the reactions. *)
  Inductive dlabel : Type := LText (s : string) | LId (z : Z).
  Definition dlabel_eqb (a b : dlabel) : bool :=
    match a, b with LText s, LText t => String.eqb s t | LId x, LId y => Z.eqb x y | _, _ => false end.

  (** L247-254: the labels, found by the number of columns; [names] and [ids]
      are those of the chemistry now. *)
  Definition dlabels (s : static) (names : list string) (ids : list Z) (width : nat) : list dlabel :=
    if Nat.eqb width (s_ns s) then map LText names
    else if Nat.eqb width (s_nr s) then map LId ids
    else if Nat.eqb width (s_ns s + 1) then (map LText names ++ [LText "rho"])%list
    else [LText "value"%string].

  (** L257: [diagnostics.sum(axis=1)] leaves out what is not a number. *)
  Definition xnumber (x : ext) : bool := match x with XNaN => false | _ => true end.
  Definition row_total (r : list (dlabel * ext)) : ext := xsum (filter xnumber (map snd r)).

  (** L255-260, one row; the new columns overwrite old ones of their names. *)
  Definition finish_row (totals : bool) (t : ext) (r : list (dlabel * ext)) : res (list (dlabel * ext)) :=
    let r := if totals then aset dlabel_eqb (LText "total") (row_total r) r else r in
    let r := aset dlabel_eqb (LText "t") t r in
    mapM (fun c => match aget dlabel_eqb c r with Some x => Ok (c, x) | None => Err EKey end)
         (LText "t" :: removelast (map fst r)).

  (** L244-261. [b] is the Model object; [self.t] is [None] until a solution
      is stored, and the column of times then holds NaN. *)
  Definition diagnose (names : list string) (ids : list Z) (q : string) (sol : option (list (list ext))) (totals : bool)
      (b : backend) : backend * res (list (list (dlabel * ext))) :=
    match (match sol with Some l => Some l | None => option_map (map snd) (bk_primary b) end) with
    | None => (b, Err EType)                           (* iterating over None *)
    | Some ys =>
      let (e, r) := evaluations q ys (bk_eq b) in
      (MkBackend e (bk_success b) (bk_primary b) (bk_secondary b),
       let* vs := r in
       let* m := mapM cells vs in
       let width := match m with [] => O | l :: _ => List.length l end in
       let labels := dlabels (st e) names ids width in
       let* _ := raise_if (negb (Nat.eqb (List.length labels) width)) EValue in
       let ts := match bk_primary b with Some s => map fst s | None => map (fun _ => XNaN) m end in
       let* _ := raise_if (negb (Nat.eqb (List.length ts) (List.length m))) EValue in
       mapM (fun tr => finish_row totals (fst tr) (combine labels (snd tr))) (combine ts m))
    end.
End Diagnose.
