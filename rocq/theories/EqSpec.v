(** Vocabulary for the properties of the model equations. *)
From Coq Require Import Reals Qreals.
From Verif Require Import Base Morris Tables ExtReal Equations.
Open Scope R_scope.

(** ** Histories of evaluations *)

(** One public method called with some of its optional arguments. *)
Inductive call : Type :=
| CDensity (y : list ext)
| CRho (y : list ext)
| CTotal (y : list ext) (n : option (list ext))
| CPressure (y : list ext) (n_tot : option ext)
| CIonTemp (y : list ext) (p : option ext)
| CElectrons (y : list ext) (n : option (list ext))
| CElTemp (y : list ext) (n_e rho : option ext)
| CDebye (y : list ext) (n_e temp_e : option ext)
| CCoefs (y : list ext) (temp_e : option ext)
| CRates (y : list ext) (n : option (list ext)) (n_e n_tot : option ext) (k : option (list ext))
| CVolume (y : list ext) (rates : option (list ext))
| CFlow (y : list ext) (n : option (list ext)) (p : option ext)
| CSpeeds (y : list ext) (temp_i : option ext)
| CSigma (y : list ext) (v : option (list ext)) (debye : option ext)
| CPaths (y : list ext) (n : option (list ext)) (sigma : option (list (list ext)))
| CFree (y : list ext) (mfp v : option (list ext))
| CAmbipolar (y : list ext) (n : option (list ext)) (n_e temp_i temp_e : option ext) (free : option (list ext))
| CDiff (y : list ext) (free : option (list ext)) (pos neg : option ext)
| CFluxes (y : list ext) (n diff v : option (list ext))
| CSinks (y : list ext) (fluxes : option (list ext))
| CSources (y : list ext) (sinks : option (list ext))
| CSurface (y : list ext) (sinks sources : option (list ext))
| CMinN (y : list ext) (n : option (list ext))
| CDn (y : list ext) (vol flow diff cor : option (list ext))
| CPower (t : Q)
| CExt (t : Q) (power : option ext)
| CLosses (y : list ext) (temp_e : option ext)
| CElInel (y : list ext) (losses rates : option (list ext))
| CGain (y : list ext) (temp_e : option ext) (rates : option (list ext))
| CElWalls (y : list ext) (temp_e : option ext) (diff : option (list ext))
| CSheath (y : list ext) (temp_e : option ext)
| CIonWalls (y : list ext) (temp_e sh_pot : option ext) (diff : option (list ext))
| CMinRho (y : list ext) (rho : option ext)
| CDrho (t : Q) (y : list ext) (ext_ el_inel gain_loss el_walls ions_walls cor : option ext)
| CDy (t : Q) (y : list ext) (dn : option (list ext)) (drho : option ext)
| CObj (t : Q) (y : list ext).

(** What it returns. *)
Inductive answer : Type :=
| ANum (x : ext) | AVec (l : list ext) | AMat (m : list (list ext)) | APower (r : res Q) | ANumR (r : res ext) | AVecR (r : res (list ext)).

Definition mapA {A} (f : A -> answer) (m : M A) : M answer := bindM m (fun a => ret_ (f a)).

Definition perform (c : call) : M answer :=
  match c with
  | CDensity y => ret_ (AVec (get_density_vector y))
  | CRho y => ret_ (ANum (get_electron_energy_density y))
  | CTotal y n => ret_ (ANum (get_total_density y n))
  | CPressure y n_tot => asks (fun s => ANum (get_total_pressure s y n_tot))
  | CIonTemp y p => asks (fun s => ANum (get_ion_temperature s y p))
  | CElectrons y n => asks (fun s => ANum (get_electron_density s y n))
  | CElTemp y n_e rho => asks (fun s => ANum (get_electron_temperature s y n_e rho))
  | CDebye y n_e temp_e => asks (fun s => ANum (get_debye_length s y n_e temp_e))
  | CCoefs y temp_e => mapA AVec (get_reaction_rate_coefficients y temp_e)
  | CRates y n n_e n_tot k => mapA AVec (get_reaction_rates y n n_e n_tot k)
  | CVolume y rates => mapA AVec (get_volumetric_source_rates y rates)
  | CFlow y n p => asks (fun s => AVec (get_flow_source_rates s y n p))
  | CSpeeds y temp_i => mapA AVec (get_mean_speeds y temp_i)
  | CSigma y v debye => mapA AMat (get_sigma_sc y v debye)
  | CPaths y n sigma => mapA AVec (get_mean_free_paths y n sigma)
  | CFree y mfp v => mapA AVec (get_free_diffusivities y mfp v)
  | CAmbipolar y n n_e temp_i temp_e free => mapA ANum (get_ambipolar_diffusivity_pos y n n_e temp_i temp_e free)
  | CDiff y free pos neg => mapA AVec (get_diffusivities y free pos neg)
  | CFluxes y n diff v => mapA AVec (get_wall_fluxes y n diff v)
  | CSinks y fluxes => mapA AVec (get_diffusion_sinks y fluxes)
  | CSources y sinks => mapA AVec (get_diffusion_sources y sinks)
  | CSurface y sinks sources => mapA AVec (get_diffusion_source_rates y sinks sources)
  | CMinN y n => asks (fun s => AVec (get_min_n_correction s y n))
  | CDn y vol flow diff cor => mapA AVec (get_dn_dt y vol flow diff cor)
  | CPower t => asks (fun s => APower (get_power_ext s t))
  | CExt t power => asks (fun s => ANumR (get_drho_dt_ext s t power))
  | CLosses y temp_e => mapA AVec (get_el_en_losses y temp_e)
  | CElInel y losses rates => mapA ANum (get_drho_dt_el_inel y losses rates)
  | CGain y temp_e rates => mapA ANum (get_drho_dt_gain_loss y temp_e rates)
  | CElWalls y temp_e diff => mapA ANum (get_drho_dt_el_walls y temp_e diff)
  | CSheath y temp_e => asks (fun s => ANum (get_sheath_voltage s y temp_e))
  | CIonWalls y temp_e sh diff => mapA ANum (get_drho_dt_ions_walls y temp_e sh diff)
  | CMinRho y rho => ret_ (ANum (get_min_rho_correction y rho))
  | CDrho t y x a b c d cor => mapA ANumR (get_drho_dt t y x a b c d cor)
  | CDy t y dn drho => mapA AVecR (get_dy_dt t y dn drho)
  | CObj t y => mapA AVecR (obj_function t y)
  end.

(** The object after a series of calls. *)
Definition after (calls : list call) (e : equations) : equations :=
  fold_left (fun e c => fst (perform c e)) calls e.

(** ** Power *)

Open Scope Q_scope.

(** [k_0 < k_1 < ..] *)
Definition strictly_ascending (l : list Q) : Prop :=
  forall i j, (i < j < List.length l)%nat -> nth i l 0 < nth j l 0.

(** Value by value, [b] is [a] moved by the step [d] in either direction, or
    not at all. *)
Definition moved_by (d : Q) (a b : Q) : Prop := b == a - d \/ b == a \/ b == a + d.

(** The polygon through the points ([ts], [ps]) has the value [q] at [t]. *)
Definition on_polygon (ts ps : list Q) (t q : Q) : Prop := exists i,
  (S i < List.length ts)%nat /\
  nth i ts 0 <= t <= nth (S i) ts 0 /\
  q * (nth (S i) ts 0 - nth i ts 0) == nth i ps 0 * (nth (S i) ts 0 - t) + nth (S i) ps 0 * (t - nth i ts 0) /\
  ((nth i ps 0 <= q <= nth (S i) ps 0) \/ (nth (S i) ps 0 <= q <= nth i ps 0)).

(** Time points ascend, coincide at most in pairs and lie more than two steps
    apart otherwise. *)
Fixpoint well_spaced (d : Q) (l : list Q) : Prop :=
  match l with
  | a :: l' =>
      match l' with
      | b :: rest =>
          (a + 2 * d < b \/ (a == b /\ match rest with c :: _ => b + 2 * d < c | [] => True end)) /\ well_spaced d l'
      | [] => True
      end
  | [] => True
  end.

Close Scope Q_scope.

(** ** Real states *)

(** A state vector of finite numbers. *)
Definition state (n : list R) (rho : R) : list ext := (map X n ++ [X rho])%list.

(** Sum over the first [k] indices. *)
Definition Sum (k : nat) (f : nat -> R) : R := fold_right Rplus 0 (map f (seq 0 k)).

(** [i]-th entry. *)
Definition el (l : list R) (i : nat) : R := nth i l 0.

Definition all_nonneg (l : list R) : Prop := Forall (fun x => 0 <= x) l.

(** Physical constants are positive. *)
Definition physical (K : constants) : Prop :=
  0 < c_k K /\ 0 < c_e K /\ 0 < c_me K /\ 0 < c_eps K /\ 0 < c_amu K.

(** Data of a proper chemistry and of accepted parameters. *)
Definition proper_view (v : view) : Prop :=
  Forall (fun m => 0 < m) (v_mass v) /\ Forall (fun x => 0 <= x) (v_sigma v) /\
  Forall (fun x => 0 <= x <= 1) (v_stick v) /\ Forall (fun x => 0 <= x) (v_a v).
Definition proper_params (p : mparams) : Prop :=
  0 < p_temp p /\ 0 < p_radius p /\ 0 < p_length p /\ 0 < p_pressure p /\ (0 < p_t_end p)%Q.

(** The answer to a call on the object. *)
Definition answers (e : equations) (c : call) (a : answer) : Prop := snd (perform c e) = a.

(** Feed of the [i]-th species; sum over neutral species; pressure; volume. *)
Definition feed_of (v : view) (p : mparams) (i : nat) : R :=
  match sget (nth i (v_names v) ""%string) (p_feeds p) with Some f => f | None => 0 end.
Definition charge_of (v : view) (i : nat) : Z := nth i (v_charge v) 0%Z.
Definition neutral_density (v : view) (n : list R) : R :=
  Sum (List.length (v_names v)) (fun i => if Z.eqb (charge_of v i) 0 then el n i else 0).
Definition pressure_of (K : constants) (v : view) (p : mparams) (n : list R) : R :=
  c_k K * p_temp p * Sum (List.length (v_names v)) (el n).
Definition volume_of (p : mparams) : R := PI * p_radius p ^ 2 * p_length p.
(** Inflow of the [i]-th species in particles per volume and second. *)
Definition inflow_of (v : view) (p : mparams) (i : nat) : R := feed_of v p i * (4485 * 10 ^ 14) / volume_of p.

(** Electron density from neutrality, temperatures in eV, rates. *)
Definition electrons (v : view) (n : list R) : R :=
  Sum (List.length (v_names v)) (fun i => el n i * IZR (charge_of v i)).
Definition gas_ev (K : constants) (p : mparams) : R := p_temp p * c_k K / c_e K.
Definition electron_ev (K : constants) (v : view) (p : mparams) (n : list R) (rho : R) : R :=
  Rmax (rho / electrons v n * 2 / 3) (gas_ev K p).

(** Arrhenius formula: electron collisions with the electron temperature,
    other reactions with the gas temperature over 300 K. *)
Definition coefficient (v : view) (p : mparams) (te : R) (j : nat) : R :=
  if Z.ltb 0 (nth j (v_e_lhs v) 0%Z)
  then el (v_a v) j * Rpower te (el (v_b v) j) * exp (- el (v_c v) j / te)
  else el (v_a v) j * Rpower (p_temp p / 300) (el (v_b v) j) * exp (- el (v_c v) j / p_temp p).

(** Product of powers of the reactant densities. *)
Definition Prod (l : list R) : R := fold_right Rmult 1 l.
Definition law_of_mass_action (v : view) (n : list R) (j : nat) : R :=
  electrons v n ^ Z.to_nat (nth j (v_e_lhs v) 0%Z) *
  Prod (map (fun i => el n i ^ Z.to_nat (nth i (nth j (v_lhs v) []) 0%Z)) (seq 0 (List.length (v_names v)))) *
  Sum (List.length (v_names v)) (el n) ^ Z.to_nat (nth j (v_m_lhs v) 0%Z).

(** Not below a threshold: a number at least as large, or infinity. *)
Definition at_least (r : R) (x : ext) : Prop := x = XInf \/ exists a, x = X a /\ r <= a.

(** Ion temperature, mean speeds, Debye length, distance of closest approach
    and momentum-transfer cross-sections. *)
Definition mass_of (K : constants) (v : view) (i : nat) : R := el (v_mass v) i * c_amu K.
Definition ion_temperature (K : constants) (v : view) (p : mparams) (n : list R) : R :=
  if Rlt_dec (133322 / 1000000) (pressure_of K v p n)
  then (1 / 2 * c_e K / c_k K - p_temp p) / (pressure_of K v p n / (133322 / 1000000)) + p_temp p
  else 1 / 2 * c_e K / c_k K.
Definition speed (K : constants) (v : view) (p : mparams) (n : list R) (i : nat) : R :=
  sqrt (8 * c_k K * (if Z.eqb (charge_of v i) 0 then p_temp p else ion_temperature K v p n) / (PI * mass_of K v i)).
Definition debye_length (K : constants) (v : view) (p : mparams) (n : list R) (rho : R) : R :=
  sqrt (c_eps K * electron_ev K v p n rho / c_e K / electrons v n).
Definition approach (K : constants) (v : view) (p : mparams) (n : list R) (i k : nat) : R :=
  c_e K ^ 2 * Rabs (IZR (charge_of v i * charge_of v k)) / (2 * PI * c_eps K) /
  (mass_of K v i * mass_of K v k / (mass_of K v i + mass_of K v k) * speed K v p n i ^ 2).
Definition cross_section (K : constants) (v : view) (p : mparams) (n : list R) (rho : R) (i k : nat) : R :=
  if Nat.eqb i k then 0
  else if negb (Z.eqb (charge_of v i) 0) && negb (Z.eqb (charge_of v k) 0)
  then PI * approach K v p n i k ^ 2 * ln (2 * debye_length K v p n rho / approach K v p n i k)
  else ((el (v_sigma v) i + el (v_sigma v) k) / 10 ^ 10) ^ 2.

(** Every species is slowed down: the mean free paths are positive. *)
Definition collisional (K : constants) (v : view) (p : mparams) (n : list R) (rho : R) : Prop :=
  forall i, (i < List.length (v_names v))%nat ->
    0 < Sum (List.length (v_names v)) (fun k => el n k * cross_section K v p n rho i k).

(** Surface and diffusion length of the reactor. *)
Definition area_of (p : mparams) : R := 2 * PI * p_radius p * (p_radius p + p_length p).
Definition diffusion_length (p : mparams) : R := / sqrt ((PI / p_length p) ^ 2 + (2405 / 1000 / p_radius p) ^ 2).

(** Number of [i]-th species returned for each [k]-th species stuck. *)
Definition returned (v : view) (i k : nat) : R := el (nth i (v_ret v) []) k.
