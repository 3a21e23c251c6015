(** Model of pygmo_fwork/pygmol/equations.py (class Equations) and of
    NeutralEquations in pygmo_fwork/pygmol/neutral_model.py.

    Arrays are lists; [tab n f] is the array of [f 0, .., f (n-1)], so an
    element-wise numpy expression is the [tab] of the expression at one
    index. Numbers are extended reals (ExtReal.v). The attributes read from
    the chemistry and the parameters are finite numbers, times and powers are
    rational (every float is). State vectors have one entry per species and
    one for rho (numpy raises for other lengths; not modelled). Arguments are
    passed by value: a caller handing an array returned by one method to
    another one, after the object has updated it, is not modelled. *)
From Verif Require Import Base Morris Tables ExtReal.
From Coq Require Import Reals Qreals Qround.
Open Scope R_scope.

Definition tab {A} (n : nat) (f : nat -> A) : list A := map f (seq 0 n).
Definition at_ (l : list R) (i : nat) : R := nth i l 0.
Definition xat (l : list ext) (i : nat) : ext := nth i l XNaN.
Definition zat (l : list Z) (i : nat) : Z := nth i l 0%Z.
Definition bat (l : list bool) (i : nat) : bool := nth i l false.
Definition mat {A} (d : A) (m : list (list A)) (i j : nat) : A := nth j (nth i m []) d.

(** The arrays the getters of a Chemistry return (L157-177, L224, default
    arguments). *)
Record view : Type := MkView {
  v_names : list string;
  v_charge : list Z;
  v_mass : list R;                  (* get_species_mass, [amu] *)
  v_sigma : list R;                 (* get_species_lj_sigma, [Angstrom] *)
  v_stick : list R;
  v_a : list R; v_b : list R; v_c : list R;
  v_loss : list R;
  v_elastic : list bool;
  v_e_net : list Z; v_e_lhs : list Z; v_m_lhs : list Z;
  v_ret : list (list R);
  v_net : list (list Z); v_lhs : list (list Z)
}.

(** The model parameters; [p_int]: all time points are Python ints. *)
Record mparams : Type := MkMP {
  p_feeds : list (string * R);
  p_temp : R; p_radius : R; p_length : R; p_pressure : R;
  p_t_end : Q;
  p_power : list Q; p_times : list Q; p_int : bool
}.

(** scipy.constants: k, e, m_e, epsilon_0, atomic_mass ([constants.pi] is the
    real number pi). *)
Record constants : Type := MkConst { c_k : R; c_e : R; c_me : R; c_eps : R; c_amu : R }.

(** ** Power (L190-202) *)

(** Assignment to an element of an integer array truncates towards zero. *)
Definition trunc (q : Q) : Q := inject_Z (if Qle_bool 0 q then Qfloor q else Qceiling q).
Definition store (int : bool) (q : Q) : Q := if int then trunc q else q.

(** L195-198, one turn: positions [i] and [i + 1]. *)
Fixpoint adjust_at (int : bool) (d : Q) (i : nat) (l : list Q) : list Q :=
  match l, i with
  | a :: b :: l', O => if Qeq_bool a b then store int (a - d) :: store int (b + d) :: l' else l
  | a :: l', S j => a :: adjust_at int d j l'
  | _, _ => l
  end.
Definition adjust (int : bool) (d : Q) (l : list Q) : list Q :=
  fold_left (fun l i => adjust_at int d i l) (seq 0 (List.length l - 1)) l.

(** [array_equal(l, sorted(l))] and [len(l) == len(set(l))], L199-200. *)
Fixpoint ascending (l : list Q) : bool :=
  match l with
  | a :: (b :: _) as l' => Qle_bool a b && ascending l'
  | _ => true
  end.
Fixpoint distinct (l : list Q) : bool :=
  match l with
  | a :: l' => negb (existsb (Qeq_bool a) l') && distinct l'
  | [] => true
  end.

(** ** The object *)

(** L30, L694-699: the values 0 and 1 of [diffusion_model]; for any other
    value of the class attribute [get_wall_fluxes] raises ValueError (not
    modelled). *)
Inductive dmodel : Type := Diffusive | Combined.

(** Attributes that never change after [__init__], and the four arrays that
    do: [k_r], [v_m], [sigma_sc], [el_en_loss]. *)
Record static : Type := MkStatic {
  s_view : view; s_par : mparams; s_const : constants;
  s_ns : nat; s_nr : nat;
  s_tpow : list Q;                       (* self.t_pow *)
  s_mass : list R;                       (* self.species_mass, [kg] *)
  s_feed : list R;                       (* self.feed_flows *)
  s_partner : list R;                    (* self.col_partner_masses *)
  s_model : dmodel                       (* diffusion_model *)
}.
Record cache : Type := MkCache { k_r : list ext; v_m : list ext; sigma_sc : list (list ext); el_en_loss : list ext }.
Record equations : Type := MkEq { st : static; ca : cache }.

Section Static.
  Variable s : static.
  Let v := s_view s.
  Let K := s_const s.

  Definition charge (i : nat) : Z := zat (v_charge v) i.
  Definition neutral (i : nat) : bool := Z.eqb (charge i) 0.
  Definition positive (i : nat) : bool := Z.ltb 0 (charge i).
  Definition negative (i : nat) : bool := Z.ltb (charge i) 0.
  Definition mass (i : nat) : R := at_ (s_mass s) i.
  Definition stick (i : nat) : R := at_ (v_stick v) i.
  Definition e_lhs (j : nat) : Z := zat (v_e_lhs v) j.
  Definition m_lhs (j : nat) : Z := zat (v_m_lhs v) j.
  Definition e_net (j : nat) : Z := zat (v_e_net v) j.
  Definition net (j i : nat) : Z := mat 0%Z (v_net v) j i.
  Definition lhs (j i : nat) : Z := mat 0%Z (v_lhs v) j i.
  Definition ret (i j : nat) : R := mat 0 (v_ret v) i j.
  (** L217-224: masks *)
  Definition elc (j : nat) : bool := Z.ltb 0 (e_lhs j).
  Definition els (j : nat) : bool := bat (v_elastic v) j.

  Definition temp_g : R := p_temp (s_par s).
  (** L206-214 *)
  Definition volume : R := PI * p_radius (s_par s) ^ 2 * p_length (s_par s).
  Definition area : R := 2 * PI * p_radius (s_par s) * (p_radius (s_par s) + p_length (s_par s)).
  Definition diff_l : R := / sqrt ((PI / p_length (s_par s)) ^ 2 + (2405 / 1000 / p_radius (s_par s)) ^ 2).
  Definition mtorr : R := 133322 / 1000000.

  Definition ns := s_ns s.
  Definition nr := s_nr s.
  Definition species := seq 0 ns.
  Definition reactions := seq 0 nr.

  (** L245-247 *)
  Definition reduced_mass (i k : nat) : R := mass i * mass k / (mass i + mass k).

  (** L250-252 *)
  Definition mean_ion_mass : ext := xmean (map (fun i => X (mass i)) (filter positive species)).
  Definition sheath_voltage_factor : ext :=
    xlog (xsqrt (xdiv mean_ion_mass (X (2 * PI * c_me K)))).

  (** L259-261: coefficients of the reactions without electrons. *)
  Definition heavy_coefficient (j : nat) : ext :=
    xmul (xmul (X (at_ (v_a v) j)) (xpow (X (temp_g / 300)) (at_ (v_b v) j)))
         (xexp (X (- at_ (v_c v) j / temp_g))).
  (** L264-266 *)
  Definition neutral_speed (i : nat) : ext := xsqrt (xdiv (X (8 * c_k K * temp_g)) (X (PI * mass i))).
  (** L160, L269-271: [lj_sigma] in metres. *)
  Definition sigma (i : nat) : R := at_ (v_sigma v) i / 10 ^ 10.
  Definition initial_sigma (i k : nat) : ext :=
    if Nat.eqb i k then X 0
    else if negb (neutral i) && negb (neutral k) then XNaN else X ((sigma i + sigma k) ^ 2).
End Static.

(** ** __init__ (L32-292) *)

(** L279-292: all arrays have the right shapes. Simplification:
    the shapes are checked first (numpy raises its own errors when arrays of
    different lengths are combined before that). *)
Definition shapes_ok (v : view) : bool :=
  let n := List.length (v_names v) in
  let r := List.length (v_a v) in
  forallb (Nat.eqb n) [List.length (v_charge v); List.length (v_mass v); List.length (v_stick v); List.length (v_sigma v);
                       List.length (v_ret v)] &&
  forallb (Nat.eqb r) [List.length (v_b v); List.length (v_c v); List.length (v_loss v); List.length (v_elastic v);
                       List.length (v_e_lhs v); List.length (v_e_net v); List.length (v_m_lhs v);
                       List.length (v_net v); List.length (v_lhs v)] &&
  forallb (fun row => Nat.eqb n (List.length row)) (v_net v) &&
  forallb (fun row => Nat.eqb n (List.length row)) (v_lhs v) &&
  forallb (fun row => Nat.eqb n (List.length row)) (v_ret v).

(** L234-242 col_partner_masses: mass of the first heavy reactant of an
    elastic electron collision. *)
Definition partner_mass (v : view) (masses : list R) (j : nat) : res R :=
  if Z.ltb 0 (zat (v_e_lhs v) j) && bat (v_elastic v) j then
    match filter (fun i => Z.ltb 0 (mat 0%Z (v_lhs v) j i)) (seq 0 (List.length masses)) with
    | i :: _ => Ok (at_ masses i)
    | [] => Err EValue
    end
  else Ok 0.

Definition init_cache (s : static) : cache := {|
  k_r := tab (s_nr s) (fun j => if elc s j then XNaN else heavy_coefficient s j);
  v_m := tab (s_ns s) (fun i => if neutral s i then neutral_speed s i else XNaN);
  sigma_sc := tab (s_ns s) (fun i => tab (s_ns s) (initial_sigma s i));
  el_en_loss := map X (v_loss (s_view s)) |}.

Definition eq_init (K : constants) (model : dmodel) (v : view) (p : mparams) : res equations :=
  let* _ := raise_if (negb (shapes_ok v)) EEquationsConsistency in
  (* L193-202 *)
  let tpow := adjust (p_int p) ((1 # 100000) * p_t_end p) (p_times p) in
  let* _ := raise_if (negb (ascending tpow)) EAssertion in
  let* _ := raise_if (negb (distinct tpow)) EAssertion in
  let* _ := match tpow, rev tpow with
            | t0 :: _, tn :: _ => raise_if (negb (Qle_bool t0 0 && Qle_bool (p_t_end p) tn)) EAssertion
            | _, _ => Err EIndex
            end in
  let masses := map (fun m => m * c_amu K) (v_mass v) in
  let* partners := mapM (partner_mass v masses) (seq 0 (List.length (v_a v))) in
  (* L275-277 *)
  let* _ := raise_if (negb (subsetS (map fst (p_feeds p)) (v_names v))) EEquationsConsistency in
  let s := {| s_view := v; s_par := p; s_const := K;
              s_ns := List.length (v_names v); s_nr := List.length (v_a v);
              s_tpow := tpow; s_mass := masses;
              s_feed := map (fun n => match sget n (p_feeds p) with Some f => f | None => 0 end) (v_names v);
              s_partner := partners; s_model := model |} in
  Ok (MkEq s (init_cache s)).

(** neutral_model.py L48-51 [NeutralEquations.__init__]. *)
Definition neutral_init (K : constants) (model : dmodel) (v : view) (p : mparams) : res equations :=
  let* e := eq_init K model v p in
  let* _ := raise_if (existsb (fun z => negb (Z.eqb z 0)) (v_charge v)) EAssertion in
  Ok e.

(** ** Methods. The state vector [y] is (n_0, .., n_(N-1), rho). *)

(** L296-314 *)
Definition get_density_vector (y : list ext) : list ext := removelast y.
Definition get_electron_energy_density (y : list ext) : ext := last y XNaN.

(** Optional arguments: [opt a f] is [a] if given, else [f]. *)
Definition opt {A} (a : option A) (f : A) : A := match a with Some x => x | None => f end.

(** Methods that update a cached array are functions on the object. *)
Definition M (A : Type) := equations -> equations * A.
Definition ret_ {A} (a : A) : M A := fun e => (e, a).
Definition bindM {A B} (m : M A) (f : A -> M B) : M B := fun e => let (e', a) := m e in f a e'.
Definition optM {A} (a : option A) (m : M A) : M A := match a with Some x => ret_ x | None => m end.
Notation "'do' x <- m ; k" := (bindM m (fun x => k)) (at level 200, x name, m at level 100, k at level 200, right associativity).
Definition asks {A} (f : static -> A) : M A := fun e => (e, f (st e)).

(** L316-328 *)
Definition get_total_density (y : list ext) (n : option (list ext)) : ext :=
  xsum (opt n (get_density_vector y)).
(** L330-342 *)
Definition get_total_pressure (s : static) (y : list ext) (n_tot : option ext) : ext :=
  xmul (X (c_k (s_const s) * temp_g s)) (opt n_tot (get_total_density y None)).
(** L344-362 *)
Definition get_ion_temperature (s : static) (y : list ext) (p : option ext) : ext :=
  let p := opt p (get_total_pressure s y None) in
  let K := s_const s in
  if xltb (X mtorr) p
  then xadd (xdiv (X (1 / 2 * c_e K / c_k K - temp_g s)) (xdiv p (X mtorr))) (X (temp_g s))
  else X (1 / 2 * c_e K / c_k K).
(** L364-376 *)
Definition get_electron_density (s : static) (y : list ext) (n : option (list ext)) : ext :=
  let n := opt n (get_density_vector y) in
  xsum (tab (ns s) (fun i => xmul (xat n i) (X (IZR (charge s i))))).
(** L378-398; Python's [max(a, b)] is [b] if [b > a], else [a]. *)
Definition gas_temp_ev (s : static) : R := temp_g s * c_k (s_const s) / c_e (s_const s).
Definition get_electron_temperature (s : static) (y : list ext) (n_e rho : option ext) : ext :=
  let n_e := opt n_e (get_electron_density s y None) in
  let rho := opt rho (get_electron_energy_density y) in
  let t := xdiv (xmul (xdiv rho n_e) (X 2)) (X 3) in
  if xltb t (X (gas_temp_ev s)) then X (gas_temp_ev s) else t.
(** L400-413 *)
Definition get_debye_length (s : static) (y : list ext) (n_e temp_e : option ext) : ext :=
  let n_e := opt n_e (get_electron_density s y None) in
  let t := opt temp_e (get_electron_temperature s y None None) in
  xsqrt (xdiv (xdiv (xmul (X (c_eps (s_const s))) t) (X (c_e (s_const s)))) n_e).

(** L415-430: updates [self.k_r] and returns it. *)
Definition electron_coefficient (s : static) (t : ext) (j : nat) : ext :=
  xmul (xmul (X (at_ (v_a (s_view s)) j)) (xpow t (at_ (v_b (s_view s)) j)))
       (xexp (xdiv (X (- at_ (v_c (s_view s)) j)) t)).
Definition get_reaction_rate_coefficients (y : list ext) (temp_e : option ext) : M (list ext) := fun e =>
  let s := st e in
  let t := opt temp_e (get_electron_temperature s y None None) in
  let k := tab (nr s) (fun j => if elc s j then electron_coefficient s t j else xat (k_r (ca e)) j) in
  (MkEq s (MkCache k (v_m (ca e)) (sigma_sc (ca e)) (el_en_loss (ca e))), k).

(** L432-459; the exponents are non-negative integers. *)
Definition reactant_product (s : static) (n : list ext) (n_e n_tot : ext) (j : nat) : ext :=
  xprod (xpown n_e (Z.to_nat (e_lhs s j)) ::
         tab (ns s) (fun i => xpown (xat n i) (Z.to_nat (lhs s j i))) ++ [xpown n_tot (Z.to_nat (m_lhs s j))])%list.
Definition get_reaction_rates (y : list ext) (n : option (list ext)) (n_e n_tot : option ext) (k : option (list ext)) : M (list ext) :=
  do k' <- optM k (get_reaction_rate_coefficients y None);
  asks (fun s =>
    let n' := opt n (get_density_vector y) in
    let ne := opt n_e (get_electron_density s y (Some n')) in
    let nt := opt n_tot (get_total_density y (Some n')) in
    tab (nr s) (fun j => xmul (xat k' j) (reactant_product s n' ne nt j))).

(** L461-477 *)
Definition get_volumetric_source_rates (y : list ext) (rates : option (list ext)) : M (list ext) :=
  do r <- optM rates (get_reaction_rates y None None None None);
  asks (fun s => tab (ns s) (fun i => xsum (tab (nr s) (fun j => xmul (X (IZR (net s j i))) (xat r j))))).

(** L479-507 *)
Definition get_flow_source_rates (s : static) (y : list ext) (n : option (list ext)) (p : option ext) : list ext :=
  let n := opt n (get_density_vector y) in
  let p := opt p (get_total_pressure s y None) in
  let p0 := p_pressure (s_par s) in
  let inflow i := xdiv (X (at_ (s_feed s) i * (4485 * 10 ^ 14))) (X (volume s)) in
  let neutrals := xsum (map (xat n) (filter (neutral s) (species s))) in
  tab (ns s) (fun i =>
    let regulation := xdiv (xmul (xmul (xat n i) (X (1 / (1 / 1000)))) (xsub p (X p0))) (X p0) in
    let outflow := xdiv (xmul (xsum (map inflow (species s))) (xat n i)) neutrals in
    if neutral s i then xsub (xadd (xsub (X 0) regulation) (inflow i)) outflow
    else xadd (X 0) (inflow i)).

(** L509-524: updates [self.v_m] and returns it. *)
Definition ion_speed (s : static) (ti : ext) (i : nat) : ext :=
  xsqrt (xdiv (xmul (X (8 * c_k (s_const s))) ti) (X (PI * mass s i))).
Definition get_mean_speeds (y : list ext) (temp_i : option ext) : M (list ext) := fun e =>
  let s := st e in
  let ti := opt temp_i (get_ion_temperature s y None) in
  let v := tab (ns s) (fun i => if neutral s i then xat (v_m (ca e)) i else ion_speed s ti i) in
  (MkEq s (MkCache (k_r (ca e)) v (sigma_sc (ca e)) (el_en_loss (ca e))), v).

(** L526-553: updates [self.sigma_sc] and returns it. *)
Definition closest_approach (s : static) (v : list ext) (i k : nat) : ext :=
  xdiv (X (c_e (s_const s) ^ 2 * Rabs (IZR (charge s i * charge s k)) / (2 * PI * c_eps (s_const s))))
       (xmul (X (reduced_mass s i k)) (xpown (xat v i) 2)).
Definition coulomb_sigma (s : static) (v : list ext) (debye : ext) (i k : nat) : ext :=
  let b := closest_approach s v i k in
  xmul (xmul (X PI) (xpown b 2)) (xlog (xdiv (xmul (X 2) debye) b)).
Definition get_sigma_sc (y : list ext) (v : option (list ext)) (debye : option ext) : M (list (list ext)) :=
  do v' <- optM v (get_mean_speeds y None);
  fun e =>
  let s := st e in
  let d := opt debye (get_debye_length s y None None) in
  let m := tab (ns s) (fun i => tab (ns s) (fun k =>
             if Nat.eqb i k then X 0
             else if negb (neutral s i) && negb (neutral s k) then coulomb_sigma s v' d i k
             else mat XNaN (sigma_sc (ca e)) i k)) in
  (MkEq s (MkCache (k_r (ca e)) (v_m (ca e)) m (el_en_loss (ca e))), m).

(** L555-571 *)
Definition get_mean_free_paths (y : list ext) (n : option (list ext)) (sigma : option (list (list ext))) : M (list ext) :=
  do m <- optM sigma (get_sigma_sc y None None);
  asks (fun s => let n' := opt n (get_density_vector y) in
    tab (ns s) (fun i => xdiv (X 1) (xsum (tab (ns s) (fun k => xmul (xat n' k) (mat XNaN m i k)))))).

(** L573-589 *)
Definition get_free_diffusivities (y : list ext) (mfp v : option (list ext)) : M (list ext) :=
  do l <- optM mfp (get_mean_free_paths y None None);
  do v' <- optM v (get_mean_speeds y None);
  asks (fun s => tab (ns s) (fun i => xmul (xmul (X (PI / 8)) (xat l i)) (xat v' i))).

(** L591-621 *)
Definition get_ambipolar_diffusivity_pos (y : list ext) (n : option (list ext)) (n_e temp_i temp_e : option ext)
           (free : option (list ext)) : M ext :=
  do f <- optM free (get_free_diffusivities y None None);
  asks (fun s =>
    let n := opt n (get_density_vector y) in
    let n_e := opt n_e (get_electron_density s y (Some n)) in
    let ti := opt temp_i (get_ion_temperature s y None) in
    let te := opt temp_e (get_electron_temperature s y (Some n_e) None) in
    let K := s_const s in
    let gamma := xdiv (xdiv (xmul te (X (c_e K))) (X (c_k K))) ti in
    let alpha := xdiv (xsum (map (xat n) (filter (negative s) (species s)))) n_e in
    let d := xmean (map (xat f) (filter (positive s) (species s))) in
    xdiv (xmul d (xadd (X 1) (xmul gamma (xadd (X 1) (xmul (X 2) alpha))))) (xadd (X 1) (xmul alpha gamma))).
(** L624-635 *)
Definition get_ambipolar_diffusivity_neg : ext := X 0.

(** L637-661 *)
Definition get_diffusivities (y : list ext) (free : option (list ext)) (pos neg : option ext) : M (list ext) :=
  do f <- optM free (get_free_diffusivities y None None);
  do a <- optM pos (get_ambipolar_diffusivity_pos y None None None None (Some f));
  asks (fun s => tab (ns s) (fun i =>
    if neutral s i then xat f i else if positive s i then a else opt neg get_ambipolar_diffusivity_neg)).

(** L663-699 *)
Definition wall_flux (s : static) (n d v : ext) (i : nat) : ext :=
  let sc := X (stick s i) in
  let num := xmul (xmul (xopp d) n) sc in
  match s_model s with
  | Diffusive => xdiv (xmul (xdiv num (X (diff_l s ^ 2))) (X (volume s))) (X (area s))
  | Combined => xdiv num (xadd (xmul sc (X (diff_l s))) (xdiv (xmul (X 4) d) v))
  end.
Definition get_wall_fluxes (y : list ext) (n diff v : option (list ext)) : M (list ext) :=
  do d <- optM diff (get_diffusivities y None None None);
  do v' <- optM v (get_mean_speeds y None);
  asks (fun s => let n' := opt n (get_density_vector y) in
    tab (ns s) (fun i => wall_flux s (xat n' i) (xat d i) (xat v' i) i)).

(** L701-714 *)
Definition get_diffusion_sinks (y : list ext) (fluxes : option (list ext)) : M (list ext) :=
  do w <- optM fluxes (get_wall_fluxes y None None None);
  asks (fun s => tab (ns s) (fun i => xdiv (xmul (xat w i) (X (area s))) (X (volume s)))).

(** L716-730 *)
Definition get_diffusion_sources (y : list ext) (sinks : option (list ext)) : M (list ext) :=
  do d <- optM sinks (get_diffusion_sinks y None);
  asks (fun s => tab (ns s) (fun i => xsum (tab (ns s) (fun k => xmul (xopp (xat d k)) (X (ret s i k)))))).

(** L732-750 *)
Definition get_diffusion_source_rates (y : list ext) (sinks sources : option (list ext)) : M (list ext) :=
  do d <- optM sinks (get_diffusion_sinks y None);
  do r <- optM sources (get_diffusion_sources y (Some d));
  asks (fun s => tab (ns s) (fun i => xadd (xat d i) (xat r i))).

(** L752-772 and L937-954: the correction of one value; the recovery time is
    1e-10. *)
Definition correction (x : ext) : ext :=
  if xltb x (X 1) then xdiv (xsub (X 1) x) (X (/ 10 ^ 10)) else X 0.
Definition get_min_n_correction (s : static) (y : list ext) (n : option (list ext)) : list ext :=
  let n := opt n (get_density_vector y) in tab (ns s) (fun i => correction (xat n i)).
Definition get_min_rho_correction (y : list ext) (rho : option ext) : ext :=
  correction (opt rho (get_electron_energy_density y)).

(** L774-800 *)
Definition get_dn_dt (y : list ext) (vol flow diff cor : option (list ext)) : M (list ext) :=
  do a <- optM vol (get_volumetric_source_rates y None);
  do c <- optM diff (get_diffusion_source_rates y None None);
  asks (fun s =>
    let b := opt flow (get_flow_source_rates s y None None) in
    let d := opt cor (get_min_n_correction s y None) in
    tab (ns s) (fun i => xadd (xadd (xadd (xat a i) (xat b i)) (xat c i)) (xat d i))).

(** L802-809: [np.interp]. *)
Definition get_power_ext (s : static) (t : Q) : res Q :=
  let* _ := raise_if (negb (Nat.eqb (List.length (s_tpow s)) (List.length (p_power (s_par s))))) EValue in
  interp t (combine (s_tpow s) (p_power (s_par s))).
(** L811-821 *)
Definition get_drho_dt_ext (s : static) (t : Q) (power : option ext) : res ext :=
  let* p := match power with Some p => Ok p | None => let* q := get_power_ext s t in Ok (X (Q2R q)) end in
  Ok (xdiv (xdiv p (X (volume s))) (X (c_e (s_const s)))).

(** L823-839: updates [self.el_en_loss] and returns it. *)
Definition elastic_loss (s : static) (t : ext) (j : nat) : ext :=
  xmul (xdiv (X (3 * c_me (s_const s))) (X (at_ (s_partner s) j))) (xsub t (X (gas_temp_ev s))).
Definition get_el_en_losses (y : list ext) (temp_e : option ext) : M (list ext) := fun e =>
  let s := st e in
  let t := opt temp_e (get_electron_temperature s y None None) in
  let l := tab (nr s) (fun j => if elc s j && els s j then elastic_loss s t j else xat (el_en_loss (ca e)) j) in
  (MkEq s (MkCache (k_r (ca e)) (v_m (ca e)) (sigma_sc (ca e)) l), l).

(** L841-859 *)
Definition get_drho_dt_el_inel (y : list ext) (losses rates : option (list ext)) : M ext :=
  do l <- optM losses (get_el_en_losses y None);
  do r <- optM rates (get_reaction_rates y None None None None);
  asks (fun s => xsum (map (fun j => xmul (xat l j) (xat r j)) (filter (elc s) (reactions s)))).

(** L861-878 *)
Definition get_drho_dt_gain_loss (y : list ext) (temp_e : option ext) (rates : option (list ext)) : M ext :=
  do r <- optM rates (get_reaction_rates y None None None None);
  asks (fun s =>
    let t := opt temp_e (get_electron_temperature s y None None) in
    xmul (xmul (X (3 / 2)) t) (xsum (tab (nr s) (fun j => xmul (X (IZR (e_net s j))) (xat r j))))).

(** L880-898 *)
Definition get_drho_dt_el_walls (y : list ext) (temp_e : option ext) (diff : option (list ext)) : M ext :=
  do d <- optM diff (get_diffusion_source_rates y None None);
  asks (fun s =>
    let t := opt temp_e (get_electron_temperature s y None None) in
    xmul (xmul (X (-2)) t) (xsum (tab (ns s) (fun i => xmul (X (IZR (charge s i))) (xat d i))))).

(** L900-911 *)
Definition get_sheath_voltage (s : static) (y : list ext) (temp_e : option ext) : ext :=
  xmul (opt temp_e (get_electron_temperature s y None None)) (sheath_voltage_factor s).

(** L913-935 *)
Definition get_drho_dt_ions_walls (y : list ext) (temp_e sh_pot : option ext) (diff : option (list ext)) : M ext :=
  do d <- optM diff (get_diffusion_source_rates y None None);
  asks (fun s =>
    let t := opt temp_e (get_electron_temperature s y None None) in
    let sh := opt sh_pot (get_sheath_voltage s y None) in
    let ions := filter (positive s) (species s) in
    xsub (xmul (xmul (X (- (1 / 2))) t) (xsum (map (xat d) ions)))
         (xmul sh (xsum (map (fun i => xmul (X (IZR (charge s i))) (xat d i)) ions)))).

(** L956-990; an exception of the power interpolation ends the call. *)
Definition get_drho_dt (t : Q) (y : list ext) (ext_ el_inel gain_loss el_walls ions_walls cor : option ext) : M (res ext) := fun e =>
  match (match ext_ with Some x => Ok x | None => get_drho_dt_ext (st e) t None end) with
  | Err x => (e, Err x)
  | Ok p =>
      (do a <- optM el_inel (get_drho_dt_el_inel y None None);
       do b <- optM gain_loss (get_drho_dt_gain_loss y None None);
       do c <- optM el_walls (get_drho_dt_el_walls y None None);
       do d <- optM ions_walls (get_drho_dt_ions_walls y None None None);
       ret_ (Ok (xadd (xsub (xsub (xsub (xsub p a) b) c) d) (opt cor (get_min_rho_correction y None))))) e
  end.

(** L992-1008 *)
Definition get_dy_dt (t : Q) (y : list ext) (dn : option (list ext)) (drho : option ext) : M (res (list ext)) :=
  do a <- optM dn (get_dn_dt y None None None None);
  do r <- match drho with Some x => ret_ (Ok x) | None => get_drho_dt t y None None None None None None end;
  ret_ (let* b := r in Ok (a ++ [b])%list).

(** L1024-1069 [obj_function] *)
Definition obj_function (t : Q) (y : list ext) : M (res (list ext)) := fun e =>
  let s := st e in
  let n := get_density_vector y in
  let rho := get_electron_energy_density y in
  let n_tot := get_total_density y (Some n) in
  let p := get_total_pressure s y (Some n_tot) in
  let temp_i := get_ion_temperature s y (Some p) in
  let n_e := get_electron_density s y (Some n) in
  let temp_e := get_electron_temperature s y (Some n_e) (Some rho) in
  let debye := get_debye_length s y (Some n_e) (Some temp_e) in
  (do k <- get_reaction_rate_coefficients y (Some temp_e);
   do rates <- get_reaction_rates y (Some n) (Some n_e) (Some n_tot) (Some k);
   do source_vol <- get_volumetric_source_rates y (Some rates);
   let source_flow := get_flow_source_rates s y (Some n) (Some p) in
   do v <- get_mean_speeds y (Some temp_i);
   do sigma <- get_sigma_sc y (Some v) (Some debye);
   do mfp <- get_mean_free_paths y (Some n) (Some sigma);
   do free <- get_free_diffusivities y (Some mfp) (Some v);
   do pos <- get_ambipolar_diffusivity_pos y (Some n) (Some n_e) (Some temp_i) (Some temp_e) (Some free);
   let neg := get_ambipolar_diffusivity_neg in
   do diff <- get_diffusivities y (Some free) (Some pos) (Some neg);
   do fluxes <- get_wall_fluxes y (Some n) (Some diff) (Some v);
   do sinks <- get_diffusion_sinks y (Some fluxes);
   do sources <- get_diffusion_sources y (Some sinks);
   do source_diff <- get_diffusion_source_rates y (Some sinks) (Some sources);
   let cor := get_min_n_correction s y (Some n) in
   do dn <- get_dn_dt y (Some source_vol) (Some source_flow) (Some source_diff) (Some cor);
   match get_power_ext s t with
   | Err x => ret_ (Err x)
   | Ok q =>
     match get_drho_dt_ext s t (Some (X (Q2R q))) with
     | Err x => ret_ (Err x)
     | Ok ext_ =>
       do losses <- get_el_en_losses y (Some temp_e);
       do el_inel <- get_drho_dt_el_inel y (Some losses) (Some rates);
       do gain_loss <- get_drho_dt_gain_loss y (Some temp_e) (Some rates);
       do el_walls <- get_drho_dt_el_walls y (Some temp_e) (Some source_diff);
       let sh := get_sheath_voltage s y (Some temp_e) in
       do ions_walls <- get_drho_dt_ions_walls y (Some temp_e) (Some sh) (Some source_diff);
       let cor_rho := get_min_rho_correction y (Some rho) in
       do drho <- get_drho_dt t y (Some ext_) (Some el_inel) (Some gain_loss) (Some el_walls) (Some ions_walls) (Some cor_rho);
       match drho with
       | Err x => ret_ (Err x)
       | Ok x => get_dy_dt t y (Some dn) (Some x)
       end
     end
   end) e.
