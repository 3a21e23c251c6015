(** From RP and Reaction objects to the chemistry, and from the chemistry to
    the arrays of the rate equations. *)
From Coq Require Import Reals Qreals.
From Verif Require Import Base Species Reactions Chemistry ExtReal Equations.

(** What the getters of one RP return (plaschem/species.py L228-287,
    L343-383). *)
Definition view_rp (E : env) (r : rp) : res sp :=
  let* n := get_name r in
  let* c := get_charge E r in
  let* m := get_mass E r in
  let* k := get_stick_coef E r in
  let* d := get_ret_coefs E r in
  Ok {| sp_uid := rp_uid r; sp_id := rp_id r; sp_name := n; sp_charge := c; sp_mass := m;
        sp_stick := k; sp_ret := d |}.

(** What the getters of one Reaction return (plaschem/reactions.py L475-555,
    L641-652). *)
Definition view_reaction (E : env) (r : reaction) : res rx :=
  let* ls := mapM (view_rp E) (r_lhs r) in
  let* rs := mapM (view_rp E) (r_rhs r) in
  let* a := get_arrh_a E false r in
  let* u := rx_get_unit r "arrh_a" in
  let* b := get_arrh_bc E "arrh_b" r in
  let* c := get_arrh_bc E "arrh_c" r in
  let* l := get_rx_float E "el_en_loss" r in
  let* g := get_rx_float E "gas_heat_contrib" r in
  let* el := get_elastic r in
  Ok {| rx_id := r_id r; rx_lhs := ls; rx_rhs := rs; rx_arrh_a := a; rx_unit := u;
        rx_arrh_b := b; rx_arrh_c := c; rx_el_en_loss := l; rx_gas_heat := g; rx_elastic := el |}.

(** ** The arrays read by [Equations.__init__] *)

(** Entries of the arrays as real numbers. Simplification: chemistries with
    infinite, NaN or non-numeric data have no arrays in the model. *)
Definition real (f : flt) : res R := match f with Fin q => Ok (Q2R q) | _ => Err EValue end.
Definition real_opt (o : option flt) : res R := match o with Some f => real f | None => Err EType end.
Definition real_sc (x : scalar) : res R :=
  match x with
  | SFlt f | SNp f => real f
  | SInt z => Ok (IZR z)
  | SBool b => Ok (if b then 1%R else 0%R)
  | _ => Err EType
  end.
Definition int_opt (o : option Z) : res Z := match o with Some z => Ok z | None => Err EType end.

(** plaschem/chemistry.py L690-698 [get_species_lj_sigma], at one species:
    asks the RP object. *)
Definition lj_sigma_of (E : env) (objs : list rp) (s : sp) : res R :=
  match find (fun p => Nat.eqb (rp_uid p) (sp_uid s)) objs with
  | Some p => let* o := get_lj_sigma E p in real_opt o
  | None => Err EKey
  end.

(** pygmo_fwork/pygmol/equations.py L156-177 and L224: the getters are called
    with their default arguments (enabled, ordinary, protected or not; SI
    units). *)
Definition view_of (E : env) (objs : list rp) (c : chem) : res view :=
  let heavy := get_species c false false true in
  let active := get_reactions c false in
  let* charge := mapM (fun kv => int_opt (snd kv)) (get_species_charge c false false true) in
  let* mass := mapM (fun kv => real_opt (snd kv)) (get_species_mass c false false true) in
  let* sig := mapM (lj_sigma_of E objs) heavy in
  let* stick := mapM (fun kv => real_sc (snd kv)) (get_species_stick_coef c false false true) in
  let* arrh := get_reactions_arrh_a c false true in
  let* a := mapM (fun kv => real_sc (snd kv)) arrh in
  let* b := mapM (fun kv => real_opt (snd kv)) (by_reaction rx_arrh_b c false) in
  let* cc := mapM (fun kv => real_opt (snd kv)) (by_reaction rx_arrh_c c false) in
  let* loss := mapM (fun kv => real (snd kv)) (by_reaction rx_el_en_loss c false) in
  let* e_net := get_stoich_electron c false Net in
  let* e_lhs := get_stoich_electron c false Lhs in
  let* m := get_return_matrix c false in
  let* ret := mapM (fun i => mapM (fun j => real (rm_get m i j)) (rm_cols m)) (rm_rows m) in
  Ok {| v_names := map snd (get_species_name c false false true);
        v_charge := charge; v_mass := mass; v_sigma := sig; v_stick := stick;
        v_a := a; v_b := b; v_c := cc; v_loss := loss;
        v_elastic := map snd (by_reaction rx_elastic c false);
        v_e_net := map snd e_net; v_e_lhs := map snd e_lhs;
        v_m_lhs := map snd (get_stoich_arbitrary c false Lhs);
        v_ret := ret;
        v_net := map (fun row => map snd (snd row)) (get_stoichiomatrix c false false Net);
        v_lhs := map (fun row => map snd (snd row)) (get_stoichiomatrix c false false Lhs) |}.
