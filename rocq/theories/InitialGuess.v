(** Model of the initial conditions of a run:
    pygmo_fwork/global_model.py L81-141 [generate_initial_n],
    [validate_initial_n] and pygmo_fwork/pygmol/model.py L89-170 [_build_y0],
    [_y0_from_init_params], [_validate_y0]. Numbers are exact and finite. *)
From Verif Require Import Base Chemistry Morris MorrisStats.
Open Scope Q_scope.

(** The entries of model_params used here: gas temperature in K, pressure in
    Pa, feed flows by species name; [kB] is [scipy.constants.k]. *)
Record gparams : Type := MkGp { gp_temp : Q; gp_press : Q; gp_feeds : list (string * Q); gp_tend : Q }.

(** scipy.constants.k (2019 SI). *)
Definition kB : Q := 1380649 # 100000000000000000000000000000.

(** [chemistry.get_species_name()], [chemistry.get_species_charge()]: the
    enabled heavy species. A charge that is not set makes the comparison
    [charges < 0] fail. *)
Definition heavy (c : chem) : res (list (string * Z)) :=
  mapM (fun s => match sp_charge s with Some z => Ok (sp_name s, z) | None => Err EType end)
       (get_species c false false true).

(** [feeds_dict[sp] if sp in feeds_dict else 0.]. *)
Definition feed_of (feeds : list (string * Q)) (n : string) : Q :=
  match sget n feeds with Some q => q | None => 0 end.

Definition zsum (l : list Z) : Z := fold_right Z.add 0%Z l.
Definition zlen {A} (l : list A) : Q := inject_Z (Z.of_nat (List.length l)).

(** [charges[charges > 0]], [charges[charges < 0]]. *)
Definition pos_charges (l : list (string * Z)) : list Z := filter (fun q => (0 <? q)%Z) (map snd l).
Definition neg_charges (l : list (string * Z)) : list Z := filter (fun q => (q <? 0)%Z) (map snd l).
Definition neutrals (l : list (string * Z)) : list (string * Z) := filter (fun s => (snd s =? 0)%Z) l.

(** The fractions passed by the caller. *)
Record fractions : Type := MkFr { fr_ion : Q; fr_neg : Q; fr_non : Q }.
Definition default_fractions : fractions :=
  MkFr (1 # 1000000000000000) (1 # 1000000000000000) (1 # 1000000000000000).

Section Densities.
  Variables (l : list (string * Z)) (feeds : list (string * Q)) (n_tot : Q) (fr : fractions).

  Definition feed_sum : Q := qsum (map (fun s => feed_of feeds (fst s)) l).
  Definition n_el : Q := n_tot * fr_ion fr.
  Definition n_neg_ions : Q := n_tot * inject_Z (- zsum (neg_charges l)) * fr_neg fr.

  (** global_model.py L105-111: the densities before the residual is handed
      out; [np.zeros] elsewhere. *)
  Definition n_start (s : string * Z) : Q :=
    if (0 <? snd s)%Z then (n_neg_ions + n_el) / inject_Z (zsum (pos_charges l))
    else if (snd s <? 0)%Z then - n_neg_ions / inject_Z (zsum (neg_charges l))
    else if Qeq_bool (feed_of feeds (fst s)) 0 then n_tot * fr_non fr else 0.

  (** L113-119. *)
  Definition n_zero (s : string * Z) : Q :=
    if Qltb 0 feed_sum then
      if Qltb 0 (feed_of feeds (fst s))
      then feed_of feeds (fst s) / feed_sum * (n_tot - qsum (map n_start l))
      else n_start s
    else if (snd s =? 0)%Z
      then (n_tot - qsum (map n_start (filter (fun s => negb (snd s =? 0)%Z) l))) / zlen (neutrals l)
      else n_start s.

  (** The division by [sum(charges[charges > 0])]: without any ion both
      operands are Python numbers and it raises ZeroDivisionError; with
      negative ions only, numpy yields an infinity that is not assigned to
      anything. *)
  Definition densities : res (list Q) :=
    let* _ := raise_if (match pos_charges l, neg_charges l with [], [] => true | _, _ => false end) EZeroDivision in
    Ok (map n_zero l).
End Densities.

(** global_model.py L127-141 [validate_initial_n]; [init_n] is a dict. *)
Definition validate_initial_n (c : chem) (init_n : list (string * Q)) : res unit :=
  let* l := heavy c in
  let* _ := raise_if (negb (subsetS (map fst init_n) (map fst l) && subsetS (map fst l) (map fst init_n))) EInitialGuess in
  let* ds := mapM (fun s => match sget (fst s) init_n with Some q => Ok (inject_Z (snd s) * q) | None => Err EKey end) l in
  raise_if (negb (Qltb 0 (qsum ds))) EInitialGuess.

Definition total_density (p : gparams) : Q := gp_press p / (kB * gp_temp p).

(** global_model.py L81-125 [generate_initial_n]. *)
Definition generate_initial_n (c : chem) (p : gparams) (fr : fractions) : res (list (string * Q)) :=
  let* l := heavy c in
  let* ds := densities l (gp_feeds p) (total_density p) fr in
  let init_n := supdate [] (combine (map fst l) ds) in
  let* _ := validate_initial_n c init_n in
  Ok init_n.

(** model.py L89-128 [_build_y0]: the densities and the electron energy
    density. *)
Definition build_y0 (c : chem) (p : gparams) (el_temp : Q) (fr : fractions) : res (list Q * Q) :=
  let* l := heavy c in
  let* ds := densities l (gp_feeds p) (total_density p) fr in
  Ok (ds, (3 # 2) * n_el (total_density p) fr * el_temp).

(** [list(sorted(a)) == list(sorted(b))] on lists of names. *)
Definition same_names (a b : list string) : bool :=
  forallb (fun n => Nat.eqb (count_occ string_dec a n) (count_occ string_dec b n)) (a ++ b)%list.

(** model.py L130-149 [_y0_from_init_params]. *)
Definition y0_from_init_params (c : chem) (p : gparams) (el_temp : Q) (init_n : option (list (string * Q))) : res (list Q * Q) :=
  match init_n with
  | None => build_y0 c p el_temp default_fractions
  | Some d =>
      let* l := heavy c in
      let* _ := raise_if (negb (same_names (map fst d) (map fst l))) EInitialSolution in
      let* ns := mapM (fun s => match sget (fst s) d with Some q => Ok q | None => Err EKey end) l in
      Ok (ns, (3 # 2) * qsum (map (fun sn => inject_Z (snd (fst sn)) * snd sn) (combine l ns)) * el_temp)
  end.

(** model.py L151-170 [_validate_y0]; the dimension is [num_species() + 1]. *)
Definition validate_y0 (c : chem) (y0 : list Q * Q) : res unit :=
  let* l := heavy c in
  let* _ := raise_if (negb (Nat.eqb (List.length (fst y0)) (List.length l))) EInitialSolution in
  raise_if (Qle_bool (qsum (map (fun sn => inject_Z (snd (fst sn)) * snd sn) (combine l (fst y0)))) 0) EInitialSolution.
