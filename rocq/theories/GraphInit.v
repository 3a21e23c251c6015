(** Model of pygmo_fwork/optichem/graph.py L297-379: the constructor of
    ChemistryGraph with its consistency checks.

    The frame of the rates is [Workspace.frame] (labels are the string 't' or
    ids of reactions), the frame of the wall fluxes is [Tables.table] (labels
    are strings). Simplifications: the row labels of a frame are distinct
    (L328 aligns the fluxes by row label), numbers are exact and finite, an
    infinite return coefficient is outside the model (the properties name
    the value of finite ones only). *)
From Verif Require Import Base Species Reactions Chemistry Graph ChemGraph Tables Workspace.

Definition listb {A} (eqb : A -> A -> bool) : list A -> list A -> bool :=
  fix go l m := match l, m with
                | [], [] => true
                | x :: l', y :: m' => eqb x y && go l' m'
                | _, _ => false
                end.

Definition label_eqb (a b : label) : bool :=
  match a, b with
  | LName x, LName y => String.eqb x y
  | LId x, LId y => x =? y
  | _, _ => false
  end.
Definition is_t (l : label) : bool := label_eqb l (LName "t").

(** [frame['t']]: the column, or (more than one column of that name) a frame,
    which iterates over its labels. *)
Definition column_t (n : nat) (vals : list Q) : res (list Q + nat) :=
  match n with
  | O => Err EKey
  | 1%nat => Ok (inl vals)
  | S (S _) => Ok (inr n)
  end.
Definition rates_t (f : frame) : res (list Q + nat) :=
  column_t (List.length (filter is_t (fr_cols f)))
    (flat_map (fun r => map snd (filter (fun x => is_t (fst x)) (combine (fr_cols f) (snd r)))) (fr_rows f)).
Definition fluxes_t (f : table) : res (list Q + nat) :=
  column_t (List.length (filter (String.eqb "t") (tb_cols f))) (map (fun r => snd r "t") (tb_rows f)).
Definition same_t (a b : list Q + nat) : bool :=
  match a, b with
  | inl x, inl y => listb Qeq_bool x y
  | inr n, inr m => Nat.eqb n m
  | _, _ => false
  end.

(** plaschem/chemistry.py L844-866 [get_return_matrix(special=True)] before
    the special species are masked ... *)
Definition return_matrix_all (c : chem) : res rmatrix :=
  let rc := get_species_ret_coefs c false true true in
  rm_fill c rc {| rm_rows := map fst rc; rm_cols := map fst rc; rm_entries := [] |}.
(** ... and L867-869: their rows and columns become NaN. *)
Definition ret_entry (m : rmatrix) (s u : sp) : flt :=
  if sp_special s || sp_special u then NaN else rm_get m (sp_id s) (sp_id u).

(** [.fillna(0.)] *)
Definition filled (f : flt) : Q := match f with Fin q => q | _ => 0%Q end.

(** graph.py L340-379 [assert_input_consistency] *)
Definition assert_input_consistency (c : chem) (rates : frame) (fluxes : table) : res unit :=
  let lhs := get_stoichiomatrix c false true Lhs in
  let rhs := get_stoichiomatrix c false true Rhs in
  let sids := map sp_id (get_species c false true true) in
  let rids := map rx_id (get_reactions c false) in
  let* a := rates_t rates in
  let* b := fluxes_t fluxes in
  let* _ := raise_if (negb (same_t a b)) EGraphInit in
  let* _ := raise_if (negb (forallb (fun r => listb Z.eqb (map fst (snd r)) sids) lhs)) EGraphInit in
  let* _ := raise_if (negb (forallb (fun r => listb Z.eqb (map fst (snd r)) sids) rhs)) EGraphInit in
  let* _ := raise_if (negb (listb Z.eqb (map fst lhs) rids)) EGraphInit in
  let* _ := raise_if (negb (listb Z.eqb (map fst rhs) rids)) EGraphInit in
  let* _ := raise_if (negb (listb label_eqb (fr_cols rates) (LName "t" :: map LId rids))) EGraphInit in
  let* _ := raise_if (negb (listb String.eqb (tb_cols fluxes)
                               ("t" :: map snd (get_species_name c false false true)))) EGraphInit in
  let* m := return_matrix_all c in
  let* _ := raise_if (negb (listb Z.eqb (rm_rows m) sids)) EGraphInit in
  let* _ := raise_if (negb (listb Z.eqb (rm_cols m) sids)) EGraphInit in
  raise_if (negb (listb Z.eqb (map fst (get_species_stick_coef c false true true)) sids)) EGraphInit.

Definition param (par : list (string * Q)) (k : string) : res Q :=
  match sget k par with Some q => Ok q | None => Err EKey end.

(** The special species of the chemistry, enabled or not
    (plaschem/chemistry.py L329-334). *)
Definition special_species (c : chem) : list sp := filter sp_special (c_species c).

(** graph.py L309-338. L325 [drop(columns='t').values]; L327-330: the columns
    of the fluxes are written into a frame of zeros. *)
Definition cgraph_init (c : chem) (par : list (string * Q)) (rates : frame) (fluxes : table) : res cgraph :=
  let* _ := assert_input_consistency c rates fluxes in
  let* r := param par "radius" in
  let* z := param par "length" in
  let sps := get_species c false true true in
  let* m := return_matrix_all c in
  let lhs := get_stoichiomatrix c false true Lhs in
  let rhs := get_stoichiomatrix c false true Rhs in
  let cell (mat : list (Z * list (Z * Z))) (j a : nat) :=
    match nth_error mat j with
    | Some row => match nth_error (snd row) a with Some x => snd x | None => 0%Z end
    | None => 0%Z
    end in
  let rate (t j : nat) :=
    match nth_error (fr_rows rates) t with
    | Some row => nth j (map snd (filter (fun x => negb (is_t (fst x))) (combine (fr_cols rates) (snd row)))) 0%Q
    | None => 0%Q
    end in
  let flux (t b : nat) :=
    match nth_error (tb_rows fluxes) t, nth_error sps b with
    | Some row, Some s => if memS (sp_name s) (tb_cols fluxes) then snd row (sp_name s) else 0%Q
    | _, _ => 0%Q
    end in
  let ret (a b : nat) :=
    match nth_error sps a, nth_error sps b with
    | Some s, Some u => filled (ret_entry m s u)
    | _, _ => 0%Q
    end in
  Ok {| cg_species := map snd (get_species_name c false true true);
        cg_special := map sp_name (special_species c);
        cg_reactions := List.length (get_reactions c false);
        cg_times := flat_map (fun row => map snd (filter (fun x => is_t (fst x)) (combine (fr_cols rates) (snd row))))
                             (fr_rows rates);
        cg_radius := r;
        cg_length := z;
        cg_ret := ret;
        cg_rate := rate;
        cg_flux := flux;
        cg_lhs := cell lhs;
        cg_rhs := cell rhs |}.
