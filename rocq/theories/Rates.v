(** Model of the reporting of process rates, pygmo_fwork/results.py L292-411
    (class ResultsParser). Values are real numbers; rows with infinite or NaN
    values are not modelled. The argument [annotate] only changes the labels
    of the returned series and is not modelled. *)
From Coq Require Import Reals Qreals.
From Verif Require Import Base Species Reactions Chemistry ExtReal Equations Views.

(** [set(l) == set(m)]. *)
Definition same_setZ (l m : list Z) : bool :=
  forallb (fun z => memZ z m) l && forallb (fun z => memZ z l) m.
Definition same_setS (l m : list string) : bool := subsetS l m && subsetS m l.

(** One row of the table of rates: labelled by the reaction id, or by 't'
    ([None]). *)
Definition rates_row : Type := list (option Z * R).
Definition row_ids (row : rates_row) : list Z :=
  flat_map (fun kv => match fst kv with Some z => [z] | None => [] end) row.
(** [rates_frame.loc[i]] for a label that occurs once. *)
Fixpoint row_get (i : Z) (row : rates_row) : res R :=
  match row with
  | [] => Err EKey
  | (Some z, x) :: l => if z =? i then Ok x else row_get i l
  | (None, _) :: l => row_get i l
  end.

(** [sort_values(ascending=False)] (the order of equal values is not
    specified; any is correct for the statements below). *)
Fixpoint put_desc (x : Z * R) (l : list (Z * R)) : list (Z * R) :=
  match l with
  | [] => [x]
  | y :: l' => if Rle_dec (snd y) (snd x) then x :: l else y :: put_desc x l'
  end.
Definition sort_desc (l : list (Z * R)) : list (Z * R) := fold_right put_desc [] l.

(** L318-349 [get_volumetric_rates]; L332 and L304, L310-312 are the checks.
    A disabled species has no column in the matrix: KeyError in L336. *)
Definition get_volumetric_rates (c : chem) (a : ref) (row : rates_row) : res (list (Z * R)) :=
  let* _ := get_rp c a in
  let* _ := raise_if (negb (same_setZ (map rx_id (get_reactions c false)) (row_ids row))) EAssertion in
  let* s := get_rp c a in
  let m := get_stoichiomatrix c false true Net in
  let* _ := raise_if (negb (memZ (sp_id s) (map sp_id (get_species c false true true)))) EKey in
  let* column := mapM (fun r => match zget (sp_id s) (snd r) with
                                | Some n => Ok (fst r, n)
                                | None => Err EKey
                                end) m in
  let vector := filter (fun kv => negb (snd kv =? 0)) column in
  let* rates := mapM (fun kv => let* x := row_get (fst kv) row in Ok (fst kv, IZR (snd kv) * x)%R) vector in
  Ok (sort_desc rates).

(** One row of the table of wall fluxes: labelled by names, or by 't'. *)
Definition flux_row : Type := list (string * R).

Definition nonzero (x : R) : bool := if Req_EM_T x 0 then false else true.

(** L351-411 [get_surface_rates]. *)
Definition get_surface_rates (c : chem) (a : ref) (radius length : R) (row : flux_row)
  : res (list (Z * R)) :=
  let* _ := get_rp c a in
  let labels := filter (fun n => negb (String.eqb n "t")) (map fst row) in
  let* _ := raise_if (negb (same_setS (map snd (get_species_name c false false true)) labels)) EAssertion in
  let* s := get_rp c a in
  if sp_special s then Ok []                                            (* L369-372 *)
  else
    let* m := get_return_matrix c false in
    let area := (2 * PI * radius * (radius + length))%R in
    let volume := (PI * radius ^ 2 * length)%R in
    (* L380-383 *)
    let fluxes := filter (fun kv => negb (String.eqb (fst kv) "t")) row in
    let* ids := mapM (fun kv => let* t := get_rp c (RName (fst kv)) in Ok (sp_id t)) fluxes in
    (* L386-387 *)
    let* _ := raise_if (negb (listZ_eqb ids (rm_rows m) && listZ_eqb (rm_rows m) (rm_cols m))) EAssertion in
    (* L390-394 *)
    let sticking := combine ids (map (fun kv => snd kv * area / volume)%R fluxes) in
    let* _ := raise_if (negb (memZ (sp_id s) (rm_rows m))) EKey in
    (* L397: the row of the species *)
    let* entries := mapM (fun kv =>
        let* f := real (rm_get m (sp_id s) (fst kv)) in
        Ok (fst kv, ((if fst kv =? sp_id s then snd kv else 0) + - (f * snd kv))%R)) sticking in
    Ok (filter (fun kv => nonzero (snd kv)) entries).                   (* L398 *)
