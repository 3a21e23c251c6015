(** Model of pygmo_fwork/optichem/morris.py: design of the trajectories,
    mapping of factors onto coefficients, book-keeping of a Morris run and
    evaluation of the logged trajectories. *)
From Coq Require Import Qround Qabs.
From Verif Require Import Base Species Reactions Chemistry.

(** ** The grid *)

(** Rounding to an integer, ties to even ([np.round]). *)
Definition half_even (q : Q) : Z :=
  let f := Qfloor q in
  match (q - inject_Z f ?= 1 # 2)%Q with
  | Lt => f
  | Gt => f + 1
  | Eq => if Z.even f then f else f + 1
  end.

(** [np.round(q, decimals)] with [scale = 10^decimals]. *)
Definition qround (scale : BinNums.positive) (q : Q) : Q := half_even (q * inject_Z (Zpos scale)) # scale.

(** [np.round(q, decimals=5)]. *)
Definition round5 : Q -> Q := qround 100000.

Definition Qltb (a b : Q) : bool := negb (Qle_bool b a).

(** A MorrisMethod instance, as far as the design is concerned
    (morris.py L75-80). *)
Record morris : Type := MkMorris { mm_delta : Q; mm_density : Z; mm_grid : list Q }.

(** [np.arange(0., 1.0, 1.0 / density)]: exact arithmetic, hence exactly
    [density] points. *)
Definition arange01 (density : Z) : list Q :=
  map (fun k => inject_Z (Z.of_nat k) * (1 / inject_Z density))%Q (seq 0 (Z.to_nat density)).

(** morris.py L77-100 [__init__], with the two settings as arguments (the
    code fixes them to 0.5 and 10 and validates them "for the case if the
    above settings are ever made parameters"). *)
Definition morris_init (delta : Q) (density : Z) : res morris :=
  let* _ := raise_if (density =? 0) EZeroDivision in                           (* L79: 1.0 / 0 *)
  let cell := (1 / inject_Z density)%Q in
  let grid := map (fun a => round5 (cell / 2 + a))%Q (arange01 density) in     (* L79-80 *)
  let* _ := raise_if (Qle_bool delta 0) EMorrisInputs in                       (* L83 *)
  let* _ := raise_if (density <=? 0) EMorrisInputs in                          (* L85 *)
  let* _ := raise_if (negb (forallb (fun g => Qltb (g + delta) 1 || Qltb 0 (g - delta))%Q grid))
                     EMorrisInputs in                                          (* L88 *)
  let cells := qround 10000000000 (delta / cell) in                            (* L92: round(.., 10) *)
  let* _ := raise_if (negb (Qeq_bool cells (inject_Z (Z.quot (Qnum cells) (Zpos (Qden cells))))))
                     EMorrisInputs in
  Ok (MkMorris delta density grid).

(** The settings of the code, L77-78. *)
Definition morris_default : res morris := morris_init (1 # 2) 10.

(** ** Trajectories *)

Fixpoint Qmin_list (a : Q) (l : list Q) : Q :=
  match l with [] => a | b :: l' => Qmin_list (if Qltb b a then b else a) l' end.

(** morris.py L115-128 [_get_seed_x]; [min] of an empty grid raises. *)
Definition get_seed_x (m : morris) (x_cont : list Q) : res (list Q) :=
  mapM (fun val =>
    let deltas := map (fun g => Qabs (g - val))%Q (mm_grid m) in
    match deltas with
    | [] => Err EValue
    | d :: ds =>
        let min_delta := Qmin_list d ds in
        match find (fun g => Qeq_bool (Qabs (g - val)) min_delta) (mm_grid m) with
        | Some g => Ok g
        | None => Err EIndex
        end
    end) x_cont.

Fixpoint set_nth {A} (i : nat) (v : A) (l : list A) : list A :=
  match l, i with
  | [], _ => []
  | _ :: l', O => v :: l'
  | a :: l', S j => a :: set_nth j v l'
  end.

(** morris.py L155-166, the generator after its checks. [perm] is the result
    of [np.random.permutation(np.arange(num_factors))]; [flip j] tells whether
    the [j]-th call of [np.random.permutation([-delta, delta])] swaps. The
    yielded triples are collected; an exception ends them. *)
Fixpoint traj_steps (m : morris) (flip : nat -> bool) (j : nat) (perm : list nat) (x : list Q)
  : list (nat * Q * list Q) * res unit :=
  match perm with
  | [] => ([], Ok tt)
  | i :: perm' =>
      match nth_error x i with
      | None => ([], Err EIndex)
      | Some xi =>
          let deltas := if flip j then [mm_delta m; - mm_delta m]%Q else [- mm_delta m; mm_delta m]%Q in
          match find (fun d => Qltb 0 (xi + d) && Qltb (xi + d) 1)%Q (map round5 deltas) with
          | None => ([], Err EMorrisTrajectory)
          | Some d =>
              let x' := set_nth i (round5 (xi + d)) x in
              let (l, r) := traj_steps m flip (S j) perm' x' in
              ((i, d, x') :: l, r)
          end
      end
  end.

(** morris.py L136-166 [_trajectory]. *)
Definition trajectory (m : morris) (perm : list nat) (flip : nat -> bool) (seed : list Q)
  : list (nat * Q * list Q) * res unit :=
  if Nat.ltb (List.length seed) 2 then ([], Err EMorrisInputs)
  else if negb (forallb (fun v => existsb (Qeq_bool v) (mm_grid m)) seed) then ([], Err EMorrisInputs)
  else traj_steps m flip 0 perm seed.

(** ** Factors to coefficients *)

(** np.ndarray or pd.Series of floats: values and, for a Series, its index. *)
Record vec (K : Type) : Type := MkVec { v_index : option (list K); v_vals : list Q }.
Arguments MkVec {K}. Arguments v_index {K}. Arguments v_vals {K}.

Fixpoint zipmul (a b : list Q) : list Q :=
  match a, b with x :: a', y :: b' => (x * y)%Q :: zipmul a' b' | _, _ => [] end.

(** morris.py L169-195 [_map_reactions_factors_to_k]: [2*nominal_k * x]. The
    result carries the index of [nominal_k], or that of [x]. *)
Definition map_reactions_factors (x nominal : vec Z) : res (vec Z) :=
  let* _ := raise_if (negb (Nat.eqb (List.length (v_vals x)) (List.length (v_vals nominal)))) EMorrisInputs in
  let* _ := match v_index x, v_index nominal with
            | Some a, Some b => raise_if (negb (listZ_eqb a b)) EMorrisInputs
            | _, _ => Ok tt
            end in
  Ok (MkVec (match v_index nominal with Some b => Some b | None => v_index x end)
            (zipmul (map (fun k => 2 * k)%Q (v_vals nominal)) (v_vals x))).

(** Entry of [stoichiomatrix_lhs + stoichiomatrix_rhs] cast to bool, L219-222. *)
Definition involved (r : rx) (s : sp) : bool :=
  negb (stoich_entry Lhs r (sp_id s) + stoich_entry Rhs r (sp_id s) =? 0).

(** L240-241: multiply the entries of [new_k] of the reactions involving one
    species. *)
Definition scale_involved (rs : list rx) (s : sp) (f : Q) (k : list Q) : list Q :=
  map (fun rk => if involved (fst rk) s then (snd rk * f)%Q else snd rk) (combine rs k).

(** morris.py L197-243 [_map_species_factors_to_k] (the copy check of L216
    aside). *)
Definition map_species_factors (c : chem) (x nominal : vec Z) : res (vec Z) :=
  let rs := get_reactions c false in
  let ss := get_species c false false true in
  let* _ := match v_index x with
            | Some a => raise_if (negb (listZ_eqb a (map sp_id ss))) EMorrisInputs | None => Ok tt end in
  let* _ := match v_index nominal with
            | Some a => raise_if (negb (listZ_eqb a (map rx_id rs))) EMorrisInputs | None => Ok tt end in
  let* _ := raise_if (negb (Nat.eqb (List.length (v_vals x)) (List.length ss))) EMorrisInputs in
  let* _ := raise_if (negb (Nat.eqb (List.length (v_vals nominal)) (List.length rs))) EMorrisInputs in
  Ok (MkVec (v_index nominal)
        (fold_left (fun k sx => scale_involved rs (fst sx) (2 * snd sx)%Q k)
                   (combine ss (v_vals x)) (v_vals nominal))).

(** L559-560, L567-568: write the new coefficients into the chemistry. *)
Fixpoint load_arrh (c : chem) (l : list (Z * Q)) : chem * res unit :=
  match l with
  | [] => (c, Ok tt)
  | (i, k) :: l' =>
      match set_adhoc_reactions c "arrh_a" i (VFlt (Fin k)) with
      | (c', Ok tt) => load_arrh c' l'
      | (c', Err e) => (c', Err e)
      end
  end.

Inductive traj_type := TReactions | TSpecies.

(** One evaluation of a trajectory of type 'species' or 'reactions'
    (L555-568 for the first vector, L652-659 for the later ones). *)
Definition apply_factors (ty : traj_type) (nominal : vec Z) (c : chem) (x : list Q) : chem * res unit :=
  match (match ty with
         | TReactions => map_reactions_factors (MkVec None x) nominal
         | TSpecies => map_species_factors c (MkVec None x) nominal
         end) with
  | Err e => (c, Err e)
  | Ok v => match v_index v with
            | Some ids => load_arrh c (combine ids (v_vals v))
            | None => (c, Err EType)
            end
  end.

(** L553-568, L649-659: the states of the chemistry on which the back-end is
    run, one per factor vector, starting from the private copy [c]. *)
Fixpoint apply_all (ty : traj_type) (nominal : vec Z) (c : chem) (xs : list (list Q)) : list chem * res unit :=
  match xs with
  | [] => ([], Ok tt)
  | x :: xs' =>
      match apply_factors ty nominal c x with
      | (c', Ok tt) => let (l, r) := apply_all ty nominal c' xs' in (c' :: l, r)
      | (_, Err e) => ([], Err e)
      end
  end.

(** L553-554: the nominal values, a Series of floats. A coefficient that is
    not a finite number is outside the model. *)
Definition nominal_values (c : chem) : res (vec Z) :=
  let* l := get_reactions_arrh_a c false false in
  let* vals := mapM (fun kv => match snd kv with
                               | SFlt (Fin q) | SNp (Fin q) => Ok q
                               | SInt z => Ok (inject_Z z)
                               | _ => Err EType end) l in
  Ok (MkVec (Some (map fst l)) vals).

(** ** Return coefficients *)

Definition fneg (x : flt) : flt :=
  match x with Fin q => Fin (- q) | PInf => NInf | NInf => PInf | NaN => NaN end.
Definition fadd (x y : flt) : flt :=
  match x, y with
  | NaN, _ | _, NaN | PInf, NInf | NInf, PInf => NaN
  | Fin a, Fin b => Fin (a + b)
  | PInf, _ | _, PInf => PInf
  | NInf, _ | _, NInf => NInf
  end.
Definition fsub (x y : flt) : flt := fadd x (fneg y).

(** [x > 0] for an element of the sticking coefficients. *)
Definition scalar_pos (x : scalar) : res bool :=
  match x with
  | SBool b => Ok b
  | SInt z => Ok (0 <? z)
  | SFlt f | SNp f => Ok (fltb fzero f)
  | SNone | SStr _ => Err EType
  end.

(** [df.at[i, j]]. *)
Definition rm_at (m : rmatrix) (i j : Z) : res flt :=
  if memZ i (rm_rows m) && memZ j (rm_cols m) then Ok (rm_get m i j) else Err EKey.

(** morris.py L245-329 [_map_a_factor_to_ret_coef]. [pw] is the float power
    [rel_range ** exponent]. *)
Definition map_ret_coef (pw : Q -> Q -> Q) (E : env) (c : chem) (x_i : Q) (stuck ret : ref) (nominal : flt)
  (rel_range : Q) : chem * res (flt * flt) :=
  match (let* _ := raise_if (Qle_bool rel_range 1) EMorrisInputs in
         let* s := get_rp c stuck in
         let* t := get_rp c ret in
         let* _ := raise_if (sp_special s || sp_special t) EMorrisInputs in
         let* _ := raise_if (negb (fltb fzero nominal)) EMorrisInputs in
         let* _ := raise_if (sp_id s =? sp_id t) EMorrisInputs in
         let* stick := match zget (sp_id s) (get_species_stick_coef c false false true) with
                       | Some v => Ok v | None => Err EKey end in
         let* rm := get_return_matrix c false in
         let* orig := rm_at rm (sp_id t) (sp_id s) in
         let* orig_self := rm_at rm (sp_id s) (sp_id s) in
         let* _ := raise_if (negb (Qle_bool 0 x_i && Qle_bool x_i 1)) EAssertion in
         let new := fmul nominal (Fin (pw rel_range (2 * x_i - 1)%Q)) in
         let* pos := scalar_pos stick in
         let* _ := raise_if (negb pos) EMorrisInputs in
         let new_self := fsub orig_self (fsub new orig) in
         let* _ := raise_if (fltb new_self fzero) EMorrisInputs in
         let* d := match zget (sp_id s) (get_species_ret_coefs c false false true) with
                   | Some (Some d) => Ok d
                   | Some None => Err EAttribute
                   | None => Err EKey end in
         Ok (s, supdate d [(sp_name t, new); (sp_name s, new_self)], (new, new_self)))
  with
  | Err e => (c, Err e)
  | Ok (s, d, out) =>
      match set_adhoc_species E c "ret_coefs" (RObj (sp_uid s)) (VDict (map (fun nf => (fst nf, SFlt (snd nf))) d)) with
      | (c', Ok tt) => (c', Ok out)
      | (c', Err e) => (c', Err e)
      end
  end.
