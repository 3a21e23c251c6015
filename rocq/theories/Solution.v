(** Model of the reported solution of pygmo_fwork/pygmol/model.py:
    [_post_process] (L208-227), [diagnose] for one number (L244-259),
    [_y0_from_init_params] (L130-149) and [_validate_y0] (L151-165) over the
    numbers of Equations.v, and of the results kept by a Model object
    (L167-206, L268-345). *)
From Verif Require Import Base Chemistry Morris MorrisStats InitialGuess Tables ExtReal Equations Neutral.
From Coq Require Import Reals Qreals.
Open Scope R_scope.

(** The class of the equations: Equations or NeutralEquations. *)
Inductive eqclass : Type := General | NeutralOnly.

Definition report_density (cl : eqclass) (s : static) (y : list ext) : ext :=
  match cl with General => get_electron_density s y None | NeutralOnly => n_electron_density y end.
Definition report_temperature (cl : eqclass) (s : static) (y : list ext) : ext :=
  match cl with General => get_electron_temperature s y None None | NeutralOnly => n_electron_temperature y end.

(** L244-252: the label of the only column of a diagnosed number. It is
    'value' unless one of the numbers it is compared with happens to be 1. *)
Definition labelled_value (s : static) : bool :=
  negb (Nat.eqb (s_ns s) 1) && negb (Nat.eqb (s_nr s) 1) && negb (Nat.eqb (s_ns s + 1) 1).

(** L208-225, one row of the frame: the columns in the order in which they
    are created; assigning to an existing column overwrites it. *)
Definition frame_row (cl : eqclass) (s : static) (names : list string) (t : ext) (y : list ext) : list (string * ext) :=
  let r := combine names (get_density_vector y) in
  let r := sset "e"%string (report_density cl s y) r in
  let r := sset "Te"%string (report_temperature cl s y) r in
  let r := sset "Tg"%string (X (temp_g s)) r in
  let r := sset "p"%string (get_total_pressure s y None) r in
  sset "t"%string t r.

(** L227: [frame[['t'] + list(frame.columns[:-1])]]. *)
Definition rearrange (r : list (string * ext)) : res (list (string * ext)) :=
  mapM (fun c => match sget c r with Some x => Ok (c, x) | None => Err EKey end) ("t"%string :: removelast (map fst r)).

(** L208-227. The species of the chemistry are those of the equations,
    which are built anew at the beginning of each run; [names] are the names
    in the chemistry. *)
Definition post_process (cl : eqclass) (s : static) (names : list string) (sol : list (ext * list ext)) : res (list (list (string * ext))) :=
  let* _ := raise_if (negb (labelled_value s)) EKey in
  mapM (fun ty => rearrange (frame_row cl s names (fst ty) (snd ty))) sol.

(** L130-149 [_y0_from_init_params] with densities given: [names] and
    [charges] as in the chemistry. *)
Definition restart (names : list string) (charges : list Z) (te : ext) (init_n : list (string * ext)) : res (list ext) :=
  let* _ := raise_if (negb (same_names (map fst init_n) names)) EInitialSolution in
  let* ns := mapM (fun n => match sget n init_n with Some x => Ok x | None => Err EKey end) names in
  let n_e := xsum (map (fun p => xmul (fst p) (X (IZR (snd p)))) (combine ns charges)) in
  Ok (ns ++ [xmul (xmul (X (3 / 2)) n_e) te])%list.

(** [a <= b] *)
Definition xleb (x y : ext) : bool :=
  match x, y with XNaN, _ | _, XNaN => false | _, _ => negb (xltb y x) end.

(** L151-165 [_validate_y0] *)
Definition validate (names : list string) (charges : list Z) (y0 : list ext) : res unit :=
  let* _ := raise_if (negb (Nat.eqb (List.length y0) (List.length names + 1))) EInitialSolution in
  raise_if (xleb (xsum (map (fun p => xmul (fst p) (X (IZR (snd p)))) (combine (removelast y0) charges))) (X 0)) EInitialSolution.

(** ** The Model object *)

(** [self.equations], [self.sol_raw.success], [self.t] with
    [self.sol_primary], [self.sol_secondary]. *)
Record backend : Type := MkBackend {
  bk_eq : equations;
  bk_success : option bool;
  bk_primary : option (list (ext * list ext));
  bk_secondary : option (list (list (string * ext)))
}.

(** What the world supplies to a run: the equations built from the chemistry
    and the parameters (or the exception of the constructor), the names and
    charges in the chemistry, and the outcome of [solve_ivp]: a ValueError or
    a flag and the time steps. *)
Inductive outcome : Type := SolverValueError | SolverDone (ok : bool) (sol : list (ext * list ext)).
Record setting : Type := MkSetting {
  se_eq : res equations; se_names : list string; se_charges : list Z; se_out : outcome
}.

(** L175-199 [_solve] from the start vector on. *)
Definition solve (cl : eqclass) (w : setting) (y0 : list ext) (b : backend) : backend * res unit :=
  match se_eq w with
  | Err x => (b, Err x)
  | Ok e =>
    let b1 := MkBackend e (bk_success b) (bk_primary b) (bk_secondary b) in
    match validate (se_names w) (se_charges w) y0 with
    | Err x => (b1, Err x)
    | Ok _ =>
      match se_out w with
      | SolverValueError => (b1, Err EModelSolution)
      | SolverDone ok sol =>
        let b2 := MkBackend e (Some ok) (Some sol) (bk_secondary b) in
        match post_process cl (st e) (se_names w) sol with
        | Err x => (b2, Err x)
        | Ok rows => (MkBackend e (Some ok) (Some sol) (Some rows), Ok tt)
        end
      end
    end
  end.

(** L279-292 [run] with densities given. *)
Definition run (cl : eqclass) (w : setting) (te : ext) (init_n : list (string * ext)) (b : backend) : backend * res unit :=
  match restart (se_names w) (se_charges w) te init_n with
  | Err x => (b, Err x)
  | Ok y0 =>
    let (b', r) := solve cl w y0 b in
    match r with
    | Err x => (b', Err x)
    | Ok _ => match bk_success b' with
              | Some true => (b', Ok tt)
              | _ => (b', Err EModelSolution)
              end
    end
  end.

(** L294-308 [success], [get_solution]; [None.copy()] and [None.success]
    are AttributeErrors. *)
Definition bk_succeeded (b : backend) : res bool := match bk_success b with Some x => Ok x | None => Err EAttribute end.
Definition bk_solution (b : backend) : res (list (list (string * ext))) :=
  match bk_primary b with
  | None => Err EModelSolution
  | Some _ => match bk_secondary b with Some t => Ok t | None => Err EAttribute end
  end.

(** L317-326 [get_rates]: the values of [diagnose('reaction_rates')], each
    row copied. *)
Fixpoint mapMM {A B} (f : A -> M B) (l : list A) : M (list B) :=
  match l with
  | [] => ret_ []
  | a :: l' => do b <- f a; do r <- mapMM f l'; ret_ (b :: r)
  end.
Definition bk_rates (cl : eqclass) (b : backend) : res (list (list ext)) :=
  match bk_primary b with
  | None => Err EModelSolution
  | Some sol => Ok (snd (mapMM (fun ty => match cl with
                                          | General => get_reaction_rates (snd ty) None None None None
                                          | NeutralOnly => n_rates (snd ty) None None None None
                                          end) sol (bk_eq b)))
  end.
