(** Model of plaschem/reactions.py L264-345 and L377-397: methods of [Reaction]
    that only read it (names, ion processes, the HPEM text, the rate
    coefficient at a temperature). *)
From Coq Require Import Reals Qreals.
From Verif Require Import Base Species Reactions ExtReal.

(** L278-284: first occurrences, in order. *)
Fixpoint first_seen (seen l : list string) : list string :=
  match l with
  | [] => []
  | a :: l' => if memS a seen then first_seen seen l' else a :: first_seen (a :: seen) l'
  end.

(** The argument [method] of the two methods below; any other value raises. *)
Inductive which := WLhs | WRhs | WAll | WOther.

(** L264-284 [get_rp_names_set]. *)
Definition get_rp_names_set (r : reaction) (m : which) : res (list string) :=
  match m with
  | WLhs => let* ns := names_of (r_lhs r) in Ok (first_seen [] ns)
  | WRhs => let* ns := names_of (r_rhs r) in Ok (first_seen [] ns)
  | WAll => let* ls := names_of (r_lhs r) in let* rs := names_of (r_rhs r) in Ok (first_seen [] (ls ++ rs))
  | WOther => Err EReactionValue
  end.

(** L315-320 [is_ion_process]: the truth of the charges, None being false. *)
Fixpoint is_ion_process_of (E : env) (l : list rp) : res bool :=
  match l with
  | [] => Ok false
  | p :: l' =>
      let* sp := is_special p in
      if sp then is_ion_process_of E l'
      else let* q := get_charge E p in
           let* rest := is_ion_process_of E l' in
           Ok ((match q with Some z => negb (Z.eqb z 0) | None => false end) || rest)
  end.
Definition is_ion_process (E : env) (r : reaction) : res bool := is_ion_process_of E (r_lhs r).

(** L322-331 [is_elastic_process]. *)
Definition is_elastic_process (r : reaction) : res bool := get_elastic r.

(** L333-345 [get_hpem_string]; joining a None is a TypeError. *)
Definition hpem_side (l : list rp) : res string :=
  let* ns := mapM (fun p => match get_hpem_name p with Some n => Ok n | None => Err EType end) l in
  Ok (str_join " + " ns).
Definition get_hpem_string (backward : bool) (r : reaction) : res string :=
  let* ls := hpem_side (if backward then r_rhs r else r_lhs r) in
  let* rs := hpem_side (if backward then r_lhs r else r_rhs r) in
  Ok (ls ++ " > " ++ rs)%string.

(** Numbers of getters as floats of the equations. *)
Definition xof (f : flt) : ext :=
  match f with Fin q => X (Q2R q) | PInf => XInf | NInf => XMInf | NaN => XNaN end.

(** [x ** b], also for special values of [b]. *)
Definition xpowf (x : ext) (b : flt) : ext :=
  let one := X 1 in
  let large (up : bool) :=
    match xabs x with
    | XNaN => XNaN
    | ax => if xltb ax one then (if up then X 0 else XInf)
            else if xltb one ax then (if up then XInf else X 0) else one
    end in
  match b with
  | Fin q => xpow x (Q2R q)
  | PInf => large true
  | NInf => large false
  | NaN => match x with X a => if Req_EM_T a 1 then one else XNaN | _ => XNaN end
  end.

(** L377-397 [get_rate_coefficient].  Simplification: [temp] is a positive
    number or a numpy float (for a Python float 0 the division raises, for a
    negative one the power may be complex).  A missing exponent cannot be
    computed with (a TypeError). *)
Definition get_rate_coefficient (E : env) (si : bool) (r : reaction) (temp : ext) : res ext :=
  let* a := get_arrh_a E si r in
  match a with
  | None => Err EReactionValue
  | Some a =>
      let* b := get_arrh_bc E "arrh_b" r in
      let* c := get_arrh_bc E "arrh_c" r in
      let* el := is_electron_process r in
      match b, c with
      | Some b, Some c =>
          let base := if el then temp else xdiv temp (X 300) in
          Ok (xmul (xmul (xof a) (xpowf base b)) (xexp (xdiv (xopp (xof c)) temp)))
      | _, _ => Err EType
      end
  end.
