(** Floating-point numbers as extended reals: a real number, an infinity or
    NaN, with the IEEE rules for the special values. Rounding, overflow and
    the sign of zero are not modelled (a division by zero has the sign of the
    numerator). *)
From Coq Require Import Reals List ZArith Lra.
Import ListNotations.
Open Scope R_scope.

Inductive ext : Type := X (r : R) | XInf | XMInf | XNaN.

(** Sign of a real number. *)
Definition Rsgn (a : R) : comparison := if Rlt_dec a 0 then Lt else if Rlt_dec 0 a then Gt else Eq.

Definition xopp (x : ext) : ext :=
  match x with X a => X (- a) | XInf => XMInf | XMInf => XInf | XNaN => XNaN end.

Definition xadd (x y : ext) : ext :=
  match x, y with
  | X a, X b => X (a + b)
  | XNaN, _ | _, XNaN | XInf, XMInf | XMInf, XInf => XNaN
  | XInf, _ | _, XInf => XInf
  | XMInf, _ | _, XMInf => XMInf
  end.
Definition xsub (x y : ext) : ext := xadd x (xopp y).

Definition by_sign (c : comparison) (lt eq gt : ext) : ext :=
  match c with Lt => lt | Eq => eq | Gt => gt end.

Definition xmul (x y : ext) : ext :=
  match x, y with
  | X a, X b => X (a * b)
  | XNaN, _ | _, XNaN => XNaN
  | X a, XInf | XInf, X a => by_sign (Rsgn a) XMInf XNaN XInf
  | X a, XMInf | XMInf, X a => by_sign (Rsgn a) XInf XNaN XMInf
  | XInf, XInf | XMInf, XMInf => XInf
  | XInf, XMInf | XMInf, XInf => XMInf
  end.

Definition xdiv (x y : ext) : ext :=
  match x, y with
  | XNaN, _ | _, XNaN => XNaN
  | X a, X b => if Req_EM_T b 0 then by_sign (Rsgn a) XMInf XNaN XInf else X (a / b)
  | X _, XInf | X _, XMInf => X 0
  | XInf, X b => by_sign (Rsgn b) XMInf XInf XInf
  | XMInf, X b => by_sign (Rsgn b) XInf XMInf XMInf
  | _, _ => XNaN
  end.

Definition xabs (x : ext) : ext :=
  match x with X a => X (Rabs a) | XInf | XMInf => XInf | XNaN => XNaN end.

(** Comparisons with NaN are false. *)
Definition xltb (x y : ext) : bool :=
  match x, y with
  | X a, X b => if Rlt_dec a b then true else false
  | XMInf, X _ | XMInf, XInf | X _, XInf => true
  | _, _ => false
  end.

(** [np.e ** x] *)
Definition xexp (x : ext) : ext :=
  match x with X a => X (exp a) | XInf => XInf | XMInf => X 0 | XNaN => XNaN end.

(** [np.log(x)] *)
Definition xlog (x : ext) : ext :=
  match x with
  | X a => by_sign (Rsgn a) XNaN XMInf (X (ln a))
  | XInf => XInf
  | XMInf | XNaN => XNaN
  end.

(** [x ** 0.5] *)
Definition xsqrt (x : ext) : ext :=
  match x with
  | X a => if Rlt_dec a 0 then XNaN else X (sqrt a)
  | XInf | XMInf => XInf
  | XNaN => XNaN
  end.

(** [x ** k] for an integer [k >= 0] *)
Definition xpown (x : ext) (k : nat) : ext :=
  match k with
  | O => X 1
  | _ => match x with
         | X a => X (a ^ k)
         | XInf => XInf
         | XMInf => if Nat.even k then XInf else XMInf
         | XNaN => XNaN
         end
  end.

(** [x ** b] for a float [b] *)
Definition is_int (b : R) : bool := if Req_EM_T b (IZR (Int_part b)) then true else false.
Definition xpow (x : ext) (b : R) : ext :=
  match Rsgn b with
  | Eq => X 1
  | s =>
      match x with
      | X a => match Rsgn a with
               | Gt => X (Rpower a b)
               | Eq => match s with Gt => X 0 | _ => XInf end
               | Lt => if is_int b then X (powerRZ a (Int_part b)) else XNaN
               end
      | XInf => match s with Gt => XInf | _ => X 0 end
      | XMInf => match s with
                 | Gt => if is_int b && Z.odd (Int_part b) then XMInf else XInf
                 | _ => X 0
                 end
      | XNaN => XNaN
      end
  end%bool.

(** [np.sum], [np.prod] of one-dimensional arrays. *)
Definition xsum (l : list ext) : ext := fold_left xadd l (X 0).
Definition xprod (l : list ext) : ext := fold_left xmul l (X 1).

(** [l.mean()]: NaN for an empty array. *)
Definition xmean (l : list ext) : ext :=
  match l with [] => XNaN | _ => xdiv (xsum l) (X (INR (List.length l))) end.
