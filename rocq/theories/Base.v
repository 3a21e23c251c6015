(** Shared vocabulary of the model: exceptions as values, Python scalars,
    insertion-ordered dictionaries / pandas Series as association lists, and
    the few list and string helpers the Python code relies on.
    Nothing here models a particular function of /repo; every definition is a
    reading of a Python (or pandas) primitive. *)
From Coq Require Export List Bool ZArith QArith String Ascii Lia.
Export ListNotations.
Open Scope string_scope.
Open Scope Z_scope.
Open Scope list_scope.

(** ** Exceptions *)

(** The exception classes of plaschem/exceptions.py,
    pygmo_fwork/exceptions.py, pygmo_fwork/optichem/exceptions.py and
    pygmo_fwork/pygmol/exceptions.py, plus the Python built-in ones that can
    escape the modelled functions. [EFuel] is not a Python exception: it is
    the value returned by fuelled loops when the fuel runs out, and the
    theorems show or require that it does not occur. *)
Inductive exn : Type :=
| ERPInit | ERPAttr
| EReactionInit | EReactionAttr | EReactionValue
| EChemInit | EChemAttr | EChemConsistency | ESpeciesNotPresent
| EReactionNotPresent | EChemDisable
| EXml
| EType | EKey | EValue | EIndex | EAttribute | EAssertion | ENotImplemented | EZeroDivision
| EInitialGuess | EGlobalModelAttr | EBackendNoRun | EBackendUnsuccessful | EGlobalModelLog
| EConfig | EResultsAttr | EResultsNotFound
| EMorrisTrajectory | EMorrisInputs | EMorrisLog | EMorrisCoherence
| EReductionInit | EReductionRun | EGraphInit
| EInitialSolution | EModelInit | EModelSolution
| EModelParams | EModelParamsType | EModelParamsConsistency | EEquationsConsistency
| EInterrupt
| EOS | EYaml
| EFuel.

Inductive res (A : Type) : Type :=
| Ok (a : A)
| Err (e : exn).
Arguments Ok {A} a.
Arguments Err {A} e.

Definition bind {A B} (r : res A) (f : A -> res B) : res B :=
  match r with Ok a => f a | Err e => Err e end.

Notation "'let*' x := e1 'in' e2" := (bind e1 (fun x => e2))
  (at level 200, x pattern, e1 at level 100, e2 at level 200, right associativity).

Definition is_ok {A} (r : res A) : bool := match r with Ok _ => true | Err _ => false end.

(** Evaluate [f] on every element left to right, stopping at the first
    exception (a Python list comprehension). *)
Fixpoint mapM {A B} (f : A -> res B) (l : list A) : res (list B) :=
  match l with
  | [] => Ok []
  | a :: l' => let* b := f a in let* bs := mapM f l' in Ok (b :: bs)
  end.

(** [if c: raise e] *)
Definition raise_if (c : bool) (e : exn) : res unit := if c then Err e else Ok tt.

(** ** Python scalars *)

(** Floats are exact rationals plus the special values; IEEE rounding is not
    modelled. *)
Inductive flt : Type := Fin (q : Q) | PInf | NInf | NaN.

Definition fzero : flt := Fin 0.
Definition fone : flt := Fin 1.

(** Python [x == y] on floats. *)
Definition feqb (x y : flt) : bool :=
  match x, y with
  | Fin a, Fin b => Qeq_bool a b
  | PInf, PInf => true
  | NInf, NInf => true
  | _, _ => false
  end.

(** Python [x < y] on floats. *)
Definition fltb (x y : flt) : bool :=
  match x, y with
  | Fin a, Fin b => negb (Qle_bool b a)
  | NInf, Fin _ | NInf, PInf | Fin _, PInf => true
  | _, _ => false
  end.

Definition Qsign (q : Q) : Z := Z.sgn (Qnum q).

(** Python [x * y] on floats. *)
Definition fmul (x y : flt) : flt :=
  match x, y with
  | Fin a, Fin b => Fin (a * b)
  | NaN, _ | _, NaN => NaN
  | Fin a, PInf | PInf, Fin a =>
      if Qsign a =? 0 then NaN else if Qsign a >? 0 then PInf else NInf
  | Fin a, NInf | NInf, Fin a =>
      if Qsign a =? 0 then NaN else if Qsign a >? 0 then NInf else PInf
  | PInf, PInf | NInf, NInf => PInf
  | PInf, NInf | NInf, PInf => NInf
  end.

Definition is_nan (x : flt) : bool := match x with NaN => true | _ => false end.

Inductive scalar : Type :=
| SNone
| SBool (b : bool)
| SInt (z : Z)
| SFlt (f : flt)          (* float *)
| SNp (f : flt)           (* numpy.float64 *)
| SStr (s : string).

Inductive pyval : Type :=
| VSc (s : scalar)
| VDict (d : list (string * scalar))
| VOther.                 (* any value of a type not listed above *)

Definition VNone : pyval := VSc SNone.
Definition VStr (s : string) : pyval := VSc (SStr s).
Definition VInt (z : Z) : pyval := VSc (SInt z).
Definition VFlt (f : flt) : pyval := VSc (SFlt f).

(** Python types, as returned by [type(value)]. *)
Inductive pytype : Type := TNone | TBool | TInt | TFlt | TNp | TStr | TDict | TOther.

Definition type_of (v : pyval) : pytype :=
  match v with
  | VSc SNone => TNone
  | VSc (SBool _) => TBool
  | VSc (SInt _) => TInt
  | VSc (SFlt _) => TFlt
  | VSc (SNp _) => TNp
  | VSc (SStr _) => TStr
  | VDict _ => TDict
  | VOther => TOther
  end.

Definition pytype_eqb (a b : pytype) : bool :=
  match a, b with
  | TNone, TNone | TBool, TBool | TInt, TInt | TFlt, TFlt | TNp, TNp
  | TStr, TStr | TDict, TDict | TOther, TOther => true
  | _, _ => false
  end.

Definition type_in (v : pyval) (ts : list pytype) : bool :=
  existsb (pytype_eqb (type_of v)) ts.

Definition is_none (v : pyval) : bool :=
  match v with VSc SNone => true | _ => false end.

(** What the model does not compute itself: Python's string/number
    conversions, pyvalem's formula parser.  Every definition that needs one
    takes the record as an argument; assumptions about it are premises of the
    theorems. *)
Record env : Type := Env {
  fparse : string -> option flt;          (* float(s); None = ValueError *)
  iparse : string -> option Z;            (* int(s); None = ValueError *)
  fshow : flt -> string;                  (* str(float) *)
  ishow : Z -> string;                    (* str(int) *)
  formula_atoms : string -> res (list (string * Z))
                                          (* dict(pyvalem Formula(s).atom_stoich) *)
}.

(** Python [float(x)]. *)
Definition py_float (E : env) (x : scalar) : res flt :=
  match x with
  | SNone => Err EType
  | SBool b => Ok (Fin (if b then 1 else 0))
  | SInt z => Ok (Fin (inject_Z z))
  | SFlt f | SNp f => Ok f
  | SStr s => match fparse E s with Some f => Ok f | None => Err EValue end
  end.

Definition py_float_v (E : env) (v : pyval) : res flt :=
  match v with
  | VSc s => py_float E s
  | _ => Err EType
  end.

(** Python [int(x)], only for the value types that reach it (int and str). *)
Definition py_int_v (E : env) (v : pyval) : res Z :=
  match v with
  | VSc (SInt z) => Ok z
  | VSc (SBool b) => Ok (if b then 1 else 0)
  | VSc (SStr s) => match iparse E s with Some z => Ok z | None => Err EValue end
  | _ => Err EType
  end.

(** ** Membership, sets *)

Definition memZ (x : Z) (l : list Z) : bool := existsb (Z.eqb x) l.
Definition memS (x : string) (l : list string) : bool := existsb (String.eqb x) l.
Definition memN (x : nat) (l : list nat) : bool := existsb (Nat.eqb x) l.

Definition subsetS (l m : list string) : bool := forallb (fun x => memS x m) l.

(** [len(l) == len(set(l))] *)
Fixpoint nodupZb (l : list Z) : bool :=
  match l with [] => true | x :: l' => negb (memZ x l') && nodupZb l' end.
Fixpoint nodupSb (l : list string) : bool :=
  match l with [] => true | x :: l' => negb (memS x l') && nodupSb l' end.

(** Elements in order of first occurrence, without repetitions
    ([sorted(set(l), key=l.index)]). *)
Fixpoint odedup_from {A} (eqb : A -> A -> bool) (seen l : list A) : list A :=
  match l with
  | [] => []
  | x :: l' => if existsb (eqb x) seen then odedup_from eqb seen l'
               else x :: odedup_from eqb (x :: seen) l'
  end.
Definition odedupZ (l : list Z) : list Z := odedup_from Z.eqb [] l.
Definition odedupS (l : list string) : list string := odedup_from String.eqb [] l.

(** ** Association lists (dict / OrderedDict / pd.Series) *)

Section Assoc.
  Context {K V : Type} (eqb : K -> K -> bool).

  (** [d[k]] / [s.at[k]] *)
  Fixpoint aget (k : K) (d : list (K * V)) : option V :=
    match d with
    | [] => None
    | (k', v) :: d' => if eqb k k' then Some v else aget k d'
    end.

  (** [d[k] = v] / [s.at[k] = v]: replaces in place or appends. *)
  Fixpoint aset (k : K) (v : V) (d : list (K * V)) : list (K * V) :=
    match d with
    | [] => [(k, v)]
    | (k', v') :: d' => if eqb k k' then (k, v) :: d' else (k', v') :: aset k v d'
    end.

  Definition akeys (d : list (K * V)) : list K := map fst d.
  Definition ahas (k : K) (d : list (K * V)) : bool := existsb (eqb k) (akeys d).
End Assoc.

Notation zget := (aget Z.eqb).
Notation zset := (aset Z.eqb).
Notation zhas := (ahas Z.eqb).
Notation sget := (aget String.eqb).
Notation sset := (aset String.eqb).
Notation shas := (ahas String.eqb).

(** [d.update(e)] *)
Definition supdate {V} (d e : list (string * V)) : list (string * V) :=
  fold_left (fun acc kv => sset (fst kv) (snd kv) acc) e d.

(** ** Strings *)

(** [sep.join(l)] *)
Fixpoint str_join (sep : string) (l : list string) : string :=
  match l with
  | [] => ""
  | [x] => x
  | x :: l' => (x ++ sep ++ str_join sep l')%string
  end.

Fixpoint str_of (l : list ascii) : string :=
  match l with [] => EmptyString | c :: l' => String c (str_of l') end.
Fixpoint chars (s : string) : list ascii :=
  match s with EmptyString => [] | String c s' => c :: chars s' end.

Fixpoint prefixb (p s : list ascii) : bool :=
  match p, s with
  | [], _ => true
  | c :: p', d :: s' => Ascii.eqb c d && prefixb p' s'
  | _ :: _, [] => false
  end.

(** [s.endswith(t)] *)
Definition endswith (s t : string) : bool := prefixb (rev (chars t)) (rev (chars s)).

(** Python's ASCII whitespace, as removed by [str.strip()]. *)
Definition is_space (c : ascii) : bool :=
  let n := nat_of_ascii c in
  (Nat.leb 9 n && Nat.leb n 13) || (Nat.leb 28 n && Nat.leb n 32).

Fixpoint lstrip_l (p : ascii -> bool) (l : list ascii) : list ascii :=
  match l with
  | c :: l' => if p c then lstrip_l p l' else l
  | [] => []
  end.
Definition rstrip_l (p : ascii -> bool) (l : list ascii) : list ascii :=
  rev (lstrip_l p (rev l)).
(** [s.strip()] *)
Definition str_strip (s : string) : string :=
  str_of (rstrip_l is_space (lstrip_l is_space (chars s))).

(** [s.split(sep)] for a non-empty [sep]: scan left to right; [cur] is the
    reversed current piece, [skip] the number of separator characters still
    to be consumed. *)
Fixpoint split_l (sep : list ascii) (skip : nat) (cur l : list ascii) : list (list ascii) :=
  match l with
  | [] => [rev cur]
  | c :: l' =>
      match skip with
      | S k => split_l sep k cur l'
      | O => if prefixb sep l then rev cur :: split_l sep (pred (List.length sep)) [] l'
             else split_l sep 0 (c :: cur) l'
      end
  end.
Definition str_split (sep s : string) : list string :=
  map str_of (split_l (chars sep) 0 [] (chars s)).

(** Character test [c in s]. *)
Definition has_char (c : ascii) (s : string) : bool := existsb (Ascii.eqb c) (chars s).
