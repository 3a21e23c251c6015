(** Specification vocabulary for species and reactions, independent of the
    code: charge suffixes, totals over lists of species, histories of
    attribute assignments, clean names. *)
From Verif Require Import Base Species Reactions.

(** ** Charge suffixes: a run of signs, or one sign and a number. *)
Definition sign (c : ascii) : Prop := In c (chars "+-").
Definition digit (c : ascii) : Prop := In c (chars "0123456789").
Definition charge_suffix (t : string) : Prop :=
  exists c l, chars t = c :: l /\ sign c /\
    ((forall d, In d l -> sign d) \/ (l <> [] /\ forall d, In d l -> digit d)).

(** The base name ends in a sign. *)
Definition ends_in_sign (s : string) : Prop := exists b c, sign c /\ s = (b ++ String c "")%string.
Definition ends_in_newline (s : string) : Prop := exists b, s = (b ++ String "010" "")%string.

(** ** Species with any history. *)
Inductive sp_history : rp -> Prop :=
| sp_new uid id attributes more units r :
    rp_init uid id attributes more units = Ok r -> sp_history r
| sp_assigned r k v u r' :
    sp_history r -> set_species_attribute r k v u = Ok r' -> sp_history r'.

(** ** Totals over one side of a reaction *)

(** The charge of every species that has one adds up to [z]. *)
Fixpoint total_charge (E : env) (l : list rp) (z : Z) : Prop :=
  match l with
  | [] => z = 0
  | s :: l' => exists c, get_charge E s = Ok c /\
                 total_charge E l' (z - match c with Some q => q | None => 0 end)
  end.

(** [n] atoms of element [X] in total. *)
Fixpoint total_atoms (E : env) (X : string) (l : list rp) (n : Z) : Prop :=
  match l with
  | [] => n = 0
  | s :: l' => exists a, get_atoms E s = Ok a /\
                 total_atoms E X l' (n - match sget X a with Some k => k | None => 0 end)
  end.

(** Reactants and products carry the same charge and the same number of atoms
    of every element. *)
Definition conserves (E : env) (lhs rhs : list rp) : Prop :=
  (exists z, total_charge E lhs z /\ total_charge E rhs z) /\
  (forall X, exists n, total_atoms E X lhs n /\ total_atoms E X rhs n).

(** pyvalem's formulas have positive atom counts, and [dict] has distinct
    keys. *)
Definition good_formulas (E : env) : Prop :=
  forall s a, formula_atoms E s = Ok a -> NoDup (akeys a) /\ forall X n, In (X, n) a -> 0 < n.

(** ** Reactions with any history: assignments that raise change nothing. *)
Definition assignment : Type := string * pyval * option string.
Definition assign (E : env) (r : reaction) (a : assignment) : reaction :=
  match a with
  | (k, v, u) => match set_reaction_attribute E r k v u with Ok r' => r' | Err _ => r end
  end.
Definition assigns (E : env) (r : reaction) (l : list assignment) : reaction := fold_left (assign E) l r.

Inductive rx_history (E : env) : reaction -> Prop :=
| rx_new id lhs rhs attributes more units r l :
    reaction_init E id lhs rhs attributes more units = Ok r -> rx_history E (assigns E r l).

(** The unit of the prefactor that goes with the number of reactants. *)
Definition prefactor_unit (n : nat) (u : string) : Prop :=
  (n = 1%nat /\ u = "s-1") \/
  (n = 2%nat /\ (u = "cm3.s-1" \/ u = "m3.s-1")) \/
  (n = 3%nat /\ (u = "cm6.s-1" \/ u = "m6.s-1")).

(** Its value in SI units: 1 cm3 = 1e-6 m3, 1 cm6 = 1e-12 m6. *)
Definition si_value (u : string) (q : Q) : Prop :=
  (In u ["s-1"; "m3.s-1"; "m6.s-1"] /\ q = 1%Q) \/
  (u = "cm3.s-1" /\ q = (1 # 1000000)%Q) \/
  (u = "cm6.s-1" /\ q = (1 # 1000000000000)%Q).

(** ** Names that can be told apart in a reaction string *)

Definition contains (s t : string) : Prop := exists a b, s = (a ++ t ++ b)%string.
Definition clean_name (n : string) : Prop :=
  str_strip n = n /\ ~ contains n ">" /\ ~ contains n " + " /\ ~ (exists b, n = (b ++ " +")%string).
