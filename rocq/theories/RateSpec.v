(** Specification of the HPEM text of reactions. *)
From Verif Require Import Base Species.

(** The HPEM names of species. *)
Definition hpem_names (l : list rp) (ns : list string) : Prop := Forall2 (fun p n => get_hpem_name p = Some n) l ns.

(** Names without white space. *)
Definition unspaced (ns : list string) : Prop := forall n, In n ns -> forall c, In c (chars n) -> is_space c = false.
