(** Vocabulary for chemistries built from RP and Reaction objects. *)
From Verif Require Import Base Species Reactions Chemistry ChemSpec MolSpec Views.

(** The species [objs] and reactions [rxs] are those of the chemistry, and
    object identity is coherent: two species objects with one identity are
    one object. *)
Definition objects (E : env) (objs : list rp) (rxs : list reaction) (c : chem) : Prop :=
  mapM (view_rp E) objs = Ok (c_species c) /\
  mapM (view_reaction E) rxs = Ok (c_reactions c) /\
  forall p q,
    (In p objs \/ exists r, In r rxs /\ In p (r_lhs r ++ r_rhs r)) ->
    (In q objs \/ exists r, In r rxs /\ In q (r_lhs r ++ r_rhs r)) ->
    rp_uid p = rp_uid q -> p = q.

(** The electron carries one negative elementary charge. *)
Definition electron_charged (c : chem) : Prop :=
  forall s, In s (c_species c) -> sp_name s = "e" -> sp_charge s = Some (-1).

(** [k] atoms of element [X] in the species object named [n]. *)
Definition atoms_of (E : env) (objs : list rp) (X n : string) (k : Z) : Prop :=
  exists p a, In p objs /\ get_name p = Ok n /\ get_atoms E p = Ok a /\
    k = match sget X a with Some m => m | None => 0 end.
