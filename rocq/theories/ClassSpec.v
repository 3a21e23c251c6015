(** Specification vocabulary for the classifier, independent of the code:
    kinds of species and of reactions, expected tables, the documented order
    of species. *)
From Coq Require Import Sorted Permutation.
From Verif Require Import Base Species Reactions Classification.

(** ** Kinds of species ('M', which has no charge, counts as neutral) *)
Definition electron (s : cs) : Prop := cs_name s = "e".
Definition positive (s : cs) : Prop := exists q, cs_charge s = Some q /\ 0 < q.
Definition negative (s : cs) : Prop := exists q, cs_charge s = Some q /\ q < 0.
Definition neutral (s : cs) : Prop := cs_charge s = None \/ cs_charge s = Some 0.

(** ** Reactions as they leave the constructor *)

Definition sum (l : list Z) : Z := fold_right Z.add 0 l.
Definition charge_of (s : cs) : Z := match cs_charge s with Some q => q | None => 0 end.
Definition atoms_of (X : string) (s : cs) : Z := match sget X (cs_atoms s) with Some n => n | None => 0 end.

(** Reactants and products have the same charge and atoms. *)
Definition balanced (r : cr) : Prop :=
  sum (map charge_of (cr_lhs r)) = sum (map charge_of (cr_rhs r)) /\
  forall X, sum (map (atoms_of X) (cr_lhs r)) = sum (map (atoms_of X) (cr_rhs r)).

(** What holds of every species of a chemistry with formulas for names: only
    'M' has no charge, it consists of one 'M'; electrons have charge -1 and
    no atoms; everything else has atoms, none of them 'M'. *)
Definition sane (s : cs) : Prop :=
  (cs_name s = "M" -> cs_charge s = None /\ cs_atoms s = [("M", 1)]) /\
  (cs_name s = "e" -> cs_charge s = Some (-1) /\ cs_atoms s = []) /\
  (cs_name s <> "M" -> cs_name s <> "e" ->
   cs_charge s <> None /\ cs_atoms s <> [] /\ ~ In "M" (akeys (cs_atoms s))) /\
  NoDup (akeys (cs_atoms s)) /\ (forall X n, In (X, n) (cs_atoms s) -> 0 < n).

(** One id per species name. *)
Definition ids_ok (l : list cs) : Prop :=
  forall s t, In s l -> In t l -> (cs_id s = cs_id t <-> cs_name s = cs_name t).

(** A chemically consistent reaction. *)
Definition proper (r : cr) : Prop :=
  (1 <= List.length (cr_lhs r) <= 3)%nat /\ (1 <= List.length (cr_rhs r))%nat /\
  (forall s, In s (cr_lhs r ++ cr_rhs r) -> sane s) /\
  ids_ok (cr_lhs r ++ cr_rhs r) /\ balanced r.

(** The cases the classifier cannot handle. *)
Definition electrons_only (r : cr) : Prop := forall s, In s (cr_lhs r) -> electron s.
Definition like_charges (r : cr) : Prop :=
  exists a b, cr_lhs r = [a; b] /\ ~ electron a /\ ~ electron b /\
              ((positive a /\ positive b) \/ (negative a /\ negative b)).
Definition ion_neutral (ion : cs -> Prop) (r : cr) : Prop :=
  exists a b, cr_lhs r = [a; b] /\ ~ electron a /\ ~ electron b /\
              ((ion a /\ neutral b) \/ (ion b /\ neutral a)).
Definition two_charged_products (r : cr) : Prop :=
  exists a b, cr_rhs r = [a; b] /\ ~ neutral a /\ ~ neutral b.
Definition unsupported (r : cr) : Prop :=
  electrons_only r \/ like_charges r \/
  (ion_neutral positive r /\ two_charged_products r) \/
  (ion_neutral negative r /\ two_charged_products r /\ forall s, In s (cr_rhs r) -> ~ electron s).

(** ** Types, in words *)
Definition type_spec (r : cr) (t : string) : Prop :=
  let el := exists s, In s (cr_lhs r) /\ electron s in
  let two p q := exists a b, cr_lhs r = [a; b] /\ ((p a /\ q b) \/ (q a /\ p b)) in
  (t = "ELECTRON IMPACT COLLISIONS" <-> el) /\
  (t = "THREE BODY COLLISIONS" <-> ~ el /\ List.length (cr_lhs r) = 3%nat) /\
  (t = "RADIATIVE DECAY" <-> ~ el /\ List.length (cr_lhs r) = 1%nat /\ List.length (cr_rhs r) = 1%nat) /\
  (t = "NEUTRAL - NEUTRAL COLLISIONS" <-> ~ el /\ two neutral neutral) /\
  (t = "POSITIVE ION - NEUTRAL COLLISIONS" <-> ~ el /\ two positive neutral) /\
  (t = "NEGATIVE ION - NEUTRAL COLLISIONS" <-> ~ el /\ two negative neutral) /\
  (t = "ION - ION COLLISIONS" <->
   ~ el /\ two positive negative /\ forall s, In s (cr_rhs r) -> neutral s) /\
  (t = "UNCLASSIFIED COLLISIONS" <->
   ~ el /\ ((List.length (cr_lhs r) = 1%nat /\ List.length (cr_rhs r) <> 1%nat) \/
            (two positive negative /\ exists s, In s (cr_rhs r) /\ ~ neutral s))).

(** ** Histories of a classifier object *)
Inductive op := OSortSpecies | OSortReactions | OClassify | OAligned (r : cr).
Definition step (k : clf) (o : op) : clf :=
  match o with
  | OSortSpecies => fst (sort_species k)
  | OSortReactions => fst (sort_reactions k)
  | OClassify => fst (get_classified k)
  | OAligned r => fst (get_aligned k r)
  end.
Definition run (k : clf) (h : list op) : clf := fold_left step h k.
(** Aligned strings are requested for reactions of the classifier. *)
Definition ops_of (reactions : list cr) (h : list op) : Prop :=
  forall r, In (OAligned r) h -> In r reactions.

(** ** Expected table of classified reactions *)
Definition buckets (d : table) : list ((string * string) * list cr) :=
  flat_map (fun tc => map (fun cl => ((fst tc, fst cl), snd cl)) (snd tc)) d.
Definition scheme_pairs : list (string * string) :=
  flat_map (fun tc => map (fun c => (fst tc, c)) (snd tc)) scheme.
Definition in_class (tc : string * string) (r : cr) : bool :=
  match classify r with Ok p => pair_eqb p tc | Err _ => false end.

(** ** The documented order of species *)

Definition element_number (X : string) (n : Z) : Prop :=
  exists i, index_of String.eqb X elements_order = Ok i /\ n = i + 1.

(** Criteria in decreasing significance: number of distinct elements, number
    and count of each, excitation, negative charge, positive charge. *)
Inductive rank_atoms : list (string * Z) -> list Z -> Prop :=
| rank_nil : rank_atoms [] []
| rank_cons X c n l r : element_number X n -> 1 <= c <= 9 -> rank_atoms l r ->
                        rank_atoms ((X, c) :: l) (n :: c :: r).
Definition rank (s : cs) (k : list Z) : Prop :=
  exists q a,
    cs_charge s = Some q /\ -9 <= q <= 9 /\ (List.length (cs_atoms s) <= 3)%nat /\
    rank_atoms (cs_atoms s) a /\
    k = Z.of_nat (List.length (cs_atoms s)) ::
        a ++ [match cs_state s with Some _ => 1 | None => 0 end; Z.max 0 (- q); Z.max 0 q].

Fixpoint lex_lt (a b : list Z) : Prop :=
  match a, b with
  | [], [] => False
  | [], _ :: _ => True
  | _ :: _, [] => False
  | x :: a', y :: b' => x < y \/ (x = y /\ lex_lt a' b')
  end.

(** Species within the documented limits of the sorting scheme; 'M' is
    allowed, too. *)
Definition sortable (s : cs) : Prop := cs_name s = "M" \/ exists k, rank s k.

(** [a] comes strictly before [b]: 'M' is last, all others by rank. *)
Definition before (a b : cs) : Prop :=
  cs_name a <> "M" /\
  (cs_name b = "M" \/ exists ka kb, rank a ka /\ rank b kb /\ lex_lt ka kb).

(** ** The documented order of reactions *)

(** Position of a species in the list of species. *)
Definition place (species : list cs) (s : cs) (i : Z) : Prop :=
  0 <= i /\ nth_error species (Z.to_nat i) = Some s.
(** [l'] are the species [l] in the order of the list of species, [ps] their
    positions. *)
Definition in_order (species l l' : list cs) (ps : list Z) : Prop :=
  Permutation l' l /\ Forall2 (place species) l' ps /\ StronglySorted Z.le ps.
(** [a] comes strictly before [b]: compare the positions of the reactants,
    and then those of the products, position by position. *)
Definition earlier (species : list cs) (a b : cr) : Prop :=
  exists la pa lb pb xa ya xb yb,
    in_order species (cr_lhs a) xa la /\ in_order species (cr_rhs a) ya pa /\
    in_order species (cr_lhs b) xb lb /\ in_order species (cr_rhs b) yb pb /\
    (lex_lt la lb \/ (la = lb /\ lex_lt pa pb)).
(** The species of the reactions are among the given ones, which are distinct
    objects with distinct ids. *)
Definition species_known (species : list cs) (reactions : list cr) : Prop :=
  NoDup (map cs_id species) /\ NoDup (map cs_uid species) /\
  forall r s, In r reactions -> In s (cr_lhs r ++ cr_rhs r) -> In s species.
