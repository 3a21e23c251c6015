(** Vocabulary for the order of the elements of an XML chemistry: nothing but
    the words of C187. *)
From Coq Require Import Permutation Sorted.
From Verif Require Import Base Species Reactions Classification ClassSpec Xml.

(** The elements [es] read as [vs] are put into the order [es'] by reordering
    the pairs, which leaves the values in the order [vs']. *)
Definition reordered {A} (es : list element) (vs : list A) (es' : list element) (vs' : list A) : Prop :=
  List.length es = List.length vs /\
  exists l, Permutation l (combine es vs) /\ map fst l = es' /\ map snd l = vs'.

(** What the elements of a builder read as, for the sorting scheme. *)
Definition read_as (E : env) (uid : nat) (b : builder) (ss : list cs) (rs : list cr) : Prop :=
  exists sps rxs, parse E uid (b_species b) (b_reactions b) = Ok (sps, rxs) /\
    mapM (cs_view E) sps = Ok ss /\ mapM (cr_view E) rxs = Ok rs.

(** Species by the documented order; reactions class by class, in the order of
    the classification scheme, and inside of a class by the documented order.
    Equals keep their order. *)
Definition species_ordered (ss ss' : list cs) : Prop :=
  (forall s, In s ss -> sortable s) ->
  StronglySorted (fun x y => ~ before y x) ss' /\
  forall p : cs -> bool, (forall x y, In x ss -> In y ss -> p x = true -> p y = true -> ~ before y x) ->
    filter p ss' = filter p ss.
Definition reactions_ordered (ss' : list cs) (rs rs' : list cr) : Prop :=
  exists order, Permutation order rs /\ StronglySorted (fun x y => ~ earlier ss' y x) order /\
    (forall p : cr -> bool, (forall x y, In x rs -> In y rs -> p x = true -> p y = true -> ~ earlier ss' y x) ->
       filter p order = filter p rs) /\
    rs' = List.concat (map (fun tc => filter (in_class tc) order) scheme_pairs).

(** [c'] is [c], with new ids for the kinds of elements whose ids clash in
    [b] (the new ids are those of C29). *)
Record renewed (E : env) (b c c' : builder) : Prop := {
  rn_keys : b_keys c' = b_keys c;
  rn_species : NoDup (map el_id (b_species b)) -> b_species c' = b_species c;
  rn_species_new : ~ NoDup (map el_id (b_species b)) -> b_species c' = b_species (fst (assign_species_ids E c));
  rn_reactions : NoDup (map el_id (b_reactions b)) -> b_reactions c' = b_reactions c;
  rn_reactions_new : ~ NoDup (map el_id (b_reactions b)) -> b_reactions c' = b_reactions (fst (assign_reactions_ids E c))
}.
