(** What the categories of reactions mean (specification). *)
From Verif Require Import Base Species Reactions Classification ClassSpec.

Definition number (p : cs -> bool) (l : list cs) : Z := Z.of_nat (List.length (filter p l)).
Definition is_electron (s : cs) : bool := String.eqb (cs_name s) "e".
Definition is_heavy (s : cs) : bool := negb (is_electron s).
Definition has_state (s : cs) : bool := match cs_state s with Some _ => true | None => false end.

Definition electrons (l : list cs) : Z := number is_electron l.
Definition heavies (l : list cs) : Z := number is_heavy l.
Definition states (l : list cs) : Z := number has_state l.

(** The two reactants, in either order. *)
Definition collide (r : cr) (a b : cs) : Prop := cr_lhs r = [a; b] \/ cr_lhs r = [b; a].
Definition produce (r : cr) (a b : cs) : Prop := cr_rhs r = [a; b] \/ cr_rhs r = [b; a].

(** An electron hits [c]. *)
Definition electron_hits (r : cr) (c : cs) : Prop := exists e, electron e /\ ~ electron c /\ collide r e c.

Definition electron_categories (r : cr) (c : cs) (t : string) : Prop :=
  let k := electrons (cr_rhs r) in
  let h := heavies (cr_rhs r) in
  let inelastic := k = 1 /\ cr_elastic r = false in
  let single P := exists p, filter is_heavy (cr_rhs r) = [p] /\ P p in
  (t = "ionization" <-> neutral c /\ 1 < k /\ h = 1) /\
  (t = "dissociative ionization" <-> neutral c /\ 1 < k /\ 1 < h) /\
  (t = "detachment" <-> negative c /\ 1 < k /\ h = 1) /\
  (t = "attachment" <-> neutral c /\ k = 0 /\ h = 1) /\
  (t = "dissociative attachment" <-> neutral c /\ k = 0 /\ 1 < h) /\
  (t = "recombination" <-> positive c /\ k = 0 /\ h = 1) /\
  (t = "dissociative recombination" <-> positive c /\ k = 0 /\ 1 < h) /\
  (t = "elastic and momentum transfer" <-> k = 1 /\ cr_elastic r = true) /\
  (t = "excitation" <-> inelastic /\ single (fun p => has_state p = true /\ (has_state c = false \/ fltb fzero (cr_loss r) = true))) /\
  (t = "deexcitation" <-> inelastic /\ single (fun p => has_state c = true /\ (has_state p = false \/ fltb fzero (cr_loss r) = false))) /\
  (t = "other electron energy loss channels" <->
     inelastic /\ single (fun p => has_state c = false /\ has_state p = false /\ cs_uid c = cs_uid p)) /\
  (t = "dissociation" <-> inelastic /\ 1 < h /\ forall p, In p (cr_rhs r) -> is_heavy p = true -> has_state p = false) /\
  (t = "dissociative excitation" <-> inelastic /\ 1 < h /\ exists p, In p (cr_rhs r) /\ is_heavy p = true /\ has_state p = true).

(** The heavy reactants reappear, with less positive charge. *)
Definition three_body_categories (r : cr) (t : string) : Prop :=
  let base s := strip_charge (cs_stateless s) in
  let hv l := filter is_heavy l in
  let q l := sum (map charge_of (hv l)) in
  let kept := forall s, In s (hv (cr_lhs r)) -> exists p, In p (hv (cr_rhs r)) /\ base p = base s in
  (t = "three body recombination" <-> kept /\ q (cr_rhs r) < q (cr_lhs r) /\ 0 < q (cr_lhs r)) /\
  (t = "three body attachment" <-> kept /\ q (cr_rhs r) < q (cr_lhs r) <= 0).

Definition neutral_categories (r : cr) (t : string) : Prop :=
  let k := electrons (cr_rhs r) in
  let h := heavies (cr_rhs r) in
  let sr := states (cr_lhs r) in
  let sp := states (cr_rhs r) in
  let el := cr_elastic r = true in
  let breakup := cr_elastic r = false /\ k = 0 /\ 2 < h /\ (forall p, In p (cr_rhs r) -> neutral p) /\
    exists s p, In s (cr_lhs r) /\ In p (cr_rhs r) /\ cs_name s = cs_name p in
  let swap := cr_elastic r = false /\ k = 0 /\ h = 2 in
  (t = "elastic scattering" <-> el) /\
  (t = "association" <-> ~ el /\ List.length (cr_rhs r) = 1%nat) /\
  (t = "penning ionization" <-> ~ el /\ 0 < k /\ h = 2 /\ 0 < sr /\ sp = 0) /\
  (t = "ionization" <-> ~ el /\ 0 < k /\ h = 2 /\ sr = 0 /\ sp = 0) /\
  (t = "dissociative ionization" <-> ~ el /\ 0 < k /\ 2 < h) /\
  (t = "associative ionization" <-> ~ el /\ 0 < k /\ h < 2 /\ 1 < k + h) /\
  (t = "dissociation" <-> breakup /\ sr = sp) /\
  (t = "dissociative excitation" <-> breakup /\ sr < sp) /\
  (t = "dissociative quenching" <-> breakup /\ sp < sr) /\
  (t = "excitation" <-> swap /\ sr < sp) /\
  (t = "collisional quenching" <-> swap /\ sp < sr) /\
  (t = "excitation transfer" <-> swap /\ sr = sp /\ 0 < sr /\
     forall x, In x (map cs_stateless (cr_lhs r)) <-> In x (map cs_stateless (cr_rhs r))) /\
  (t = "interchange" <-> swap /\ sr = 0 /\ sp = 0).

(** Name of an ion without its charge signs. *)
Definition bare (sg : ascii) (s : cs) : string := strip_char sg (cs_name s).

Definition transfers (r : cr) (sg : ascii) (ion : cs -> Prop) (resonant : bool) : Prop :=
  exists i n i' n', collide r i n /\ ion i /\ neutral n /\ produce r i' n' /\ ion i' /\ neutral n' /\
    bare sg i = cs_name n' /\ bare sg i' = cs_name n /\
    (if resonant then cs_name n = cs_name n' /\ cs_name i = cs_name i' else cs_name n <> cs_name n' \/ cs_name i <> cs_name i').

Definition positive_categories (r : cr) (t : string) : Prop :=
  (t = "charge transfer" <-> transfers r "+" positive false) /\
  (t = "resonant charge transfer" <-> transfers r "+" positive true) /\
  (t = "dissociative charge transfer" <->
     (2 < List.length (cr_rhs r))%nat /\
     exists i n p, collide r i n /\ positive i /\ neutral n /\ In p (cr_rhs r) /\ cs_name p = (cs_name n ++ "+")%string).

Definition negative_categories (r : cr) (t : string) : Prop :=
  let k := electrons (cr_rhs r) in
  let h := heavies (cr_rhs r) in
  (t = "detachment" <-> 0 < k /\ h = 2) /\
  (t = "associative detachment" <-> 0 < k /\ h < 2) /\
  (t = "charge transfer" <-> k = 0 /\ transfers r "-" negative false) /\
  (t = "resonant charge transfer" <-> k = 0 /\ transfers r "-" negative true).

Definition ion_categories (r : cr) (t : string) : Prop :=
  (t = "neutralization" <-> List.length (cr_rhs r) = 2%nat) /\
  (t = "dissociative neutralization" <-> (2 < List.length (cr_rhs r))%nat) /\
  (t = "unclassified ion - ion collisions" <-> List.length (cr_rhs r) = 1%nat).

(** The category [c] given together with the type [t]. *)
Definition category_spec (r : cr) (t c : string) : Prop :=
  (t = "ELECTRON IMPACT COLLISIONS" -> forall p, electron_hits r p -> electron_categories r p c) /\
  (t = "ELECTRON IMPACT COLLISIONS" -> List.length (cr_lhs r) = 3%nat -> three_body_categories r c) /\
  (t = "NEUTRAL - NEUTRAL COLLISIONS" -> neutral_categories r c) /\
  (t = "POSITIVE ION - NEUTRAL COLLISIONS" -> positive_categories r c) /\
  (t = "NEGATIVE ION - NEUTRAL COLLISIONS" -> negative_categories r c) /\
  (t = "ION - ION COLLISIONS" -> ion_categories r c).

(** The charge account of an electron hitting [c]: what the heavy products
    carry is the charge of [c] and one for each electron gained. *)
Definition charge_account (r : cr) (c : cs) : Prop :=
  sum (map charge_of (filter is_heavy (cr_rhs r))) = charge_of c + (electrons (cr_rhs r) - 1).
