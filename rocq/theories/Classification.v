(** Model of plaschem/classification.py, class ReactionClassifier.

    Simplification: the classifier works on views of the species and
    reactions, i.e. on the values their getters return; [cs_view] and
    [cr_view] compute the views from the attribute-level models of Species.v
    and Reactions.v. The Python code calls the getters one by one, so when a
    getter raises it may raise later (or not at all); when no getter raises
    the results are the same. *)
From Verif Require Import Base Species Reactions SortLemmas.

(** What the getters of an RP instance return; [cs_uid] is the identity of
    the object (RP defines no [__eq__], so [==] and [list.index] compare
    identities). *)
Record cs : Type := MkCs {
  cs_uid : nat;
  cs_id : Z;
  cs_name : string;
  cs_charge : option Z;          (* None for 'M' *)
  cs_state : option string;
  cs_stateless : string;
  cs_atoms : list (string * Z)
}.

(** What the getters of a Reaction instance return. *)
Record cr : Type := MkCr {
  cr_id : Z;
  cr_lhs : list cs;
  cr_rhs : list cs;
  cr_elastic : bool;
  cr_loss : flt                  (* get_el_en_loss() *)
}.

(** plaschem/species.py L180-287, all getters the classifier uses. *)
Definition cs_view (E : env) (r : rp) : res cs :=
  let* n := get_name r in
  let* q := get_charge E r in
  let* st := get_state r in
  let* sl := get_stateless r in
  let* at_ := get_atoms E r in
  Ok (MkCs (rp_uid r) (rp_id r) n q st sl at_).

(** plaschem/reactions.py L193-216, L518-543. *)
Definition cr_view (E : env) (r : reaction) : res cr :=
  let* l := mapM (cs_view E) (r_lhs r) in
  let* p := mapM (cs_view E) (r_rhs r) in
  let* el := get_elastic r in
  let* en := get_rx_float E "el_en_loss" r in
  Ok (MkCr (r_id r) l p el en).

(** plaschem/classification.py L11-74 [classification_scheme]. *)
Definition scheme : list (string * list string) :=
  [("ELECTRON IMPACT COLLISIONS",
    ["elastic and momentum transfer"; "excitation"; "dissociative excitation"; "deexcitation";
     "ionization"; "dissociative ionization"; "attachment"; "dissociative attachment";
     "three body attachment"; "detachment"; "recombination"; "dissociative recombination";
     "three body recombination"; "dissociation"; "other electron energy loss channels";
     "unclassified electron impact collisions"]);
   ("NEUTRAL - NEUTRAL COLLISIONS",
    ["elastic scattering"; "association"; "dissociation"; "excitation"; "dissociative excitation";
     "collisional quenching"; "dissociative quenching"; "excitation transfer"; "ionization";
     "dissociative ionization"; "associative ionization"; "penning ionization"; "interchange";
     "stripping"; "unclassified neutral - neutral collisions"]);
   ("POSITIVE ION - NEUTRAL COLLISIONS",
    ["resonant charge transfer"; "charge transfer"; "dissociative charge transfer";
     "unclassified positive ion - neutral collisions"]);
   ("NEGATIVE ION - NEUTRAL COLLISIONS",
    ["resonant charge transfer"; "charge transfer"; "detachment"; "associative detachment";
     "unclassified negative ion - neutral collisions"]);
   ("ION - ION COLLISIONS",
    ["neutralization"; "dissociative neutralization"; "unclassified ion - ion collisions"]);
   ("THREE BODY COLLISIONS", ["None"]);
   ("RADIATIVE DECAY", ["None"]);
   ("UNCLASSIFIED COLLISIONS", ["None"])].

(** plaschem/classification.py L76-83 [elements_order]. *)
Definition elements_order : list string :=
  ["H"; "He"; "Li"; "Be"; "B"; "C"; "N"; "O"; "F"; "Ne"; "Na"; "Mg"; "Al"; "Si"; "P"; "S"; "Cl";
   "Ar"; "K"; "Ca"; "SC"; "Ti"; "V"; "Cr"; "Mn"; "Fe"; "Co"; "Ni"; "Cu"; "Zn"; "Ga"; "Ge"; "As";
   "Se"; "Br"; "Kr"; "Rb"; "Sr"; "Y"; "Zr"; "Nb"; "Mo"; "Tc"; "Ru"; "Rh"; "Pd"; "Ag"; "Cd"; "In";
   "Sn"; "Sb"; "Te"; "I"; "Xe"; "Cs"; "Ba"; "La"; "Ce"; "Pr"; "Nd"; "Pm"; "Sm"; "Eu"; "Gd"; "Tb";
   "Dy"; "Ho"; "Er"; "Tm"; "Yb"; "Lu"; "Hf"; "Ta"; "W"; "Re"; "Os"; "Ir"; "Pt"; "Au"; "Hg"; "Ti";
   "Pb"; "Bi"; "Po"; "At"; "Rn"; "Fr"; "Ra"; "Ac"; "Th"; "Pa"; "U"; "Np"; "Pu"; "Am"; "Cm"; "Bk";
   "Cf"; "M"].

(** [l.index(x)]: position of the first occurrence, ValueError if absent. *)
Fixpoint index_of {A} (eqb : A -> A -> bool) (x : A) (l : list A) : res Z :=
  match l with
  | [] => Err EValue
  | y :: l' => if eqb x y then Ok 0 else let* i := index_of eqb x l' in Ok (i + 1)
  end.

(** ** Sorting species *)

(** One "bit" of the score: [bit_val = top - 1; bit_val -= step * v]. *)
Definition bit (top step v : Z) : Z := top - 1 - step * v.

(** The bits of one element: its count and its number (L157-198; the three
    copies differ in the powers of ten only). *)
Definition element_bits (top_c step_c top_n step_n : Z) (kv : string * Z) : res Z :=
  let* i := index_of String.eqb (fst kv) elements_order in
  Ok (bit top_c step_c (snd kv) + bit top_n step_n (i + 1)).

(** plaschem/classification.py L121-209 [_get_species_sort_key], the score
    (the key is its inverse, [sort_key]). The score is a sum of integers far
    below 2^53, hence exact in floating point. [charge > 0] on a species
    without charge (never the case for a name other than 'M') is a
    TypeError. *)
Definition score (s : cs) : res Z :=
  let* q := match cs_charge s with Some q => Ok q | None => Err EType end in
  let pos := bit 10 1 (if q >? 0 then q else 0) in                          (* L140-145 *)
  let neg := bit 100 10 (if q <? 0 then - q else 0) in                      (* L147-152 *)
  let exc := bit 1000 100 (match cs_state s with Some _ => 1 | None => 0 end) in (* L154-159 *)
  let n := Z.of_nat (List.length (cs_atoms s)) in
  let* els :=
    match cs_atoms s with
    | [] => Ok 0
    | [e1] => element_bits (10^10) (10^9) (10^12) (10^10) e1
    | [e1; e2] =>
        let* b2 := element_bits (10^7) (10^6) (10^9) (10^7) e2 in
        let* b1 := element_bits (10^10) (10^9) (10^12) (10^10) e1 in
        Ok (b2 + b1)
    | [e1; e2; e3] =>
        let* b3 := element_bits (10^4) (10^3) (10^6) (10^4) e3 in
        let* b2 := element_bits (10^7) (10^6) (10^9) (10^7) e2 in
        let* b1 := element_bits (10^10) (10^9) (10^12) (10^10) e1 in
        Ok (b3 + b2 + b1)
    | _ => Err ENotImplemented                                              (* L162-163 *)
    end in
  Ok (pos + neg + exc + els + bit (10^13) (10^12) n).

(** plaschem/classification.py L121-209 [_get_species_sort_key]:
    [1/score], [1/0.1] for 'M'. *)
Definition sort_key (s : cs) : res Q :=
  if String.eqb (cs_name s) "M" then Ok (10 # 1)
  else let* z := score s in
       if z =? 0 then Err EZeroDivision else Ok (/ inject_Z z)%Q.

(** [l.sort(key=f)]: the keys are computed first (the list is unchanged when
    one raises), then a stable sort by key. *)
Definition sort_by {A K} (leb : K -> K -> bool) (key : A -> res K) (l : list A) : res (list A) :=
  let* ks := mapM (fun a => let* k := key a in Ok (k, a)) l in
  Ok (map snd (isort (fun x y => leb (fst x) (fst y)) ks)).

(** ** The classifier object *)

Definition table := list (string * list (string * list cr)).

Record clf : Type := MkClf {
  k_species : list cs;
  k_reactions : list cr;
  k_classified : table;                                   (* _classified_reactions *)
  k_align : list ((string * string) * (list nat * list nat));  (* _alignments *)
  k_index : list (Z * Z);                                 (* _memo_species_index *)
  k_class : list (Z * (string * string));                 (* _memo_reactions_classifications *)
  k_names : list (Z * (list string * list string))        (* _memo_reactions_sorted_species_names *)
}.

(** plaschem/classification.py L85-107, L109-121 [__init__],
    [set_new_chemistry]. *)
Definition clf_new (species : list cs) (reactions : list cr) : clf :=
  MkClf species reactions [] [] [] [] [].

(** plaschem/classification.py L211-219 [sort_species]. *)
Definition sort_species (k : clf) : clf * res unit :=
  match sort_by Qle_bool sort_key (k_species k) with
  | Err e => (k, Err e)
  | Ok l => (MkClf l (k_reactions k) [] (k_align k) [] (k_class k) (k_names k), Ok tt)
  end.

(** plaschem/classification.py L221-231 [_species_index]. *)
Definition species_index (k : clf) (s : cs) : clf * res Z :=
  match zget (cs_id s) (k_index k) with
  | Some i => (k, Ok i)
  | None =>
      match index_of Nat.eqb (cs_uid s) (map cs_uid (k_species k)) with
      | Err e => (k, Err e)
      | Ok i => (MkClf (k_species k) (k_reactions k) (k_classified k) (k_align k)
                       (zset (cs_id s) i (k_index k)) (k_class k) (k_names k), Ok i)
      end
  end.

Fixpoint indices (k : clf) (l : list cs) : clf * res (list (Z * cs)) :=
  match l with
  | [] => (k, Ok [])
  | s :: l' => match species_index k s with
               | (k1, Err e) => (k1, Err e)
               | (k1, Ok i) => match indices k1 l' with
                               | (k2, Err e) => (k2, Err e)
                               | (k2, Ok r) => (k2, Ok ((i, s) :: r))
                               end
               end
  end.

(** [sorted(l, key=self._species_index)], keeping the indices. *)
Definition sorted_side (k : clf) (l : list cs) : clf * res (list (Z * cs)) :=
  match indices k l with
  | (k1, Err e) => (k1, Err e)
  | (k1, Ok r) => (k1, Ok (isort (fun x y => fst x <=? fst y) r))
  end.

Definition set_names (k : clf) (rid : Z) (p : list string * list string) : clf :=
  MkClf (k_species k) (k_reactions k) (k_classified k) (k_align k) (k_index k) (k_class k)
        (zset rid p (k_names k)).

(** plaschem/classification.py L233-247 [_get_reaction_sort_key]. *)
Definition reaction_sort_key (k : clf) (r : cr) : clf * res (list Z * list Z) :=
  match sorted_side k (cr_lhs r) with
  | (k1, Err e) => (k1, Err e)
  | (k1, Ok a) =>
      match sorted_side k1 (cr_rhs r) with
      | (k2, Err e) => (k2, Err e)
      | (k2, Ok b) =>
          (set_names k2 (cr_id r) (map (fun p => cs_name (snd p)) a, map (fun p => cs_name (snd p)) b),
           Ok (map fst a, map fst b))
      end
  end.

(** Comparison of tuples of integers. *)
Fixpoint lexb (a b : list Z) : bool :=
  match a, b with
  | [], _ => true
  | _ :: _, [] => false
  | x :: a', y :: b' => (x <? y) || ((x =? y) && lexb a' b')
  end.
Fixpoint eqbl (a b : list Z) : bool :=
  match a, b with
  | [], [] => true
  | x :: a', y :: b' => (x =? y) && eqbl a' b'
  | _, _ => false
  end.
Definition pair_leb (p q : list Z * list Z) : bool :=
  if eqbl (fst p) (fst q) then lexb (snd p) (snd q) else lexb (fst p) (fst q).

Fixpoint reaction_keys (k : clf) (l : list cr) : clf * res (list ((list Z * list Z) * cr)) :=
  match l with
  | [] => (k, Ok [])
  | r :: l' => match reaction_sort_key k r with
               | (k1, Err e) => (k1, Err e)
               | (k1, Ok key) => match reaction_keys k1 l' with
                                 | (k2, Err e) => (k2, Err e)
                                 | (k2, Ok ks) => (k2, Ok ((key, r) :: ks))
                                 end
               end
  end.

(** plaschem/classification.py L249-256 [sort_reactions]. *)
Definition sort_reactions (k : clf) : clf * res unit :=
  match reaction_keys k (k_reactions k) with
  | (k1, Err e) => (k1, Err e)
  | (k1, Ok ks) =>
      (MkClf (k_species k1) (map snd (isort (fun x y => pair_leb (fst x) (fst y)) ks))
             [] (k_align k1) (k_index k1) (k_class k1) (k_names k1), Ok tt)
  end.

(** ** Classification of one reaction *)

(** [sp.get_charge() if sp.get_charge() is not None else 0], L285-287. *)
Definition q0 (s : cs) : Z := match cs_charge s with Some q => q | None => 0 end.
Definition is_e (s : cs) : bool := String.eqb (cs_name s) "e".
Definition heavy (l : list cs) : list cs := filter (fun s => negb (is_e s)) l.
(** [is_stateless()]; [sum] of a list of bools counts the True ones. *)
Definition excited (s : cs) : bool := match cs_state s with Some _ => true | None => false end.
Definition n_excited (l : list cs) : nat := List.length (filter excited l).
Definition sumq (l : list cs) : Z :=
  fold_right (fun s a => match cs_charge s with Some q => q + a | None => a end) 0 l.
(** [l[np.where(p(charges))[0][0]]] *)
Definition first_where (p : Z -> bool) (l : list cs) : res cs :=
  match find (fun s => p (q0 s)) l with Some s => Ok s | None => Err EIndex end.
(** [get_charge() < 0] on a species without charge is a TypeError. *)
Definition charge_num (s : cs) : res Z := match cs_charge s with Some q => Ok q | None => Err EType end.
(** [charge == 0]: None is not 0. *)
Definition charge_is0 (s : cs) : bool := match cs_charge s with Some q => q =? 0 | None => false end.
(** [name.strip(c)] *)
Definition strip_char (c : ascii) (s : string) : string :=
  str_of (rstrip_l (Ascii.eqb c) (lstrip_l (Ascii.eqb c) (chars s))).

(** L289-293: the net stoichiometric coefficient of the electron. *)
Definition el_coef (r : cr) : res Z :=
  match find is_e (cr_lhs r ++ cr_rhs r) with
  | None => Ok 0
  | Some s => match zget (cs_id s) (stoich_coefs Net (map cs_id (cr_lhs r)) (map cs_id (cr_rhs r))) with
              | Some z => Ok z
              | None => Err EKey
              end
  end.

Definition t_el := "ELECTRON IMPACT COLLISIONS".
Definition t_nn := "NEUTRAL - NEUTRAL COLLISIONS".
Definition t_pn := "POSITIVE ION - NEUTRAL COLLISIONS".
Definition t_an := "NEGATIVE ION - NEUTRAL COLLISIONS".
Definition t_ii := "ION - ION COLLISIONS".
Definition t_3b := "THREE BODY COLLISIONS".
Definition t_rd := "RADIATIVE DECAY".
Definition t_un := "UNCLASSIFIED COLLISIONS".

(** L295-356: the category of an electron impact collision. *)
Definition classify_electron (r : cr) (el : Z) : res string :=
  let un := "unclassified electron impact collisions" in
  let cp := heavy (cr_lhs r) in
  let hp := heavy (cr_rhs r) in
  let base s := strip_charge (cs_stateless s) in
  let same := Nat.eqb (List.length cp) (List.length hp) in
  let fewer := Nat.ltb (List.length cp) (List.length hp) in
  match cp with
  | [] => Err EIndex                                                         (* L300 *)
  | c :: _ =>
      let n := List.length (cr_lhs r) in
      if Nat.ltb n 2 then Ok un
      else if Nat.ltb 3 n then Ok un
      else if Nat.eqb n 3
      then Ok (if subsetS (map base cp) (map base hp)                        (* L309-316 *)
               then if sumq cp >? sumq hp
                    then if sumq cp >? 0 then "three body recombination"
                         else if sumq hp <? 0 then "three body attachment" else un
                    else un
               else un)
      else if el >? 0
      then if same                                                           (* L319-327 *)
           then if charge_is0 c then Ok "ionization"
                else let* q := charge_num c in Ok (if q <? 0 then "detachment" else un)
           else if fewer then Ok (if charge_is0 c then "dissociative ionization" else un)
           else Ok un
      else if el =? 0
      then if cr_elastic r then Ok "elastic and momentum transfer"           (* L328-347 *)
           else if same
           then match hp with
                | [] => Err EIndex
                | h :: _ =>
                    Ok (if negb (excited c) && excited h then "excitation"
                        else if excited c && negb (excited h) then "deexcitation"
                        else if excited c && excited h
                        then if fltb fzero (cr_loss r) then "excitation" else "deexcitation"
                        else if Nat.eqb (cs_uid c) (cs_uid h)
                        then "other electron energy loss channels" else un)
                end
           else if fewer
           then Ok (if existsb excited hp then "dissociative excitation" else "dissociation")
           else Ok un
      else if same                                                           (* L348-357 *)
      then if charge_is0 c then Ok "attachment"
           else let* q := charge_num c in Ok (if q >? 0 then "recombination" else un)
      else if fewer
      then if charge_is0 c then Ok "dissociative attachment"
           else let* q := charge_num c in Ok (if q >? 0 then "dissociative recombination" else un)
      else Ok un
  end.

(** L367-415: two neutral reactants. The condition of 'interchange' (L411)
    compares the reactants with themselves. *)
Definition classify_neutral (r : cr) (el : Z) : string :=
  let un := "unclassified neutral - neutral collisions" in
  let nr := Z.of_nat (List.length (cr_lhs r)) in
  let np := Z.of_nat (List.length (cr_rhs r)) in
  let sr := n_excited (cr_lhs r) in
  let sp := n_excited (cr_rhs r) in
  let st l := map cs_stateless l in
  if cr_elastic r then "elastic scattering"
  else if nr >? np then "association"
  else if el >? 0
  then if nr =? np - el
       then if Nat.ltb 0 sr && Nat.eqb sp 0 then "penning ionization"
            else if Nat.eqb sr sp && Nat.eqb sp 0 then "ionization" else un
       else if nr <? np - el then "dissociative ionization"
       else "associative ionization"
  else if (el =? 0) && (nr <? np)
  then if existsb (fun s => memS (cs_name s) (map cs_name (cr_rhs r))) (cr_lhs r)
       then if forallb (fun s => q0 s =? 0) (cr_rhs r)
            then if Nat.eqb sr sp then "dissociation"
                 else if Nat.ltb sr sp then "dissociative excitation"
                 else "dissociative quenching"
            else un
       else un
  else if nr =? np
  then if Nat.ltb sr sp then "excitation"
       else if Nat.ltb sp sr then "collisional quenching"
       else if Nat.eqb sr sp && Nat.ltb 0 sr
       then if set_eqb (st (cr_lhs r)) (st (cr_rhs r)) then "excitation transfer" else un
       else if subsetS (st (cr_lhs r)) (st (cr_lhs r)) then "interchange" else un
  else un.

(** L417-433 and L435-453: an ion and a neutral; [sg] is the sign character,
    [ision] tells the ions. *)
Definition charge_transfer (sg : ascii) (ision : Z -> bool) (un : string) (r : cr)
           (r_ion r_neutral : cs) : res string :=
  let* p_ion := first_where ision (cr_rhs r) in
  let* p_neutral := first_where (Z.eqb 0) (cr_rhs r) in
  Ok (if String.eqb (strip_char sg (cs_name r_ion)) (cs_name p_neutral) &&
         String.eqb (cs_name r_neutral) (strip_char sg (cs_name p_ion))
      then if String.eqb (cs_name r_neutral) (cs_name p_neutral) &&
              String.eqb (cs_name r_ion) (cs_name p_ion)
           then "resonant charge transfer" else "charge transfer"
      else un).

Definition classify_positive (r : cr) : res string :=
  let un := "unclassified positive ion - neutral collisions" in
  let* r_ion := first_where (fun q => q >? 0) (cr_lhs r) in
  let* r_neutral := first_where (Z.eqb 0) (cr_lhs r) in
  let nr := List.length (cr_lhs r) in
  let np := List.length (cr_rhs r) in
  if Nat.eqb np nr
  then charge_transfer "+" (fun q => q >? 0) un r r_ion r_neutral
  else if Nat.ltb nr np
  then Ok (if memS (cs_name r_neutral ++ "+")%string (map cs_name (cr_rhs r))
           then "dissociative charge transfer" else un)
  else Ok un.

Definition classify_negative (r : cr) (el : Z) : res string :=
  let un := "unclassified negative ion - neutral collisions" in
  let* r_ion := first_where (fun q => q <? 0) (cr_lhs r) in
  let* r_neutral := first_where (Z.eqb 0) (cr_lhs r) in
  let nr := Z.of_nat (List.length (cr_lhs r)) in
  let np := Z.of_nat (List.length (cr_rhs r)) in
  if el >? 0
  then Ok (if nr =? np - el then "detachment"
           else if nr >? np - el then "associative detachment" else un)
  else if np =? nr
  then charge_transfer "-" (fun q => q <? 0) un r r_ion r_neutral
  else Ok un.

(** plaschem/classification.py L268-466 [_classify], without the memo. *)
Definition classify (r : cr) : res (string * string) :=
  let* el := el_coef r in
  let all p l := forallb (fun s => p (q0 s)) l in
  let nr := List.length (cr_lhs r) in
  let np := List.length (cr_rhs r) in
  if existsb is_e (cr_lhs r)
  then let* c := classify_electron r el in Ok (t_el, c)
  else if Nat.eqb nr 3 then Ok (t_3b, "None")
  else if Nat.eqb nr 1 then Ok (if Nat.eqb np 1 then t_rd else t_un, "None")
  else if Nat.eqb nr 2
  then if all (Z.eqb 0) (cr_lhs r) then Ok (t_nn, classify_neutral r el)
       else if all (fun q => (q >? 0) || (q =? 0)) (cr_lhs r)
       then let* c := classify_positive r in Ok (t_pn, c)
       else if all (fun q => (q <? 0) || (q =? 0)) (cr_lhs r)
       then let* c := classify_negative r el in Ok (t_an, c)
       else if all (fun q => (q <? 0) || (q >? 0)) (cr_lhs r)
       then if all (Z.eqb 0) (cr_rhs r)
            then Ok (t_ii, if Nat.eqb nr np then "neutralization"
                           else if Nat.ltb nr np then "dissociative neutralization"
                           else "unclassified ion - ion collisions")
            else Ok (t_un, "None")
       else Ok (t_un, "None")
  else Ok (t_un, "None").

(** plaschem/classification.py L268-466 [_classify] with the memo. *)
Definition classify_m (k : clf) (r : cr) : clf * res (string * string) :=
  match zget (cr_id r) (k_class k) with
  | Some tc => (k, Ok tc)
  | None =>
      match classify r with
      | Err e => (k, Err e)
      | Ok tc => (MkClf (k_species k) (k_reactions k) (k_classified k) (k_align k) (k_index k)
                        (zset (cr_id r) tc (k_class k)) (k_names k), Ok tc)
      end
  end.

Definition set_classified (k : clf) (t : table) : clf :=
  MkClf (k_species k) (k_reactions k) t (k_align k) (k_index k) (k_class k) (k_names k).

(** plaschem/classification.py L258-266 [_init_classified_reactions_dict]. *)
Definition empty_table : table := map (fun tc => (fst tc, map (fun c => (c, [])) (snd tc))) scheme.

(** [d[t][c].append(r)] *)
Definition tbl_append (t c : string) (r : cr) (d : table) : res table :=
  match sget t d with
  | None => Err EKey
  | Some cats => match sget c cats with
                 | None => Err EKey
                 | Some l => Ok (sset t (sset c (l ++ [r]) cats) d)
                 end
  end.

(** L485-488, the loop over the reactions. *)
Fixpoint populate (k : clf) (l : list cr) : clf * res unit :=
  match l with
  | [] => (k, Ok tt)
  | r :: l' =>
      match classify_m k r with
      | (k1, Err e) => (k1, Err e)
      | (k1, Ok (t, c)) =>
          match tbl_append t c r (k_classified k1) with
          | Err e => (k1, Err e)
          | Ok d => populate (set_classified k1 d) l'
          end
      end
  end.

Definition nonempty {A} (l : list A) : bool := match l with [] => false | _ => true end.

(** L490-503: empty categories, then empty types are deleted. *)
Definition prune (d : table) : table :=
  filter (fun tc => nonempty (snd tc))
         (map (fun tc => (fst tc, filter (fun cl => nonempty (snd cl)) (snd tc))) d).

(** plaschem/classification.py L468-503 [get_classified_reactions]. *)
Definition get_classified (k : clf) : clf * res table :=
  match populate (set_classified k empty_table) (k_reactions k) with
  | (k1, Err e) => (k1, Err e)
  | (k1, Ok _) => let d := prune (k_classified k1) in (set_classified k1 d, Ok d)
  end.

(** ** Aligned strings *)

(** L525-536: names of one reaction sorted by species index, memoised. *)
Definition sorted_names (k : clf) (r : cr) : clf * res (list string * list string) :=
  match zget (cr_id r) (k_names k) with
  | Some p => (k, Ok p)
  | None =>
      match sorted_side k (cr_lhs r) with
      | (k1, Err e) => (k1, Err e)
      | (k1, Ok a) =>
          match sorted_side k1 (cr_rhs r) with
          | (k2, Err e) => (k2, Err e)
          | (k2, Ok b) =>
              let p := (map (fun p => cs_name (snd p)) a, map (fun p => cs_name (snd p)) b) in
              (set_names k2 (cr_id r) p, Ok p)
          end
      end
  end.

(** L537-548: column widths enlarged by the names of one side. *)
Fixpoint widen (ws : list nat) (ns : list string) : list nat :=
  match ws, ns with
  | ws, [] => ws
  | [], n :: ns' => String.length n :: widen [] ns'
  | w :: ws', n :: ns' => Nat.max w (String.length n) :: widen ws' ns'
  end.

Fixpoint widths (k : clf) (l : list cr) (acc : list nat * list nat) : clf * res (list nat * list nat) :=
  match l with
  | [] => (k, Ok acc)
  | r :: l' =>
      match sorted_names k r with
      | (k1, Err e) => (k1, Err e)
      | (k1, Ok (a, b)) => widths k1 l' (widen (fst acc) a, widen (snd acc) b)
      end
  end.

(** ['{:<{}}'.format(s, w)] *)
Fixpoint spaces (n : nat) : string := match n with O => "" | S n' => String " " (spaces n') end.
Definition ljust (s : string) (w : nat) : string := (s ++ spaces (w - String.length s))%string.
(** L557-566: one field per column, blank when there is no species. *)
Fixpoint fields (ns : list string) (ws : list nat) : list string :=
  match ws with
  | [] => []
  | w :: ws' => match ns with
                | [] => ljust "" w :: fields [] ws'
                | n :: ns' => ljust n w :: fields ns' ws'
                end
  end.

Definition pair_eqb (p q : string * string) : bool :=
  String.eqb (fst p) (fst q) && String.eqb (snd p) (snd q).

(** plaschem/classification.py L505-563 [get_aligned_reaction_string]. *)
Definition get_aligned (k : clf) (r : cr) : clf * res string :=
  match classify_m k r with
  | (k1, Err e) => (k1, Err e)
  | (k1, Ok (t, c)) =>
      let ws :=
        match aget pair_eqb (t, c) (k_align k1) with
        | Some w => (k1, Ok w)
        | None =>
            match sget t (k_classified k1) with
            | None => (k1, Err EKey)
            | Some cats =>
                match sget c cats with
                | None => (k1, Err EKey)
                | Some l =>
                    match widths k1 l ([], []) with
                    | (k2, Err e) => (k2, Err e)
                    | (k2, Ok w) =>
                        (MkClf (k_species k2) (k_reactions k2) (k_classified k2)
                               (aset pair_eqb (t, c) w (k_align k2)) (k_index k2) (k_class k2)
                               (k_names k2), Ok w)
                    end
                end
            end
        end in
      match ws with
      | (k2, Err e) => (k2, Err e)
      | (k2, Ok (wl, wr)) =>
          match zget (cr_id r) (k_names k2) with
          | None => (k2, Err EKey)
          | Some (a, b) =>
              (k2, Ok (str_join " + " (fields a wl) ++ " > " ++ str_join " + " (fields b wr))%string)
          end
      end
  end.
