(** Model of pygmo_fwork/optichem/graph.py, class ChemistryGraph.

    The arrays extracted from the chemistry and from the data frames
    (graph.py L307-333) are functions of indices: times [t], reactions [j],
    species [a], [b]. Numbers are exact rationals; a NaN of the coupling
    coefficients is None. [pi] cancels in [area/vol]. The constructor's
    consistency checks (L340-379) compare labels only (modelled in GraphInit.v); here
    the arrays are given. *)
From Coq Require Import Reals Qabs.
From Verif Require Import Base SortLemmas Graph GraphPaths.
Local Open Scope Q_scope.

Record cgraph : Type := MkCG {
  cg_species : list string;            (* L317: names, special species included *)
  cg_special : list string;            (* L316 *)
  cg_reactions : nat;                  (* number of reactions, L318 *)
  cg_times : list Q;                   (* L319 *)
  cg_radius : Q;                       (* L311 *)
  cg_length : Q;                       (* L312 *)
  cg_ret : nat -> nat -> Q;            (* L322: returned species, stuck species *)
  cg_rate : nat -> nat -> Q;           (* L325: time, reaction *)
  cg_flux : nat -> nat -> Q;           (* L327-330: time, species *)
  cg_lhs : nat -> nat -> Z;            (* L332: reaction, species *)
  cg_rhs : nat -> nat -> Z             (* L333 *)
}.

Definition Qsum {X} (f : X -> Q) (l : list X) : Q := fold_right (fun x a => f x + a) 0 l.
Definition sumto (n : nat) (f : nat -> Q) : Q := Qsum f (seq 0 n).

Inductive weighting := DRG | DRG1 | DRG2 | DRGEP.

Section Weights.
  Variable k : cgraph.
  Let ns := List.length (cg_species k).
  Let nr := cg_reactions k.

  (** L313-314: [area / vol] *)
  Definition area_vol : Q := 2 * (cg_radius k + cg_length k) / (cg_radius k * cg_length k).
  (** L334 *)
  Definition net (j a : nat) : Z := (cg_rhs k j a - cg_lhs k j a)%Z.
  (** L336 *)
  Definition delta (j b : nat) : Q := if (0 <? cg_lhs k j b + cg_rhs k j b)%Z then 1 else 0.

  (** L403-417: [surf_rates[t, b, a]] *)
  Definition stick_rate (t b : nat) : Q := cg_flux k t b * area_vol.
  Definition surf_rate (surface : bool) (t b a : nat) : Q :=
    if surface then (if Nat.eqb b a then stick_rate t b else 0) + - (cg_ret k a b) * stick_rate t b
    else 0.

  (** L420-437: [r[t, b, a]] before zeros become NaN *)
  Definition coupling (m : weighting) (surface : bool) (t b a : nat) : Q :=
    match m with
    | DRG | DRG1 =>
        sumto nr (fun j => Qabs (inject_Z (net j a)) * cg_rate k t j * delta j b) + Qabs (surf_rate surface t b a)
    | DRG2 | DRGEP =>
        Qabs (sumto nr (fun j => inject_Z (net j a) * cg_rate k t j * delta j b) + surf_rate surface t b a)
    end.

  Definition cap0 (x : Q) : Q := if Qltb x 0 then 0 else x.

  (** L453-466: [tot_prod], [tot_cons] *)
  Definition tot_prod (surface : bool) (t a : nat) : Q :=
    sumto nr (fun j => cap0 (inject_Z (net j a)) * cg_rate k t j) + sumto ns (fun b => cap0 (surf_rate surface t b a)).
  Definition tot_cons (surface : bool) (t a : nat) : Q :=
    sumto nr (fun j => cap0 (inject_Z (- net j a)) * cg_rate k t j) + sumto ns (fun b => cap0 (- surf_rate surface t b a)).

  (** L441-475 *)
  Definition normalisation (m : weighting) (surface : bool) (t a : nat) : Q :=
    match m with
    | DRG => sumto nr (fun j => Qabs (inject_Z (net j a)) * cg_rate k t j) + sumto ns (fun b => Qabs (surf_rate surface t b a))
    | DRG1 | DRG2 =>
        Qabs (sumto nr (fun j => inject_Z (net j a) * cg_rate k t j) + sumto ns (fun b => surf_rate surface t b a))
    | DRGEP =>
        if Qltb (tot_cons surface t a) (tot_prod surface t a) then tot_prod surface t a
        else if Qltb (tot_prod surface t a) (tot_cons surface t a) then tot_cons surface t a
        else 0
    end.

  (** L438, L477-479: zeros become NaN before the division *)
  Definition weight (m : weighting) (surface : bool) (t b a : nat) : option Q :=
    let r := coupling m surface t b a in
    let n := normalisation m surface t a in
    if Qeq_bool r 0 || Qeq_bool n 0 then None else Some (r / n).

  Definition name (a : nat) : string := nth a (cg_species k) "".

  (** L486-490: one edge *)
  Definition put_edge (m : weighting) (surface : bool) (t a b : nat) (g : graph Q) : res (graph Q) :=
    if String.eqb (name a) (name b) then Ok g
    else match weight m surface t b a with
         | None => Ok g
         | Some w =>
             let (g1, r1) := add_edge g (name b) (name a) in
             let* _ := r1 in
             let (g2, r2) := update_edge_attributes (Qltb 0) g1 (name b) (name a) [("weight", w)] in
             let* _ := r2 in Ok g2
         end.

  Fixpoint put_edges (m : weighting) (surface : bool) (t : nat) (l : list (nat * nat)) (g : graph Q) : res (graph Q) :=
    match l with
    | [] => Ok g
    | (a, b) :: l' => let* g1 := put_edge m surface t a b g in put_edges m surface t l' g1
    end.

  (** L468-469 *)
  Definition sane (m : weighting) (surface : bool) : bool :=
    match m with
    | DRGEP => forallb (fun t => forallb (fun a => Qle_bool 0 (tot_prod surface t a) && Qle_bool 0 (tot_cons surface t a))
                                         (seq 0 ns)) (seq 0 (List.length (cg_times k)))
    | _ => true
    end.

  (** L387-491 [distribute_weights]: the graphs, one for each time *)
  Definition distribute_weights (m : weighting) (surface : bool) : res (list (graph Q)) :=
    let* _ := raise_if (negb (sane m surface)) EAssertion in
    mapM (fun t => let* g := put_edges m surface t (list_prod (seq 0 ns) (seq 0 ns)) graph_new in
                   Ok (set_distributed g true))
         (seq 0 (List.length (cg_times k))).

  (** ** L493-547 [get_ranking] *)
  Context {V : Type}.
  Variable vltb : V -> V -> bool.
  (** Row labels: ['{} ({:.3e})'.format(species, time)] *)
  Variable label : string -> Q -> string.
  (** The scores of one important species at one time (L525-538). *)
  Variable scores : graph Q -> string -> res (list (string * option V)).

  Definition assessed (important : list string) : list string :=
    filter (fun s => negb (memS s important || memS s (cg_special k))) (cg_species k).

  (** [ranking_all.loc[index, :] = scores]: a new row, or the replacement of
      the row with the same label; NaN where [scores] has no entry. *)
  Definition row_of (cols : list string) (sc : list (string * option V)) : list (string * option V) :=
    map (fun s => (s, match sget s sc with Some x => x | None => None end)) cols.

  Fixpoint rows (cols : list string) (l : list (string * Q * graph Q)) (acc : list (string * list (string * option V)))
    : res (list (string * list (string * option V))) :=
    match l with
    | [] => Ok acc
    | (imp, t, g) :: l' =>
        let* sc := scores g imp in
        rows cols l' (sset (label imp t) (row_of cols sc) acc)
    end.

  (** [max(axis=0)], NaN ignored *)
  Definition vmax (x y : option V) : option V :=
    match x, y with
    | None, y => y
    | x, None => x
    | Some a, Some b => if vltb a b then Some b else Some a
    end.
  Definition col_max (s : string) (rs : list (string * list (string * option V))) : option V :=
    fold_left (fun x r => vmax x (match sget s (snd r) with Some y => y | None => None end)) rs None.

  (** The ranking before it is sorted (L543). *)
  Definition ranking_values (graphs : list (graph Q)) (important : list string) : res (list (string * option V)) :=
    let* _ := raise_if (match graphs with [] => true | _ => false end) EValue in
    let cols := assessed important in
    let* rs := rows cols (map (fun x => (fst x, fst (snd x), snd (snd x)))
                                  (list_prod important (combine (cg_times k) graphs))) [] in
    Ok (map (fun s => (s, col_max s rs)) cols).

  (** L544-547: sorted ascending, NaN last. The order among equal scores is
      pandas' business (numpy's default sort is not stable). *)
  Definition score_leb (x y : string * option V) : bool :=
    match snd x, snd y with
    | _, None => true
    | None, Some _ => false
    | Some a, Some b => negb (vltb b a)
    end.
End Weights.

(** The scores by search method (L525-538). *)
Section Scores.
  Variable it : nat -> list string -> list string.

  (** 'max_bottleneck' *)
  Definition scores_bottleneck (g : graph Q) (target : string) : res (list (string * option (ext Q))) :=
    let* r := find_max_bottleneck_paths (N := GraphPaths.Qnum) it Ok (fun x => x) g "weight" target in
    Ok (map (fun kv => (fst kv, Some (snd kv))) (snd r)).

  (** 'shortest_path', the default; [1/inf] is 0 *)
  Definition inv_length (x : ext Q) : Q := match x with Num y => 1 / y | Inf => 0 end.
  Definition scores_shortest (g : graph Q) (target : string) : res (list (string * option Q)) :=
    let* r := find_shortest_paths (N := GraphPaths.Qnum) it (fun w => Ok (1 / w)) inv_length g "weight" target in
    Ok (snd r).

  (** 'max_product' *)
  Definition scores_product (g : graph Q) (target : string) : res (list (string * option R)) :=
    let* r := find_shortest_paths (N := Rnum) it log_weight unlog g "weight" target in
    Ok (snd r).

  (** 'max_flow'; [fuel] bounds the number of augmenting paths *)
  Definition scores_flow (fuel : nat) (assessed : list string) (g : graph Q) (target : string)
    : res (list (string * option Q)) :=
    mapM (fun s => let* f := get_max_flow fuel it Ok (fun x => x) g s target "weight" in Ok (s, Some f)) assessed.
End Scores.
