(** Model of the printed reports of processes, pygmo_fwork/results.py L20-27 and
    L415-480 (class ResultsParser). The text is modelled by the lines printed
    below the heading; a line is the process and its rate. *)
From Coq Require Import Reals.
From Verif Require Import Base Species Reactions Chemistry ExtReal Equations Views Rates.

(** The labels: 'R<id> <reaction>' and 'S<id> <conversion>' (L344-348,
    L400-409); the text behind the ids is determined by them. *)
Inductive process : Type := PVolume (reaction : Z) | PSurface (species : Z).
Definition process_eqb (a b : process) : bool :=
  match a, b with
  | PVolume x, PVolume y => x =? y
  | PSurface x, PSurface y => x =? y
  | _, _ => false
  end.
Fixpoint repeated (l : list process) : bool :=
  match l with [] => false | x :: l' => existsb (process_eqb x) l' || repeated l' end.

(** L432-437, L464-469: both lists, with distinct labels. *)
Definition all_rates (c : chem) (a : ref) (radius length : R) (rates : rates_row) (fluxes : flux_row) : res (list (process * R)) :=
  let* v := get_volumetric_rates c a rates in
  let* s := get_surface_rates c a radius length fluxes in
  let l := (map (fun kv => (PVolume (fst kv), snd kv)) v ++ map (fun kv => (PSurface (fst kv), snd kv)) s)%list in
  let* _ := raise_if (repeated (map fst l)) EValue in
  Ok l.

(** [sort_values]; [first x y]: [x] may stand before [y]. *)
Fixpoint put_line (first : R -> R -> bool) (x : process * R) (l : list (process * R)) : list (process * R) :=
  match l with
  | [] => [x]
  | y :: l' => if first (snd x) (snd y) then x :: l else y :: put_line first x l'
  end.
Definition sort_lines (first : R -> R -> bool) (l : list (process * R)) : list (process * R) := fold_right (put_line first) [] l.

(** [iloc[:n]]: a negative [n] counts from the end. *)
Definition slice {A} (n : Z) (l : list A) : list A :=
  if n <? 0 then firstn (List.length l - Z.to_nat (- n)) l else firstn (Z.to_nat n) l.

(** L20-27. *)
Definition unit_factor (u : string) : res R :=
  if memS u ["m-3/s"; "m-3.s-1"; "m-3s-1"] then Ok 1%R
  else if memS u ["cm-3/s"; "cm-3.s-1"; "cm-3s-1"] then Ok (/ 10 ^ 6)%R
  else Err EKey.

(** The printed lines, and whether dots are printed below them. *)
Record printed : Type := MkPrinted { pr_lines : list (process * R); pr_more : bool }.
Definition print_some (n : option Z) (u : string) (first : R -> R -> bool) (l : list (process * R)) : res printed :=
  let len := Z.of_nat (List.length l) in
  let n' := match n with Some z => z | None => len end in
  let* f := unit_factor u in
  Ok (MkPrinted (map (fun kv => (fst kv, (snd kv * f)%R)) (slice n' (sort_lines first l))) (n' <? len)).

Definition Rltb (x y : R) : bool := if Rlt_dec x y then true else false.
Definition Rleb (x y : R) : bool := if Rle_dec x y then true else false.

(** L415-448. *)
Definition print_production c a radius length rates fluxes (n : option Z) (u : string) : res printed :=
  let* l := all_rates c a radius length rates fluxes in
  print_some n u (fun x y => Rleb y x) (filter (fun kv => Rltb 0 (snd kv)) l).

(** L450-480. *)
Definition print_consumption c a radius length rates fluxes (n : option Z) (u : string) : res printed :=
  let* l := all_rates c a radius length rates fluxes in
  print_some n u Rleb (filter (fun kv => Rltb (snd kv) 0) l).
