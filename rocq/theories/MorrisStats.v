(** Model of the evaluation of logged trajectories (morris.py L794-980).
    Solutions have been sampled at the requested times already
    ([ResultsParser.get_results_frames]); the values of one run at one time
    are a map from output (column) to number. *)
From Coq Require Import Qabs.
From Verif Require Import Base Morris.
Open Scope Q_scope.

Definition outputs := string -> Q.

Definition qsum (l : list Q) : Q := fold_right Qplus 0 l.
Definition qmean (l : list Q) : Q := qsum l / inject_Z (Z.of_nat (List.length l)).

(** One logged trajectory at one time: the values of the base run and of the
    further runs, and deltas and factors_ids of its meta.yaml. *)
Record traj_log : Type := MkLog { tl_vals : list outputs; tl_deltas : list Q; tl_factors : list string }.

(** L831: differences of consecutive runs over the deltas. *)
Fixpoint effect_rows (vals : list outputs) (deltas : list Q) : list outputs :=
  match vals, deltas with
  | a :: ((b :: _) as rest), d :: ds => (fun o => (b o - a o) / d) :: effect_rows rest ds
  | _, _ => []
  end.

(** morris.py L794-842 [evaluate_trajectory] at one time. Lengths that do not
    match raise ValueError (in numpy's broadcasting or in DataFrame). *)
Definition evaluate_trajectory (t : traj_log) : res (list (string * outputs) * outputs) :=
  let* _ := raise_if (negb (Nat.eqb (List.length (tl_vals t)) (S (List.length (tl_deltas t))))) EValue in
  let* _ := raise_if (negb (Nat.eqb (List.length (tl_factors t)) (List.length (tl_deltas t)))) EValue in
  Ok (combine (tl_factors t) (effect_rows (tl_vals t) (tl_deltas t)),
      fun o => qmean (map (fun v => v o) (tl_vals t))).

(** One time of the MorrisStats tuple. [ms_labels] is the index of the
    frames. *)
Record morris_stats : Type := MkStats {
  ms_labels : list string;
  ms_mean : outputs;
  ms_mu : string -> outputs;
  ms_sigma : string -> string -> flt
}.

Definition group (rows : list (string * outputs)) (f : string) : list outputs :=
  map snd (filter (fun r => String.eqb (fst r) f) rows).

(** morris.py L884-922 [get_morris_stats] at one time; [std] is pandas'
    standard deviation; [pd.concat] of no frames raises. *)
Definition get_morris_stats (std : list Q -> flt) (ts : list traj_log) : res morris_stats :=
  let* evs := mapM evaluate_trajectory ts in
  let* _ := raise_if (match evs with [] => true | _ => false end) EValue in
  let rows := List.concat (map fst evs) in
  Ok (MkStats (odedupS (map fst rows))
              (fun o => qmean (map (fun e => snd e o) evs))
              (fun f o => qmean (map (fun e => e o) (group rows f)))
              (fun f o => std (map (fun e => e o) (group rows f)))).

(** float division by a finite number. *)
Definition fdivq (x : flt) (y : Q) : flt :=
  if Qeq_bool y 0 then
    match x with
    | Fin a => if Qeq_bool a 0 then NaN else if Qltb 0 a then PInf else NInf
    | _ => x
    end
  else match x with
       | Fin a => Fin (a / y)
       | PInf => if Qltb 0 y then PInf else NInf
       | NInf => if Qltb 0 y then NInf else PInf
       | NaN => NaN
       end.

Definition fabs (x : flt) : flt := match x with Fin a => Fin (Qabs a) | NInf => PInf | y => y end.

(** L911-912. *)
Definition mu_rel (m : morris_stats) (f o : string) : flt := fdivq (Fin (ms_mu m f o)) (ms_mean m o).
Definition sigma_rel (m : morris_stats) (f o : string) : flt := fdivq (ms_sigma m f o) (ms_mean m o).

(** [.sum(axis=1)] and [.max(axis=1)]: NaN values are skipped; the maximum of
    nothing is NaN. *)
Definition nansum (l : list flt) : flt := fold_left (fun a x => if is_nan x then a else fadd a x) l (Fin 0).
Definition nanmax (l : list flt) : flt :=
  fold_left (fun a x => if is_nan x then a else if is_nan a then x else if fltb a x then x else a) l NaN.

Inductive rank_method := RMean | RMax.

(** The score of one factor, L951-975. *)
Definition score (meth : rank_method) (ms : list morris_stats) (outs : list string) (f : string) : flt :=
  match meth with
  | RMean =>
      let tot := fold_left (fun a m => fadd (fadd a (nansum (map (fun o => fabs (mu_rel m f o)) outs)))
                                            (nansum (map (sigma_rel m f) outs))) ms (Fin 0) in
      fdivq (fdivq tot (inject_Z (Z.of_nat (List.length ms)))) (inject_Z (Z.of_nat (List.length outs)))
  | RMax =>
      nanmax (map (fun m => fadd (nanmax (map (fun o => fabs (mu_rel m f o)) outs))
                                 (nanmax (map (sigma_rel m f) outs))) ms)
  end.

(** [sort_values(ascending=True)]: NaN last. The order of equal scores is
    pandas' choice; insertion keeps them as they are. *)
Definition score_le (a b : flt) : bool := negb (if is_nan a then negb (is_nan b) else fltb b a).
Fixpoint rank_insert (x : string * flt) (l : list (string * flt)) : list (string * flt) :=
  match l with
  | [] => [x]
  | y :: l' => if score_le (snd x) (snd y) then x :: l else y :: rank_insert x l'
  end.
Definition rank_sort (l : list (string * flt)) : list (string * flt) := fold_right rank_insert [] l.

(** morris.py L932-980 [get_ranking]; [cols] are the outputs of the model. *)
Definition get_ranking (std : list Q -> flt) (cols : list string) (meth : rank_method) (outs : list string)
  (logs : list (list traj_log)) : res (list (string * flt)) :=
  let* ms := mapM (get_morris_stats std) logs in
  match ms with
  | [] => Err EIndex
  | m0 :: _ =>
      let* _ := raise_if (negb (subsetS outs cols)) EValue in
      Ok (rank_sort (map (fun f => (f, score meth ms outs f)) (ms_labels m0)))
  end.
