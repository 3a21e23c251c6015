(** Model of the post-processing of logged solutions:
    pygmo_fwork/results.py L96-134 [_parse_run_identifiers], L227-250
    [get_results_frames], L483-522 [compress_solution] and
    pygmo_fwork/optichem/errors.py L7-107 [SolutionsDiff].
    A solution is a table: named columns and rows with a label (the pandas
    index) and a finite number per column. *)
From Coq Require Import Qabs Reals Qreals.
From Verif Require Import Base Morris MorrisStats.
Open Scope Q_scope.

Definition row := string -> Q.

Record table : Type := MkTable { tb_cols : list string; tb_rows : list (Z * row) }.

(** [df['t']] and one further column. *)
Definition points_of (rows : list (Z * row)) (col : string) : list (Q * Q) :=
  map (fun r => (snd r "t"%string, snd r col)) rows.

(** [np.interp(x, xp, fp)] at one [x], for finite ascending [xp]: the segment
    starts at the last point not after [x]; beyond the ends the end values.
    [scipy.interpolate.interp1d] delegates to it for columns of floats. *)
Fixpoint interp (x : Q) (pts : list (Q * Q)) : res Q :=
  match pts with
  | [] => Err EValue                                     (* array of sample points is empty *)
  | (t, v) :: rest =>
      match rest with
      | [] => Ok v
      | (t', v') :: _ =>
          if Qltb x t' then Ok (if Qltb x t then v else (v' - v) / (t' - t) * (x - t) + v)
          else interp x rest
      end
  end.

(** [col.iloc[0]], [col.iloc[-1]]. *)
Definition first_time (rows : list (Z * row)) : res Q :=
  match rows with [] => Err EIndex | r :: _ => Ok (snd r "t"%string) end.
Definition last_time (rows : list (Z * row)) : res Q :=
  match rev rows with [] => Err EIndex | r :: _ => Ok (snd r "t"%string) end.

(** [df['t'].iloc[0] <= t <= df['t'].iloc[-1]]. *)
Definition in_range (rows : list (Z * row)) (t : Q) : res bool :=
  let* a := first_time rows in
  let* b := last_time rows in
  Ok (Qle_bool a t && Qle_bool t b).

Definition assert_range (rows : list (Z * row)) (t : Q) : res unit :=
  let* b := in_range rows t in raise_if (negb b) EAssertion.

(** The columns of one frame. *)
Definition frame_at (tb : table) (t : Q) : res (list (string * Q)) :=
  mapM (fun col => if String.eqb col "t" then Ok (col, t)
                   else let* v := interp t (points_of (tb_rows tb) col) in Ok (col, v)) (tb_cols tb).

(** results.py L227-250; one list of columns per requested time. *)
Definition get_results_frames (tb : table) (times : list Q) : res (list (list (string * Q))) :=
  let* _ := raise_if (negb (memS "t" (tb_cols tb))) EKey in
  let* _ := mapM (assert_range (tb_rows tb)) times in
  mapM (frame_at tb) times.

(** ** results.py L483-522 compress_solution *)

(** [full_sol.loc[label]]. *)
Definition loc (rows : list (Z * row)) (label : Z) : res row :=
  match aget Z.eqb label rows with Some r => Ok r | None => Err EKey end.

(** [(rel_diff < diff_threshold).drop('t').all()]: division by zero gives
    infinity or NaN, neither of which is below a number. *)
Definition all_close (cols : list string) (threshold : Q) (front next : row) : bool :=
  forallb (fun c => if String.eqb c "t" then true
                    else fltb (fdivq (Fin (Qabs (next c - front c))) (front c)) (Fin threshold)) cols.

(** The inner loop: from [next] on, drop rows until one differs; the last row
    is never dropped. The fuel bounds the iterations. *)
Fixpoint compress_inner (fuel : nat) (tb : table) (threshold step : Q) (front next : Z) (drop : list Z)
  : res (Z * list Z) :=
  match fuel with
  | O => Err EFuel
  | S fuel' =>
      if next >=? Z.of_nat (List.length (tb_rows tb)) - 1 then Ok (next, drop)
      else
        let* b := loc (tb_rows tb) next in
        let* a := loc (tb_rows tb) front in
        if Qltb (Qabs (b "t"%string - a "t"%string)) step
        then compress_inner fuel' tb threshold step front (next + 1) (next :: drop)
        else if all_close (tb_cols tb) threshold a b
        then compress_inner fuel' tb threshold step front (next + 1) (next :: drop)
        else Ok (next, drop)
  end.

Fixpoint compress_outer (fuel : nat) (tb : table) (threshold step : Q) (front : Z) (drop : list Z)
  : res (list Z) :=
  match fuel with
  | O => Err EFuel
  | S fuel' =>
      if front >=? Z.of_nat (List.length (tb_rows tb)) - 1 then Ok drop
      else
        let* nd := compress_inner (S (List.length (tb_rows tb))) tb threshold step front (front + 1) drop in
        compress_outer fuel' tb threshold step (fst nd) (snd nd)
  end.

(** [full_sol.drop(labels)]. *)
Definition drop_rows (tb : table) (labels : list Z) : res table :=
  let* _ := raise_if (negb (forallb (fun i => memZ i (map fst (tb_rows tb))) labels)) EKey in
  Ok (MkTable (tb_cols tb) (filter (fun r => negb (memZ (fst r) labels)) (tb_rows tb))).

Definition compress_solution (tb : table) (threshold min_timestep : Q) : res table :=
  let* _ := raise_if (negb (memS "t" (tb_cols tb))) EKey in
  let* last := last_time (tb_rows tb) in
  let* drop := compress_outer (S (List.length (tb_rows tb))) tb threshold (last * min_timestep) 0 [] in
  drop_rows tb drop.

(** ** errors.py *)

(** L16-21, L31-38: construction and [_validate_solution]. *)
Definition diff_init (full : table) : res table :=
  let* _ := raise_if (negb (memS "t" (tb_cols full))) EAssertion in Ok full.

(** L40-52 [_get_result_in_time]. *)
Definition result_in_time (tb : table) (out : string) (t : Q) : res Q :=
  let* _ := raise_if (negb (memS out (tb_cols tb))) EAssertion in
  let* _ := assert_range (tb_rows tb) t in
  interp t (points_of (tb_rows tb) out).

(** Python's [max] of numbers. *)
Definition pymax (l : list flt) : res flt :=
  match l with
  | [] => Err EValue
  | x :: l' => Ok (fold_left (fun m y => if fltb m y then y else m) l' x)
  end.

Definition Qmaxl (a : Q) (l : list Q) : Q := fold_left (fun m y => if Qltb m y then y else m) l a.

Fixpoint zip_errors (top : Q) (red full : list Q) : list flt :=
  match red, full with
  | r :: red', f :: full' => fdivq (Fin (2 * (r - f))) (f + top) :: zip_errors top red' full'
  | _, _ => []
  end.

(** L54-69 [get_output_errors]. *)
Definition get_output_errors (full red : table) (out : string) (times : list Q) : res (list flt) :=
  let* vf := mapM (result_in_time full out) times in
  let* vr := mapM (result_in_time red out) times in
  match vf with
  | [] => Err EValue                                     (* max of nothing *)
  | v :: vs => Ok (zip_errors (Qmaxl v vs) vr vf)
  end.

(** L71-78. *)
Definition get_output_error_max (full red : table) (out : string) (times : list Q) : res flt :=
  let* es := get_output_errors full red out times in pymax (map fabs es).

(** L90-97. *)
Definition get_error_max (full red : table) (outs : list string) (times : list Q) : res flt :=
  let* ms := mapM (fun o => get_output_error_max full red o times) outs in pymax ms.

(** [np.sqrt(np.mean(np.square(array)))]; [None] stands for a value that is
    not a number. Square roots are those of the real numbers. *)
Definition finite_part (x : flt) : option R := match x with Fin q => Some (Q2R q) | _ => None end.

Fixpoint all_some {A} (l : list (option A)) : option (list A) :=
  match l with
  | [] => Some []
  | Some a :: l' => match all_some l' with Some m => Some (a :: m) | None => None end
  | None :: _ => None
  end.

Definition array_rms (l : list (option R)) : option R :=
  match all_some l with
  | None | Some [] => None
  | Some rs => Some (sqrt (fold_right Rplus 0%R (map Rsqr rs) / INR (List.length rs)))
  end.

(** L80-88 and L99-107. *)
Definition get_output_error_rms (full red : table) (out : string) (times : list Q) : res (option R) :=
  let* es := get_output_errors full red out times in Ok (array_rms (map finite_part es)).

Definition get_error_rms (full red : table) (outs : list string) (times : list Q) : res (option R) :=
  let* ms := mapM (fun o => get_output_error_rms full red o times) outs in Ok (array_rms ms).

(** ** results.py L96-134 *)

Record run_ids : Type := MkIds { ri_run : string; ri_backend : option string; ri_dir : option string; ri_file : option string }.

(** config.py L16-19. *)
Definition accepted_backends : list string := ["pygmol"; "pygkin"]%string.

(** [isdir] is the state of the file system; [lower] is [str.lower]. The
    collection is given as a list; a bare string is a list of one. *)
Definition parse_run_identifiers (lower : string -> string) (isdir : string -> bool) (run : list string) : res run_ids :=
  match run with
  | [] => Err EIndex                                                     (* pop from empty list *)
  | [r] => Ok (MkIds r None None None)
  | [r; a] => if memS (lower a) accepted_backends then Ok (MkIds r (Some a) None None)
              else if isdir a then Ok (MkIds r None (Some a) None)
              else Ok (MkIds r None None (Some a))
  | [r; a; f] => if memS (lower a) accepted_backends then Ok (MkIds r (Some a) None (Some f))
                 else Ok (MkIds r None (Some a) (Some f))
  | _ => Err EResultsAttr
  end.

(** L43-58 [_fetch_results_dir]; [dir_of] is [Config().get_results_dir]. *)
Definition fetch_results_dir (dir_of : string -> res string) (nominal : string) (backend dir : option string) : res string :=
  match backend, dir with
  | None, Some d => Ok d
  | Some b, None => dir_of b
  | None, None => Ok nominal
  | Some _, Some _ => Err EResultsAttr
  end.
