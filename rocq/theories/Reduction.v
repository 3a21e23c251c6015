(** Model of the reduction iterator: pygmo_fwork/optichem/reduction.py,
    L18-383. The runs are those of GlobalModel.v, including the files they
    write; what the solver does in each run is an oracle. Not modelled: the
    rms errors (same exceptions as the maximal ones), the plotting functions (the comparison of runs is in Compare.v)
    and printed messages. *)
From Verif Require Import Base Species Reactions Chemistry Morris MorrisStats Tables InitialGuess GlobalModel.
Open Scope Q_scope.

(** L29-70: the arguments. [rc_times] are the times after rounding; the
    reduction run directory is [rc_dir]. *)
Record rconf : Type := MkRc { rc_parent : path; rc_id : string; rc_outs : list string; rc_times : list Q; rc_max : Q }.
Definition rc_dir (k : rconf) : path := run_path (rc_parent k) (rc_id k).
Definition meta_path (k : rconf) : path := (rc_dir k ++ ["meta.yaml"%string])%list.
Definition hist_path (k : rconf) : path := (rc_dir k ++ ["reduction_history.csv"%string])%list.
Definition attrs_path (k : rconf) (rid : string) : path := (run_path (rc_dir k) rid ++ ["chemistry_attributes.yaml"%string])%list.
Definition meta_of (k : rconf) : content := CMeta (rc_outs k) (rc_times k) (rc_max k).

(** The mutable attributes of an instance. Sets of names are lists; the
    history is indexed by position. [r_runs] counts the runs (it selects the
    behaviour of the solver). *)
Record rstate : Type := MkR {
  r_gm : gmodel; r_fs : gfs;
  r_all : list string; r_tried : list string; r_eligible : list string;
  r_hist : list hrow;
  r_base : option table; r_last : option table;
  r_runs : nat
}.
Definition with_run st g s := MkR g s (r_all st) (r_tried st) (r_eligible st) (r_hist st) (r_base st) (r_last st) (S (r_runs st)).
Definition with_gm st g := MkR g (r_fs st) (r_all st) (r_tried st) (r_eligible st) (r_hist st) (r_base st) (r_last st) (r_runs st).
Definition with_fs st s := MkR (r_gm st) s (r_all st) (r_tried st) (r_eligible st) (r_hist st) (r_base st) (r_last st) (r_runs st).
Definition with_tried st l := MkR (r_gm st) (r_fs st) (r_all st) l (r_eligible st) (r_hist st) (r_base st) (r_last st) (r_runs st).
Definition with_eligible st l := MkR (r_gm st) (r_fs st) (r_all st) (r_tried st) l (r_hist st) (r_base st) (r_last st) (r_runs st).
Definition with_hist st h := MkR (r_gm st) (r_fs st) (r_all st) (r_tried st) (r_eligible st) h (r_base st) (r_last st) (r_runs st).
Definition with_sols st b l := MkR (r_gm st) (r_fs st) (r_all st) (r_tried st) (r_eligible st) (r_hist st) b l (r_runs st).

(** [self.model.model.chemistry]. *)
Definition gm_chem (g : gmodel) : option chem := match gm_model g with Some m => Some (bm_chem m) | None => None end.
Definition set_chem (g : gmodel) (c : chem) : gmodel :=
  MkGm (gm_backend g) (match gm_model g with Some m => Some (MkBm c (bm_par m) (bm_data m)) | None => None end) (gm_last g).

Definition minus (l m : list string) : list string := filter (fun x => negb (memS x m)) l.

(** [set.remove]. *)
Definition set_remove (x : string) (l : list string) : res (list string) :=
  if memS x l then Ok (minus l [x]) else Err EKey.
(** Removing the elements of a set in its iteration order; here the order of
    the chemistry. *)
Fixpoint set_remove_all (xs l : list string) : list string * res unit :=
  match xs with
  | [] => (l, Ok tt)
  | x :: xs' => match set_remove x l with Ok l' => set_remove_all xs' l' | Err e => (l, Err e) end
  end.

(** [os.listdir] of a directory is not empty. *)
Definition has_entries (s : gfs) (p : path) : bool :=
  existsb (fun q => path_eqb (removelast q) p && negb (path_eqb q p)) (fs_dirs s ++ map fst (fs_files s)).

Definition fnan (x : flt) : bool := match x with NaN => true | _ => false end.

(** L24-25; [{:02d}] of the index. *)
Definition base_id : string := "00_full_chemistry".
Definition two_digits (E : env) (n : nat) : string :=
  ((if Nat.ltb n 10 then "0" else "") ++ ishow E (Z.of_nat n))%string.
Definition model_id (E : env) (n : nat) (species : string) : string := (two_digits E n ++ "_disabled_" ++ species)%string.

(** [os.remove]. *)
Definition remove_file (p : path) : action := fun s => if isfile s p then rm_file p s else (s, Err EOS).

(** Static or recalculated rankings, L284-300. The second argument of a
    recalculated ranking is the number of runs so far. Index labels are
    unique. *)
Inductive ranking : Type := Static (l : list (string * Q)) | Dynamic (f : gmodel -> nat -> res (list (string * Q))).

(** [list(values) == list(sorted(values))]. *)
Fixpoint ascendingb (l : list Q) : bool :=
  match l with
  | x :: (y :: _) as l' => Qle_bool x y && ascendingb l'
  | _ => true
  end.

Fixpoint list_eqb {A} (eqb : A -> A -> bool) (l m : list A) : bool :=
  match l, m with
  | [], [] => true
  | x :: l', y :: m' => eqb x y && list_eqb eqb l' m'
  | _, _ => false
  end.

Section Reduction.
  Variable E : env.
  Variable fhash : string -> option string.
  Variable default_dir : string -> res path.
  Variable scan : list path -> list path.
  Variable backend : nat -> solving.                  (* what the solver does in each run *)
  Variable k : rconf.

  (** L29-93 [__init__] and L113-126 [make_dir_structure_if_clear]. *)
  Definition r_init (g : gmodel) (s : gfs) : gfs * res rstate :=
    let d := rc_dir k in
    let dirs :=
      if negb (isdir s (rc_parent k)) then (s, Failed EReductionInit)
      else if negb (isdir s d) then exec None [mkdir d; put (meta_path k) (meta_of k)] s
      else if has_entries s d then (s, Failed EReductionInit)
      else (s, Finished) in
    match dirs with
    | (s', Failed e) => (s', Err e)
    | (s', Crashed) => (s', Err EFuel)
    | (s', Finished) =>
        match gm_chem g with
        | None => (s', Err EAttribute)
        | Some c =>
            let elig := minus (map sp_name (get_species c false false false)) (rc_outs k) in
            let all := names_of c in
            match elig with
            | [] => (s', Err EReductionInit)
            | _ => if negb (Nat.eqb (List.length (odedupS all)) (List.length (get_species c false false true))) then (s', Err EAssertion)
                   else (s', Ok (MkR g s' all [] elig [] None None 0))
            end
        end
    end.

  (** L128-150 [_run_model]. *)
  Definition run_model (st : rstate) (rid : string) : rstate * res unit :=
    match gm_run E fhash default_dir scan None (r_gm st) (MkRun (Some rid) 1 None true (Some (rc_dir k)) false false)
            (backend (r_runs st)) (r_fs st) with
    | (g, s, Failed e) => (with_run st g s, Err e)
    | (g, s, Crashed) => (with_run st g s, Err EFuel)
    | (g, s, Finished) =>
        let p := run_path (rc_dir k) rid in
        match fget (p ++ ["solution.csv"%string])%list (fs_files s) with
        | Some (CTable t) =>
            match compress_solution t (1 # 20) (1 # 1000) with
            | Err e => (with_run st g s, Err e)
            | Ok t' =>
                match exec None [put (p ++ ["solution.csv"%string])%list (CTable t'); remove_file (p ++ ["rates.csv"%string])%list;
                                 remove_file (p ++ ["wall_fluxes.csv"%string])%list] s with
                | (s', Failed e) => (with_run st g s', Err e)
                | (s', Crashed) => (with_run st g s', Err EFuel)
                | (s', Finished) => (with_run st g s', Ok tt)
                end
            end
        | _ => (with_run st g s, Err EOS)
        end
    end.

  (** L278-285 [log]. *)
  Definition log_history (st : rstate) : rstate * res unit :=
    let (s, o) := put (hist_path k) (CHist (r_hist st)) (r_fs st) in (with_fs st s, o).

  (** L152-180 [run_base_case]. *)
  Definition run_base_case (st : rstate) : rstate * res unit :=
    match r_hist st with
    | _ :: _ => (st, Err EReductionRun)
    | [] =>
        match r_tried st, r_base st, r_last st with
        | [], None, None =>
            match run_model st base_id with
            | (st1, Err e) => (st1, Err e)
            | (st1, Ok _) =>
                let st2 := with_hist st1 [MkRow (Some base_id) None None (Some true) [] 0 (Z.of_nat (List.length (r_all st1))) (Fin 0) (Fin 0)] in
                match log_history st2 with
                | (st3, Err e) => (st3, Err e)
                | (st3, Ok _) =>
                    match get_solution (r_gm st3) with
                    | Err e => (st3, Err e)
                    | Ok t => (with_sols st3 (Some t) (Some t), Ok tt)
                    end
                end
            end
        | _, _, _ => (st, Err EAssertion)
        end
    end.

  Definition over (e : flt) : bool := fltb (Fin (rc_max k / 100)) e.

  (** L215-219: the run to go back to. *)
  Definition restorable (bt : bool) (r : hrow) : bool :=
    match h_success r with
    | Some true => if bt then fleb (h_base r) (Fin (rc_max k / 100)) else true
    | _ => false
    end.
  Definition restore_id (bt : bool) (h : list hrow) : res string :=
    if existsb (fun r => match h_success r with None => true | Some _ => false end) h then Err EValue   (* NaN in the mask *)
    else match rev (filter (fun o => match o with Some _ => true | None => false end) (map h_run (filter (restorable bt) h))) with
         | Some rid :: _ => Ok rid
         | _ => Err EIndex
         end.

  (** [load_chemistry_attributes] of a path, with the check of the hash. *)
  Definition restore (st : rstate) (rid : string) : rstate * res unit :=
    match gm_chem (r_gm st), fget (attrs_path k rid) (fs_files (r_fs st)) with
    | Some c, Some (CAttrs a) => let (c', o) := load E fhash c a true in (with_gm st (set_chem (r_gm st) c'), o)
    | _, _ => (st, Err EChemAttr)
    end.

  (** L226-246: disable and run; the result tells whether the species was
      removed. *)
  Definition attempt (st : rstate) (species rid back : string) : rstate * res bool :=
    match gm_chem (r_gm st) with
    | None => (st, Err EAttribute)
    | Some c =>
        match disable c [RName species] [] with
        | (c1, Err EChemDisable) => (with_gm st (set_chem (r_gm st) c1), Ok false)
        | (c1, Err e) => (with_gm st (set_chem (r_gm st) c1), Err e)
        | (c1, Ok _) =>
            match run_model (with_gm st (set_chem (r_gm st) c1)) rid with
            | (st2, Ok _) => match set_remove species (r_eligible st2) with
                             | Ok l => (with_eligible st2 l, Ok true)
                             | Err e => (st2, Err e)
                             end
            | (st2, Err EModelSolution) | (st2, Err EInterrupt) =>
                match restore st2 back with
                | (st3, Ok _) => (st3, Ok false)
                | (st3, Err e) => (st3, Err e)
                end
            | (st2, Err e) => (st2, Err e)
            end
        end
    end.

  (** L255-285: the rest after a successful removal. *)
  Definition assess (st : rstate) (h : list hrow) (row : hrow) (species rid back : string) (before after : list string) (bt : bool)
      : rstate * res hrow :=
    let removed := minus before after in
    if negb (memS species removed) then (with_hist st (h ++ [row]), Err EAssertion)
    else
      let more := minus removed [species] in
      let row1 := MkRow None (h_species row) (h_score row) (h_success row) more (h_removed row) (h_left row) NaN NaN in
      match set_remove_all more (r_eligible st) with
      | (l, Err e) => (with_hist (with_eligible st l) (h ++ [row1]), Err e)
      | (l, Ok _) =>
          let st1 := with_eligible st l in
          let row2 := MkRow (Some rid) (h_species row) (h_score row) (h_success row) more (h_removed row) (h_left row) NaN NaN in
          match get_solution (r_gm st1), r_base st1, r_last st1 with
          | Ok sol, Some base, Some last =>
              match get_error_max base sol (rc_outs k) (rc_times k), get_error_max last sol (rc_outs k) (rc_times k) with
              | Ok eb, Ok el =>
                  let row3 := MkRow (Some rid) (h_species row) (h_score row) (h_success row) more (h_removed row) (h_left row) eb el in
                  let st2 := with_hist st1 (h ++ [row3]) in
                  let back_or_on :=
                    if bt && over eb then
                      match restore st2 back with
                      | (st3, Ok _) => (with_eligible st3 (species :: more ++ r_eligible st3), Ok tt)
                      | (st3, Err e) => (st3, Err e)
                      end
                    else (with_sols st2 (r_base st2) (Some sol), Ok tt) in
                  match back_or_on with
                  | (st4, Err e) => (st4, Err e)
                  | (st4, Ok _) => match log_history st4 with
                                   | (st5, Ok _) => (st5, Ok row3)
                                   | (st5, Err e) => (st5, Err e)
                                   end
                  end
              | Err e, _ | _, Err e => (with_hist st1 (h ++ [row2]), Err e)
              end
          | Err e, _, _ => (with_hist st1 (h ++ [row2]), Err e)
          | _, _, _ => (with_hist st1 (h ++ [row2]), Err EAttribute)       (* no base solution: AttributeError *)
          end
      end.

  (** [self.meta == yaml.load(...)]. *)
  Definition check_meta (s : gfs) : res unit :=
    match fget (meta_path k) (fs_files s) with
    | None => Err EOS
    | Some (CMeta o t m) =>
        raise_if (negb (list_eqb String.eqb o (rc_outs k) && list_eqb Qeq_bool t (rc_times k) && Qeq_bool m (rc_max k))) EAssertion
    | Some _ => Err EAssertion
    end.

  (** L182-289 [remove_one_species_and_run]. *)
  Definition remove_one (st : rstate) (species : string) (score : Q) (bt : bool) : rstate * res hrow :=
    match r_hist st with
    | [] => (st, Err EReductionRun)
    | _ =>
        if negb (memS species (r_eligible st)) then (st, Err EReductionRun)
        else if memS species (r_tried st) then (st, Err EAssertion)
        else match check_meta (r_fs st) with
        | Err e => (st, Err e)
        | Ok _ =>
            let st1 := with_tried st (r_tried st ++ [species]) in
            let index := List.length (r_tried st1) in
            if negb (Nat.eqb index (List.length (r_hist st1))) then (st1, Err EAssertion)
            else match restore_id bt (r_hist st1) with
            | Err e => (st1, Err e)
            | Ok back =>
                let rid := model_id E index species in
                let h := r_hist st1 in
                let row0 := MkRow None (Some species) (Some score) None [] 0 0 NaN NaN in
                let st2 := with_hist st1 (h ++ [row0]) in
                match gm_chem (r_gm st2) with
                | None => (st2, Err EAttribute)
                | Some c =>
                    let before := names_of c in
                    match attempt st2 species rid back with
                    | (st3, Err e) => (st3, Err e)
                    | (st3, Ok success) =>
                        match gm_chem (r_gm st3) with
                        | None => (st3, Err EAttribute)
                        | Some c3 =>
                            let after := names_of c3 in
                            let left := Z.of_nat (List.length after) in
                            let row := MkRow None (Some species) (Some score) (Some success) []
                                         (Z.of_nat (List.length (r_all st3)) - left) left NaN NaN in
                            if success then assess st3 h row species rid back before after bt
                            else match log_history (with_hist st3 (h ++ [row])) with
                                 | (st4, Ok _) => (st4, Ok row)
                                 | (st4, Err e) => (st4, Err e)
                                 end
                        end
                    end
                end
            end
        end
    end.

  (** L334-346: the first species that was not tried yet. *)
  Fixpoint next_species (tried : list string) (l : list (string * Q)) : option (string * Q * list (string * Q)) :=
    match l with
    | [] => None
    | (sp, x) :: l' => if memS sp tried then next_species tried l' else Some (sp, x, l')
    end.

  Definition rank (r : ranking) (st : rstate) : res (list (string * Q)) :=
    match r with Static l => Ok l | Dynamic f => f (r_gm st) (r_runs st) end.

  (** L328-371: the loop; [None] when the fuel runs out. *)
  Fixpoint reduction_loop (fuel : nat) (r : ranking) (max_streak : Z) (st : rstate) (l : list (string * Q)) (streak : Z)
      : option (rstate * res unit) :=
    match fuel with
    | O => None
    | S fuel' =>
        match l with
        | [] => Some (st, Ok tt)
        | _ =>
            if negb (ascendingb (map snd l)) then Some (st, Err EAssertion)
            else match next_species (r_tried st) l with
            | None => Some (st, Ok tt)
            | Some (sp, score, l') =>
                if memS sp (r_eligible st) then
                  match remove_one st sp score true with
                  | (st1, Err e) => Some (st1, Err e)
                  | (st1, Ok row) =>
                      let e := h_base row in
                      let good := negb (fnan e) && negb (over e) in
                      let streak' := if fnan e then streak else if over e then (streak + 1)%Z else 0%Z in
                      match (match r with
                             | Dynamic f => if good then f (r_gm st1) (r_runs st1) else Ok l'
                             | Static _ => Ok l'
                             end) with
                      | Err e => Some (st1, Err e)
                      | Ok l'' =>
                          if Z.ltb max_streak streak' || match r_eligible st1 with [] => true | _ => false end then Some (st1, Ok tt)
                          else reduction_loop fuel' r max_streak st1 l'' streak'
                      end
                  end
                else reduction_loop fuel' r max_streak st l' streak
            end
        end
    end.

  (** L287-377 [run_reduction]. *)
  Definition run_reduction (fuel : nat) (st : rstate) (r : ranking) (max_streak : Z) : option (rstate * res unit) :=
    match gm_chem (r_gm st) with
    | None => Some (st, Err EAttribute)
    | Some c =>
        match get_disabled_species c, get_disabled_reactions c with
        | [], [] =>
            match run_base_case st with
            | (st1, Err e) => Some (st1, Err e)
            | (st1, Ok _) =>
                match rank r st1 with
                | Err e => Some (st1, Err e)
                | Ok l =>
                    match reduction_loop fuel r max_streak st1 l 0 with
                    | None => None
                    | Some (st2, Err e) => Some (st2, Err e)
                    | Some (st2, Ok _) =>
                        match gm_chem (r_gm st2) with
                        | None => Some (st2, Err EAttribute)
                        | Some c2 => Some (with_gm st2 (set_chem (r_gm st2) (reset c2)), Ok tt)
                        end
                    end
                end
            end
        | _, _ => Some (st, Err EAssertion)
        end
    end.
End Reduction.
