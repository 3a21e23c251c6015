(** What is claimed about reductions. *)
From Verif Require Import Base Species Reactions Chemistry ChemSpec MorrisStats Tables InitialGuess GlobalModel Reduction.
Open Scope Q_scope.

(** Ad-hoc values with the same keys that are the same numbers. *)
Definition same_values (E : env) (l m : list (Z * scalar)) : Prop :=
  map (fun x => (fst x, py_float E (snd x))) l = map (fun x => (fst x, py_float E (snd x))) m.

(** Two chemistries that cannot be told apart except by the Python types of
    ad-hoc numbers. *)
Definition same_chem (E : env) (c d : chem) : Prop :=
  c_kind c = c_kind d /\ c_species c = c_species d /\ c_reactions c = c_reactions d /\ c_xml c = c_xml d /\
  (forall s, In s (c_species c) -> c_en c (sp_id s) = c_en d (sp_id s) /\ c_prot c (sp_id s) = c_prot d (sp_id s) /\
                                   c_adprot c (sp_id s) = c_adprot d (sp_id s)) /\
  (forall r, In r (c_reactions c) -> c_enr c (rx_id r) = c_enr d (rx_id r)) /\
  same_values E (c_stick c) (c_stick d) /\ c_ret c = c_ret d /\ same_values E (c_arrh c) (c_arrh d).

(** The names a user sees as the species of a chemistry: those of its enabled
    heavy species. *)
Definition present (c : chem) (x : string) : Prop :=
  exists s, In s (c_species c) /\ sp_name s = x /\ c_en c (sp_id s) = true /\ ~ In x ["e"; "M"]%string.

(** What may be removed from the chemistry [c]. *)
Definition removable (k : rconf) (c : chem) (x : string) : Prop :=
  present c x /\ (forall s, In s (c_species c) -> sp_name s = x -> ~ protected c s) /\ ~ In x (rc_outs k).

Definition over_limit (k : rconf) (e : flt) : Prop :=
  match e with Fin q => rc_max k / 100 < q | PInf => True | _ => False end.
Definition within_limit (k : rconf) (e : flt) : Prop :=
  match e with Fin q => q <= rc_max k / 100 | NInf => True | _ => False end.

(** The iteration recorded in row [r] removed [x] from the chemistry. *)
Definition removed_by (r : hrow) (x : string) : Prop := h_species r = Some x \/ In x (h_more r).

(** The removal of row [r] stays; [bt]: removals over the limit are undone. *)
Definition stays (k : rconf) (bt : bool) (r : hrow) : Prop :=
  h_success r = Some true /\ (bt = true -> within_limit k (h_base r)).

(** No removal whose error is not a number. *)
Definition numbers (bt : bool) (h : list hrow) : Prop :=
  bt = true -> forall r, In r h -> h_success r = Some true -> h_base r <> NaN.

(** The states of an iterator after a base run and any number of removals,
    all called with the same flag. *)
Inductive iterated E fhash default_dir scan backend (k : rconf) (bt : bool) (g : gmodel) (s : gfs) : rstate -> Prop :=
| it_base s1 st st1 : r_init k g s = (s1, Ok st) ->
    run_base_case E fhash default_dir scan backend k st = (st1, Ok tt) ->
    iterated E fhash default_dir scan backend k bt g s st1
| it_next st sp score st1 row : iterated E fhash default_dir scan backend k bt g s st ->
    remove_one E fhash default_dir scan backend k st sp score bt = (st1, Ok row) ->
    iterated E fhash default_dir scan backend k bt g s st1.

(** What was logged under the run id [rid]: the solution [sol] of the
    chemistry [c]. *)
Definition logged_run E fhash (k : rconf) (s : gfs) (rid : string) (c : chem) (sol : table) : Prop :=
  exists a t, chemistry_attributes E fhash c = Ok a /\ fget (attrs_path k rid) (fs_files s) = Some (CAttrs a) /\
    compress_solution sol (1 # 20) (1 # 1000) = Ok t /\
    fget (run_path (rc_dir k) rid ++ ["solution.csv"%string])%list (fs_files s) = Some (CTable t).

(** The same species and reactions, from the same file, with the same
    protected species and the same ad-hoc values. *)
Definition version_of (E : env) (c0 c : chem) : Prop :=
  same_input c0 c /\ c_xml c = c_xml c0 /\
  (forall s, In s (c_species c0) -> c_prot c (sp_id s) = c_prot c0 (sp_id s)) /\
  same_values E (c_stick c0) (c_stick c) /\ c_ret c = c_ret c0 /\ same_values E (c_arrh c0) (c_arrh c).

(** The state of the history, the files and the chemistry [c] between two
    calls; [c0] is the chemistry at the beginning. *)
Record consistent_history E fhash (k : rconf) (bt : bool) (c0 : chem) (st : rstate) : Prop := {
  (* one row per attempt, in order *)
  ch_rows : map h_species (r_hist st) = None :: map Some (r_tried st);
  ch_once : NoDup (r_tried st);
  (* only what may be removed was removed *)
  ch_tried : forall x, In x (r_tried st) -> removable k c0 x;
  ch_more : forall r x, In r (r_hist st) -> In x (h_more r) -> removable k c0 x;
  (* the file on disk is this history *)
  ch_file : fget (hist_path k) (fs_files (r_fs st)) = Some (CHist (r_hist st));
  ch_success : forall r, In r (r_hist st) -> h_success r <> None;
  (* every successful row tells the error of what was logged for it *)
  ch_logs : exists base, r_base st = Some base /\ forall h1 r h2, r_hist st = (h1 ++ r :: h2)%list -> h_success r = Some true ->
    exists rid d sol, h_run r = Some rid /\ version_of E c0 d /\ reachable E d /\ logged_run E fhash k (r_fs st) rid d sol /\
      h_left r = Z.of_nat (List.length (names_of d)) /\ h_removed r = (Z.of_nat (List.length (names_of c0)) - h_left r)%Z /\
      match h1 with [] => sol = base /\ h_base r = Fin 0 | _ => get_error_max base sol (rc_outs k) (rc_times k) = Ok (h_base r) end /\
      (numbers bt (r_hist st) -> forall x, present d x <->
         present c0 x /\ ~ removed_by r x /\ ~ exists r', In r' h1 /\ stays k bt r' /\ removed_by r' x);
  (* the species of the chemistry are those not removed for good *)
  ch_chem : exists c, gm_chem (r_gm st) = Some c /\ version_of E c0 c /\ reachable E c /\
    (numbers bt (r_hist st) -> forall x, present c x <->
       present c0 x /\ ~ exists r, In r (r_hist st) /\ stays k bt r /\ removed_by r x)
}.

(** Part of a list, in the same order. *)
Inductive subseq {A} : list A -> list A -> Prop :=
| ss_nil l : subseq [] l
| ss_take x l m : subseq l m -> subseq (x :: l) (x :: m)
| ss_skip x l m : subseq l m -> subseq l (x :: m).

(** In [h], [n] rows are over the limit and none is within. *)
Inductive all_over (k : rconf) : nat -> list hrow -> Prop :=
| ao_nil : all_over k 0 []
| ao_over n r h : over_limit k (h_base r) -> all_over k n h -> all_over k (S n) (r :: h)
| ao_nan n r h : h_base r = NaN -> all_over k n h -> all_over k n (r :: h).

(** Counted from any row but the first, no more than [max] rows over the limit
    follow each other before the last row. *)
Definition proper (k : rconf) (max : Z) (h : list hrow) : Prop :=
  forall h1 h2 n h3, h = (h1 ++ h2 ++ h3)%list -> h1 <> [] -> h2 <> [] -> h3 <> [] -> all_over k n h2 -> (Z.of_nat n <= max)%Z.

(** Why a reduction came to its end. *)
Definition stopped (k : rconf) (max : Z) (st : rstate) (l : list (string * Q)) : Prop :=
  (exists h1 h2 n, r_hist st = (h1 ++ h2)%list /\ all_over k n h2 /\ (max < Z.of_nat n)%Z) \/ r_eligible st = [] \/
  (forall x, In x (map fst l) -> In x (r_tried st) \/ ~ In x (r_eligible st)).
