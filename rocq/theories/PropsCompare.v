(** Properties C160-C163: comparisons of reduction runs. *)
From Coq Require Import Permutation Sorted.
From Verif Require Import Base BaseLemmas Species Reactions Chemistry ChemSpec ChemExamples Morris MorrisStats Tables InitialGuess
  GlobalModel GlobalSpec GlobalExamples Reduction ReductionSpec ReductionExamples
  Compare CompareSpec CompareText CompareMain CompareFigure CompareExamples.
Open Scope list_scope.

(** The figure shows every iteration that stays and every one that was undone
    because of its error, at the number of species lost and the error in
    percent, and nothing else but what was asked for. *)
Theorem C160_figure E fhash default_dir scan s a d0 ds : (forall l, Permutation (scan l) l) ->
  (forall d, In d (d0 :: ds) -> exists c0, history_of E fhash default_dir scan (d_conf d) c0 (d_hist d)) ->
  (forall d, In d (d0 :: ds) -> on_disk s (d_conf d) (d_hist d)) ->
  (forall d, In d (d0 :: ds) -> (rc_max (d_conf d0) == rc_max (d_conf d))%Q) ->
  dressed a (d0 :: ds) ->
  (pa_ylim a <> None \/ pa_dead_ends a = false \/
     forall d r, In d (d0 :: ds) -> In r (d_hist d) -> h_success r = Some true -> h_base r <> PInf) ->
  exists f, compare_runs s a (rc_dir (d_conf d0)) (map (fun d => rc_dir (d_conf d)) ds) = Ok f /\
    shows a (rc_max (d_conf d0)) (d0 :: ds) f /\
    (pa_plot_max a = true -> exists x, In x (fig_draw f) /\ top_line (rc_max (d_conf d0)) x) /\
    (forall l, pa_xlim a = Some l -> fig_xlim f = l) /\ (forall l, pa_ylim a = Some l -> fig_ylim f = l).
Proof.
  exact (fun P R D L S F => match compare_eq E fhash default_dir scan P s a d0 ds R D L S F with
    | ex_intro _ f (conj H1 (conj H2 (conj H3 (conj H4 (conj H5 _))))) => ex_intro _ f (conj H1 (conj H2 (conj H5 (conj H3 H4)))) end).
Qed.
Example C160_nonvacuous : (forall d, In d [dA; dB] -> exists c0, history_of E1 no_files dd1 sc1 (d_conf d) c0 (d_hist d)) /\
  (forall d, In d [dA; dB] -> on_disk (r_fs sB) (d_conf d) (d_hist d)) /\
  (forall d, In d [dA; dB] -> (rc_max (d_conf dA) == rc_max (d_conf d))%Q) /\
  (forall d, In d [dA; dB] -> numbers true (d_hist d)) /\
  (forall d r, In d [dA; dB] -> In r (d_hist d) -> h_success r = Some true -> h_base r <> PInf).
Proof. exact example_runs. Qed.
Example C160_nonvacuous_dressed : dressed default_args [dA; dB].
Proof. exact example_dressed. Qed.
Example C160_nonvacuous_dead_end : exists p r, dead_end_from A1 (r_hist sA) p r /\ h_species p = Some "O"%string /\ h_species r = Some "Ar*"%string.
Proof. exact example_rows. Qed.
Example C160_nonvacuous_figure : compare_runs (r_fs sB) default_args (rc_dir A1) [rc_dir B1] = Ok (MkFig
  [DLine [(0, Fin 0); (2, Fin (200 # 400))] "b-o" (Some "r"%string);
   DLine [(2, Fin (200 # 400)); (3, Fin (400 # 4))] "b:" None; DLine [(3, Fin (400 # 4))] "b:X" None;
   DLine [(0, Fin 0)] "g-o" (Some "q"%string);
   DLine [(0, Fin 0); (1, Fin (200 # 4))] "g:" None; DLine [(1, Fin (200 # 4))] "g:X" None;
   DLine [(-1 # 2, Fin 10); (7 # 2, Fin 10)] "r--" (Some "maximal allowed reduction error"%string)]
  (-1 # 2, 7 # 2) (-9 # 10, 4036 # 40))%Q.
Proof. exact example_figure. Qed.

(** The points of a line go to the right, and the last one stands at the
    number of species the chemistry has lost. *)
Theorem C160_increasing E fhash default_dir scan d c0 : (forall l, Permutation (scan l) l) ->
  history_of E fhash default_dir scan (d_conf d) c0 (d_hist d) -> numbers true (d_hist d) ->
  forall pts st lb, run_line d (DLine pts st lb) -> StronglySorted (fun p q => (fst p < fst q)%Q) pts.
Proof. exact (fun P => increasing E fhash default_dir scan P d c0). Qed.
Theorem C160_end E fhash default_dir scan backend k g s st c0 c pts style dead lb st' lb' : (forall l, Permutation (scan l) l) ->
  reachable E c0 -> declared_exist c0 -> (0 <= rc_max k)%Q -> fs_ok s -> gm_chem g = Some c0 ->
  iterated E fhash default_dir scan backend k true g s st -> numbers true (r_hist st) -> gm_chem (r_gm st) = Some c ->
  run_line (style, dead, lb, k, r_hist st) (DLine pts st' lb') ->
  exists pre y, pts = pre ++ [(inject_Z (Z.of_nat (List.length (names_of c0)) - Z.of_nat (List.length (names_of c))), y)].
Proof. exact (fun P => line_end E fhash default_dir scan P backend k g s st c0 c pts style dead lb st' lb'). Qed.
Example C160_nonvacuous_end : iterated E1 no_files dd1 sc1 b1 A1 true g0 fs0 sA /\ numbers true (r_hist sA) /\
  left_in sA = ["Ar"; "Ar+"; "Ar*"]%string.
Proof. exact (conj (after_iterated b1 A1 fs0 _ okA) (conj (proj1 (all_finite _ finA)) eq_refl)). Qed.

(** Runs with different allowed errors are not compared, nor is a run without
    a history. *)
Theorem C160_refused s a k h k' h' ps : on_disk s k h -> on_disk s k' h' -> ~ (rc_max k == rc_max k')%Q ->
  compare_runs s a (rc_dir k) (rc_dir k' :: ps) = Err EAssertion.
Proof. exact (fun D D' N => other_limit s a k h k' h' D D' N ps). Qed.
Theorem C160_missing s a p ps : fget (p ++ ["reduction_history.csv"%string]) (fs_files s) = None ->
  compare_runs s a p ps = Err EOS \/ compare_runs s a p ps = Err EAssertion.
Proof. exact (missing_history s a p ps). Qed.

(** With the ordinary limits every point of a run is inside of the axes. *)
Theorem C161_inside E fhash default_dir scan s a d0 ds f : (forall l, Permutation (scan l) l) ->
  (forall d, In d (d0 :: ds) -> exists c0, history_of E fhash default_dir scan (d_conf d) c0 (d_hist d)) ->
  (forall d, In d (d0 :: ds) -> on_disk s (d_conf d) (d_hist d)) ->
  (forall d, In d (d0 :: ds) -> (rc_max (d_conf d0) == rc_max (d_conf d))%Q) ->
  dressed a (d0 :: ds) ->
  (pa_ylim a <> None \/ pa_dead_ends a = false \/
     forall d r, In d (d0 :: ds) -> In r (d_hist d) -> h_success r = Some true -> h_base r <> PInf) ->
  (forall d, In d (d0 :: ds) -> numbers true (d_hist d)) ->
  compare_runs s a (rc_dir (d_conf d0)) (map (fun d => rc_dir (d_conf d)) ds) = Ok f -> pa_xlim a = None -> pa_ylim a = None ->
  forall d pts st lb, In d (d0 :: ds) ->
    (run_line d (DLine pts st lb) \/ (pa_dead_ends a = true /\ exists p r, dead_end_from (d_conf d) (d_hist d) p r /\
       (dead_line d p r (DLine pts st lb) \/ dead_point d r (DLine pts st lb)))) ->
    forall p, In p pts -> inside f p.
Proof. exact (fun P R D L S F N => points_inside E fhash default_dir scan P s a d0 ds R D L S F N f). Qed.

(** A removal that was undone because of an infinite error: the comparison
    raises ValueError, although the run ended well and its files are in place. *)
Theorem C162_infinite_refuted : exists h s, history_of E1 no_files dd1 sc1 A1 c0 h /\ on_disk s A1 h /\
  numbers true h /\ (exists p r, dead_end_from A1 h p r /\ h_base r = PInf) /\
  compare_runs s default_args (rc_dir A1) [] = Err EValue.
Proof. exact (ex_intro _ _ (ex_intro _ _ infinite_error)). Qed.

(** Names in the figure: signs are superscripts and the digits from 1 to 9
    subscripts, each by itself; names given by the caller are used as such. *)
Theorem C163_names names raw : match sget raw names with
  | Some t => prettify names raw = t
  | None => prettify names raw = String.concat "" (map shown_char (chars raw))
  end.
Proof. exact (names_shown names raw). Qed.
Theorem C163_zero_refuted : prettify [] "C10H8" = "C$_{1}$0H$_{8}$"%string.
Proof. exact zero_plain. Qed.

(** All theorems of this file at once (one traversal instead of one per
    theorem). *)
Definition all_theorems := (
  @C160_figure,
  @C160_increasing,
  @C160_end,
  @C160_refused,
  @C160_missing,
  @C161_inside,
  @C162_infinite_refuted,
  @C163_names,
  @C163_zero_refuted).
Print Assumptions all_theorems.
