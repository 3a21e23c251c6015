(** C179 - C181: diagnosing the partial results of a simulation. *)
From Coq Require Import Reals Qreals.
From Verif Require Import Base Chemistry Morris Tables ExtReal Equations Solution EqSpec EqExamples Diagnose DiagnoseSpec DiagnoseProofs DiagnoseMore.
Open Scope R_scope.

(** C179: the table of a quantity after a run. For every time step there is
    a row with the time and the values of the quantity in the state of that
    step, each under the name of its species or the id of its reaction,
    whatever was asked of the equations before. Nothing else changes, and the
    equations answer as before. *)
Theorem C179_rows power_at K model v p e calls ids q sh c totals sol b :
  eq_init K model v p = Ok e -> In (q, sh, c) quantities ->
  bk_eq b = after calls e -> bk_primary b = Some sol ->
  List.length ids = List.length (v_a v) -> NoDup ids -> own_names (v_names v) -> distinguishable v sh ->
  Forall (fun ty => List.length (snd ty) = S (List.length (v_names v))) sol -> sol <> [] ->
  exists b' rows, diagnose power_at (v_names v) ids q None totals b = (b', Ok rows) /\
    Forall2 (row_of e c (columns sh (v_names v) ids) totals) sol rows /\
    bk_success b' = bk_success b /\ bk_primary b' = bk_primary b /\ bk_secondary b' = bk_secondary b /\
    forall k, snd (perform k (bk_eq b')) = snd (perform k e).
Proof.
  exact (fun H I B S Li Ni Ow D F NE =>
    diagnose_rows power_at K model v p e calls ids q sh c totals sol None b H I B Li Ni Ow D F NE (or_introl (conj S eq_refl))).
Qed.

(** C180: the states may be given instead; without a run there are no times. *)
Theorem C180_given power_at K model v p e calls ids q sh c totals sol b :
  eq_init K model v p = Ok e -> In (q, sh, c) quantities ->
  bk_eq b = after calls e ->
  match bk_primary b with Some s => map fst s = map fst sol | None => Forall (fun ty => fst ty = XNaN) sol end ->
  List.length ids = List.length (v_a v) -> NoDup ids -> own_names (v_names v) -> distinguishable v sh ->
  Forall (fun ty => List.length (snd ty) = S (List.length (v_names v))) sol -> sol <> [] ->
  exists b' rows, diagnose power_at (v_names v) ids q (Some (map snd sol)) totals b = (b', Ok rows) /\
    Forall2 (row_of e c (columns sh (v_names v) ids) totals) sol rows /\
    bk_success b' = bk_success b /\ bk_primary b' = bk_primary b /\ bk_secondary b' = bk_secondary b /\
    forall k, snd (perform k (bk_eq b')) = snd (perform k e).
Proof.
  exact (fun H I B S Li Ni Ow D F NE =>
    diagnose_rows power_at K model v p e calls ids q sh c totals sol (Some (map snd sol)) b H I B Li Ni Ow D F NE
      (or_intror (conj eq_refl S))).
Qed.

(** C180: with nothing to diagnose a TypeError is raised, and an unknown
    quantity is an AttributeError; the model is left as it was. *)
Theorem C180_nothing power_at names ids totals b q : bk_primary b = None ->
  diagnose power_at names ids q None totals b = (b, Err EType).
Proof. exact (nothing_stored power_at names ids totals b q). Qed.

Theorem C180_unknown power_at names ids totals b t y sol q : bk_primary b = Some ((t, y) :: sol) ->
  ~ In q known -> diagnose power_at names ids q None totals b = (b, Err EAttribute).
Proof. exact (unknown power_at names ids totals b t y sol q). Qed.

(** C180: as many states as times of the last run are needed. *)
Theorem C180_length power_at K model v p e calls ids q sh c totals ys ts b :
  eq_init K model v p = Ok e -> In (q, sh, c) quantities ->
  bk_eq b = after calls e ->
  List.length ids = List.length (v_a v) -> distinguishable v sh ->
  Forall (fun y => List.length y = S (List.length (v_names v))) ys -> ys <> [] ->
  bk_primary b = Some ts -> List.length ts <> List.length ys ->
  snd (diagnose power_at (v_names v) ids q (Some ys) totals b) = Err EValue.
Proof. exact (diagnose_length power_at K model v p e calls ids q sh c totals ys ts b). Qed.

(** The hypotheses are met: argon with three reactions and two time steps. *)
Example C179_nonvacuous model : (exists e, eq_init K1 model view3 par1 = Ok e) /\
  In ("reaction_rates"%string, PerReaction, fun y => CRates y None None None None) quantities /\
  own_names (v_names view3) /\ (forall sh, distinguishable view3 sh) /\ NoDup [1; 2; 3]%Z /\
  Forall (fun ty => List.length (snd ty) = S (List.length (v_names view3))) sol3 /\ sol3 <> [].
Proof. exact (conj (init3 model) (conj in_rates setting3)). Qed.

(** C181 (refuted): "any of the partial results can be diagnosed". The ion
    temperature cannot if the pressure is at most one millitorr in any of the
    states. *)
Theorem C181_ion_refuted power_at K model v p e calls names ids totals b sol :
  eq_init K model v p = Ok e -> bk_eq b = after calls e -> bk_primary b = Some sol ->
  (exists t n rho, In (t, state n rho) sol /\ c_k K * p_temp p * fold_right Rplus 0 n <= 133322 / 1000000) ->
  diagnose power_at names ids "ion_temperature" None totals b = (b, Err EAttribute).
Proof. exact (ion_fails power_at K model v p e calls names ids totals b sol). Qed.

Example C181_ion_nonvacuous : In (X 0, state [7; 2] 3) sol3 /\
  c_k K1 * p_temp par1 * fold_right Rplus 0 [7; 2] <= 133322 / 1000000.
Proof. exact (conj (or_introl eq_refl) low3). Qed.

(** C181 (refuted): these cannot in any state. *)
Theorem C181_never_refuted power_at names ids totals b t y sol : bk_primary b = Some ((t, y) :: sol) ->
  snd (diagnose power_at names ids "ambipolar_diffusivity_neg" None totals b) = Err EAttribute /\
  snd (diagnose power_at names ids "drho_dt" None totals b) = Err EType /\
  snd (diagnose power_at names ids "dy_dt" None totals b) = Err EType.
Proof. exact (never power_at names ids totals b t y sol). Qed.

Theorem C181_sigma_refuted power_at names ids totals b t y sol : bk_primary b = Some ((t, y) :: sol) ->
  snd (diagnose power_at names ids "sigma_sc" None totals b) = Err EValue.
Proof. exact (sigma_fails power_at names ids totals b t y sol). Qed.

(** C181 (refuted): the table of the power has a column for each species,
    and its values are the power at the time that is the density. *)
Theorem C181_power_refuted power_at K model v p e calls ids b t y sol :
  eq_init K model v p = Ok e -> bk_eq b = after calls e -> bk_primary b = Some ((t, y) :: sol) ->
  Forall (fun ty => List.length (snd ty) = S (List.length (v_names v))) ((t, y) :: sol) ->
  List.length (v_a v) <> S (List.length (v_names v)) -> own_names (v_names v) -> ~ In "rho"%string (v_names v) ->
  diagnose power_at (v_names v) ids "power_ext" None false b =
    (b, Ok (map (fun ty => (LText "t"%string, fst ty) ::
             combine (map LText (v_names v ++ ["rho"%string])) (map (power_at (st e)) (snd ty))) ((t, y) :: sol))).
Proof. exact (power_misread power_at K model v p e calls ids b t y sol). Qed.

Example C181_power_nonvacuous model : (exists e, eq_init K1 model view1 par1 = Ok e) /\
  Forall (fun ty => List.length (snd ty) = S (List.length (v_names view1))) sol3 /\
  List.length (v_a view1) <> S (List.length (v_names view1)) /\ own_names (v_names view1) /\ ~ In "rho"%string (v_names view1).
Proof. exact (conj (init1 model) setting1). Qed.

(** C181 (refuted): the total is the sum of the values also where one of
    them is not a number. *)
Theorem C181_total_refuted power_at e b t r rho :
  bk_eq b = e -> s_ns (st e) = 2%nat -> bk_primary b = Some [(t, [XNaN; X r; rho])] ->
  snd (diagnose power_at ["A"; "B"]%string [] "density_vector" None true b) =
    Ok [[(LText "t", t); (LText "A", XNaN); (LText "B", X r); (LText "total", xadd (X 0) (X r))]]%string.
Proof. exact (hidden_nan power_at e b t r rho). Qed.

(** All theorems of this file at once (one traversal instead of one per
    theorem). *)
Definition all_theorems := (
  @C179_rows,
  @C180_given,
  @C180_nothing,
  @C180_unknown,
  @C180_length,
  @C181_ion_refuted,
  @C181_never_refuted,
  @C181_sigma_refuted,
  @C181_power_refuted,
  @C181_total_refuted).
Print Assumptions all_theorems.
