(** What a chemistry graph is built from, and what it must hold. *)
From Verif Require Import Base Species Reactions Chemistry ChemSpec ChemGetters Graph ChemGraph Tables Workspace GraphInit.
Local Open Scope Q_scope.

(** The species (special ones included), the ordinary species and the
    reactions that are not disabled, in their order in the chemistry. *)
Definition enabled_species (c : chem) : list sp := filter (fun s => c_en c (sp_id s)) (c_species c).
Definition ordinary (s : sp) : Prop := sp_name s <> "e"%string /\ sp_name s <> "M"%string.
Definition ordinaryb (s : sp) : bool := negb (String.eqb (sp_name s) "e") && negb (String.eqb (sp_name s) "M").
Definition enabled_reactions (c : chem) : list rx := filter (fun r => c_enr c (rx_id r)) (c_reactions c).

(** The frames and parameters fit the chemistry. *)
Record fitting (c : chem) (par : list (string * Q)) (rates : frame) (fluxes : table) : Prop := {
  fit_rates : fr_cols rates = LName "t" :: map (fun r => LId (rx_id r)) (enabled_reactions c);
  fit_fluxes : tb_cols fluxes = "t"%string :: map sp_name (filter ordinaryb (enabled_species c));
  fit_t : ~ In "t"%string (map sp_name (enabled_species c));
  fit_times : Forall2 (fun a b => exists q, hd_error (snd a) = Some q /\ q == snd b "t"%string) (fr_rows rates) (tb_rows fluxes);
  (* ad-hoc return coefficients are set for enabled species only *)
  fit_ret : forall i, In i (map fst (c_ret c)) -> exists s, In s (enabled_species c) /\ sp_id s = i;
  fit_radius : In "radius"%string (map fst par);
  fit_length : In "length"%string (map fst par)
}.

(** The graph [k] holds the data of the chemistry, parameters and frames. *)
Record holds (c : chem) (par : list (string * Q)) (rates : frame) (fluxes : table) (k : cgraph) : Prop := {
  h_species : cg_species k = map sp_name (enabled_species c);
  h_special : forall n, In n (cg_special k) <-> (n = "e"%string \/ n = "M"%string) /\ exists s, In s (c_species c) /\ sp_name s = n;
  h_reactions : cg_reactions k = List.length (enabled_reactions c);
  h_radius : sget "radius" par = Some (cg_radius k);
  h_length : sget "length" par = Some (cg_length k);
  h_times : List.length (cg_times k) = List.length (fr_rows rates);
  (* each row of the rates: the time, then one rate for each reaction *)
  h_time : forall t i q vals, nth_error (fr_rows rates) t = Some (i, q :: vals) -> nth_error (cg_times k) t = Some q;
  h_rate : forall t i q vals j v, nth_error (fr_rows rates) t = Some (i, q :: vals) -> nth_error vals j = Some v -> cg_rate k t j = v;
  h_flux : forall t i row b s, nth_error (tb_rows fluxes) t = Some (i, row) -> nth_error (enabled_species c) b = Some s ->
      (ordinary s -> cg_flux k t b = row (sp_name s)) /\ (~ ordinary s -> cg_flux k t b = 0);
  h_lhs : forall j r a s, nth_error (enabled_reactions c) j = Some r -> nth_error (enabled_species c) a = Some s ->
      cg_lhs k j a = times s (rx_lhs r) /\ cg_rhs k j a = times s (rx_rhs r);
  h_ret : forall a s b u, nth_error (enabled_species c) a = Some s -> nth_error (enabled_species c) b = Some u ->
      (ordinary s -> ordinary u -> forall q, coef_of (sp_name s) (shown_ret c u) = Fin q -> cg_ret k a b = q) /\
      (~ ordinary s \/ ~ ordinary u -> cg_ret k a b = 0)
}.

(** Every row of a frame has a value for each column. *)
Definition rectangular (f : frame) : Prop := forall r, In r (fr_rows f) -> List.length (snd r) = List.length (fr_cols f).
(** Dictionaries have different keys. *)
Definition dict_rets (c : chem) : Prop :=
  forall s d, In s (enabled_species c) -> shown_ret c s = Some d -> NoDup (map fst d).

Definition rates_nonneg (f : frame) : Prop := forall r v, In r (fr_rows f) -> In v (tl (snd r)) -> 0 <= v.
(** The return coefficients in force are finite. *)
Definition finite_rets (c : chem) : Prop :=
  forall s u, In s (enabled_species c) -> In u (enabled_species c) -> exists q, coef_of (sp_name s) (shown_ret c u) = Fin q.

(** At the [t]-th time species [x] influences species [y]: an enabled
    reaction running at that time, in which [x] takes part, changes the
    number of particles of [y]; or (with surfaces) [x] meets the wall and
    returns as [y]. *)
Definition influences (c : chem) (rates : frame) (fluxes : table) (surface : bool) (t : nat) (x y : sp) : Prop :=
  (exists j r i q vals v, nth_error (enabled_reactions c) j = Some r /\
     nth_error (fr_rows rates) t = Some (i, q :: vals) /\ nth_error vals j = Some v /\ 0 < v /\
     (In x (rx_lhs r) \/ In x (rx_rhs r)) /\ times y (rx_lhs r) <> times y (rx_rhs r)) \/
  (surface = true /\ ordinary x /\ ordinary y /\
   exists i row q, nth_error (tb_rows fluxes) t = Some (i, row) /\ ~ row (sp_name x) == 0 /\
     coef_of (sp_name y) (shown_ret c x) = Fin q /\ ~ q == 0).

(** [x] influences no other species and is influenced by none. *)
Definition isolated (c : chem) (rates : frame) (fluxes : table) (surface : bool) (x : sp) : Prop :=
  forall t y, (t < List.length (fr_rows rates))%nat -> In y (enabled_species c) -> y <> x ->
    ~ influences c rates fluxes surface t x y /\ ~ influences c rates fluxes surface t y x.
