(** Property theorems about conservation in the source terms, the reports of
    process rates and the energy equation (C19, C42, C101 - C104); the
    vocabulary is that of EqSpec.v, ConserveSpec.v and EnergySpec.v.
    [objects E objs rxs c]: the chemistry [c] holds the species [objs] and
    the reactions [rxs]. [view_of E objs c]: the arrays the equations read from
    the chemistry. *)
From Coq Require Import Reals Qreals Sorted.
From Verif Require Import Base Species Reactions Chemistry ChemSpec ChemGetters MolSpec MolExamples ExtReal Equations EqSpec EqExamples
  Views ConserveSpec Conserve EnergySpec EqEnergy Rates RatesProofs BalanceExamples.
Open Scope R_scope.

(** C19: for every vector of rates the charge produced on the heavy species is
    the net number of electrons produced. *)
Theorem C19_charge E objs rxs c K model v p e y rs ss :
  reachable E c -> good_formulas E -> objects E objs rxs c -> Forall (rx_history E) rxs ->
  view_of E objs c = Ok v -> eq_init K model v p = Ok e -> List.length rs = List.length (v_a v) ->
  answers e (CVolume y (Some (map X rs))) (AVec (map X ss)) -> electron_charged c ->
  Sum (List.length ss) (fun i => IZR (charge_of v i) * el ss i) =
  Sum (List.length rs) (fun j => IZR (nth j (v_e_net v) 0%Z) * el rs j).
Proof. intros. eapply charge_conserved; eassumption. Qed.

(** C19: no atoms of any element are produced. *)
Theorem C19_atoms E objs rxs c K model v p e y rs ss element counts :
  reachable E c -> good_formulas E -> objects E objs rxs c -> Forall (rx_history E) rxs ->
  view_of E objs c = Ok v -> eq_init K model v p = Ok e -> List.length rs = List.length (v_a v) ->
  answers e (CVolume y (Some (map X rs))) (AVec (map X ss)) -> element <> "M"%string ->
  Forall2 (atoms_of E objs element) (v_names v) counts ->
  Sum (List.length ss) (fun i => IZR (nth i counts 0%Z) * el ss i) = 0.
Proof. intros. eapply atoms_conserved; eassumption. Qed.

(** C102: the library accepts electrons without a charge; then electrons are
    produced and no charge is. *)
Theorem C102_charge_refuted : exists E objs rxs c K model v p e y rs ss,
  reachable E c /\ good_formulas E /\ objects E objs rxs c /\ Forall (rx_history E) rxs /\ view_of E objs c = Ok v /\
  eq_init K model v p = Ok e /\ List.length rs = List.length (v_a v) /\ Forall (fun r => 0 < r) rs /\
  answers e (CVolume y (Some (map X rs))) (AVec (map X ss)) /\
  Sum (List.length ss) (fun i => IZR (charge_of v i) * el ss i) = 0 /\
  0 < Sum (List.length rs) (fun j => IZR (nth j (v_e_net v) 0%Z) * el rs j).
Proof. exact free_electrons. Qed.

(** C42: the contributions reported for an enabled species, from a row of rates
    labelled by the ids of the enabled reactions (and perhaps by the time):
    sorted, one for each reaction that changes the number of molecules of the
    species. *)
Theorem C42_volume_entries E c a s row rs :
  reachable E c -> denotes c a s -> c_en c (sp_id s) = true -> NoDup (map fst row) ->
  (forall i, In (Some i) (map fst row) <-> In i (map rx_id (get_reactions c false))) ->
  Forall2 (fun r x => In (Some (rx_id r), x) row) (get_reactions c false) rs ->
  exists l, get_volumetric_rates c a row = Ok l /\ StronglySorted (fun x y => snd y <= snd x) l /\ NoDup (map fst l) /\
    forall i x, In (i, x) l <->
      exists r z, In r (get_reactions c false) /\ rx_id r = i /\ In (Some i, z) row /\
        (times s (rx_rhs r) - times s (rx_lhs r))%Z <> 0%Z /\ x = IZR (times s (rx_rhs r) - times s (rx_lhs r)) * z.
Proof. exact (volumetric_entries E c a s row rs). Qed.

(** C42: they add up to the volumetric source term of the species. *)
Theorem C42_volume E c objs v K model p e y a s k row rs ss :
  reachable E c -> view_of E objs c = Ok v -> eq_init K model v p = Ok e ->
  denotes c a s -> nth_error (get_species c false false true) k = Some s ->
  NoDup (map fst row) -> (forall i, In (Some i) (map fst row) <-> In i (map rx_id (get_reactions c false))) ->
  Forall2 (fun r x => In (Some (rx_id r), x) row) (get_reactions c false) rs ->
  answers e (CVolume y (Some (map X rs))) (AVec (map X ss)) ->
  exists l, get_volumetric_rates c a row = Ok l /\ fold_right Rplus 0 (map snd l) = el ss k.
Proof. exact (volumetric_source E c objs v K model p e y a s k row rs ss). Qed.

(** C42: those of the electrons to the net electron production. *)
Theorem C42_electrons E c objs v a s row rs :
  reachable E c -> c_kind c = Plain -> view_of E objs c = Ok v -> denotes c a s -> sp_name s = "e"%string ->
  NoDup (map fst row) -> (forall i, In (Some i) (map fst row) <-> In i (map rx_id (get_reactions c false))) ->
  Forall2 (fun r x => In (Some (rx_id r), x) row) (get_reactions c false) rs ->
  exists l, get_volumetric_rates c a row = Ok l /\
    fold_right Rplus 0 (map snd l) = Sum (List.length rs) (fun j => IZR (nth j (v_e_net v) 0%Z) * el rs j).
Proof. exact (volumetric_electrons E c objs v a s row rs). Qed.

(** C42: the surface contributions add up to the wall source term. *)
Theorem C42_surface E c objs v K model p e y a s k row ws ss :
  reachable E c -> view_of E objs c = Ok v -> proper_params p -> eq_init K model v p = Ok e ->
  denotes c a s -> nth_error (get_species c false false true) k = Some s ->
  answers e (CFluxes y None None None) (AVec (map X ws)) -> List.length ws = List.length (v_names v) ->
  filter (fun kv => negb (String.eqb (fst kv) "t")) row = combine (v_names v) ws ->
  answers e (CSurface y None None) (AVec (map X ss)) ->
  exists l, get_surface_rates c a (p_radius p) (p_length p) row = Ok l /\ fold_right Rplus 0 (map snd l) = el ss k.
Proof. exact (surface_source E c objs v K model p e y a s k row ws ss). Qed.

(** C42: electrons and the arbitrary species have no surface processes. *)
Theorem C42_surface_special E c a s radius len row :
  reachable E c -> denotes c a s -> In (sp_name s) ["e"; "M"]%string ->
  (forall n, In n (map sp_name (get_species c false false true)) <-> In n (map fst row) /\ n <> "t"%string) ->
  get_surface_rates c a radius len row = Ok [].
Proof. exact (surface_special E c a s radius len row). Qed.

(** C103: the surface rates are documented as sorted; they are not. *)
Theorem C103_sorted_refuted : exists E c a radius len row l, reachable E c /\ 0 < radius /\ 0 < len /\
  Forall (fun kv => String.eqb (fst kv) "t" = false -> snd kv <= 0) row /\
  get_surface_rates c a radius len row = Ok l /\ ~ StronglySorted (fun x y => snd y <= snd x) l.
Proof. exact unsorted. Qed.

(** C104: a disabled species of the chemistry has no report: KeyError. *)
Theorem C104_volume_disabled E c a s row :
  reachable E c -> denotes c a s -> c_en c (sp_id s) = false ->
  (forall i, In (Some i) (map fst row) <-> In i (map rx_id (get_reactions c false))) ->
  get_volumetric_rates c a row = Err EKey.
Proof. exact (volumetric_disabled E c a s row). Qed.

Theorem C104_surface_disabled E c objs v K model p e a s row ws :
  reachable E c -> view_of E objs c = Ok v -> eq_init K model v p = Ok e ->
  denotes c a s -> c_en c (sp_id s) = false -> ~ In (sp_name s) ["e"; "M"]%string ->
  List.length ws = List.length (v_names v) ->
  filter (fun kv => negb (String.eqb (fst kv) "t")) row = combine (v_names v) ws ->
  get_surface_rates c a (p_radius p) (p_length p) row = Err EKey.
Proof. exact (surface_disabled E c objs v K model p e a s row ws). Qed.

(** C101: the last entry of the right-hand side is the balance of absorbed power,
    collisions, electron production and wall losses. *)
Theorem C101_energy K model v p e n rho ls rs ss t q :
  physical K -> proper_params p -> proper_view v -> eq_init K model v p = Ok e ->
  List.length n = List.length (v_names v) -> all_nonneg n -> 0 < electrons v n ->
  answers e (CLosses (state n rho) None) (AVec (map X ls)) ->
  answers e (CRates (state n rho) None None None None) (AVec (map X rs)) ->
  answers e (CSurface (state n rho) None None) (AVec (map X ss)) ->
  answers e (CPower t) (APower (Ok q)) ->
  answers e (CDrho t (state n rho) None None None None None None)
    (ANumR (Ok (X (energy_balance K v p (electron_ev K v p n rho) rho (Q2R q) ls rs ss)))) /\
  exists dy, answers e (CObj t (state n rho)) (AVecR (Ok dy)) /\
    nth (List.length (v_names v)) dy XNaN = X (energy_balance K v p (electron_ev K v p n rho) rho (Q2R q) ls rs ss).
Proof. intros. eapply energy_exact; eassumption. Qed.

(** C101: the energy an electron loses: in an elastic collision according to the
    mass of the first heavy reactant, otherwise as given with the reaction. *)
Theorem C101_losses K model v p e n rho ls j :
  physical K -> proper_view v -> eq_init K model v p = Ok e ->
  List.length n = List.length (v_names v) -> 0 < electrons v n ->
  answers e (CLosses (state n rho) None) (AVec (map X ls)) -> (j < List.length (v_a v))%nat ->
  ((0 < nth j (v_e_lhs v) 0%Z)%Z -> nth j (v_elastic v) false = true ->
     exists i, (i < List.length (v_names v))%nat /\ (0 < nth i (nth j (v_lhs v) []) 0%Z)%Z /\
       (forall k, (k < i)%nat -> (nth k (nth j (v_lhs v) []) 0%Z <= 0)%Z) /\
       el ls j = 3 * c_me K / mass_of K v i * (electron_ev K v p n rho - gas_ev K p)) /\
  (((nth j (v_e_lhs v) 0%Z <= 0)%Z \/ nth j (v_elastic v) false = false) -> el ls j = el (v_loss v) j).
Proof. intros. eapply losses_exact; eassumption. Qed.

(** ** The hypotheses are met by concrete cases *)

Example C19_nonvacuous : reachable E1 cB /\ good_formulas E1 /\ objects E1 objsB rxsB cB /\ Forall (rx_history E1) rxsB /\
  view_of E1 objsB cB = Ok vB /\ electron_charged cB /\ Forall2 (atoms_of E1 objsB "O") (v_names vB) [1; 1]%Z /\
  forall y, exists e ss, eq_init K1 Combined vB parB = Ok e /\ answers e (CVolume y (Some (map X [3; 5]))) (AVec (map X ss)) /\
    List.length [3; 5] = List.length (v_a vB).
Proof.
  exact (conj cB_reachable (conj E1_good (conj cB_objects (conj rxsB_history (conj vB_ok (conj cB_electron (conj atomsB (volumeB Combined)))))))).
Qed.

Example C42_nonvacuous_volume : NoDup (map fst rowB) /\
  (forall i, In (Some i) (map fst rowB) <-> In i (map rx_id (get_reactions cB false))) /\
  Forall2 (fun r x => In (Some (rx_id r), x) rowB) (get_reactions cB false) [3; 5].
Proof. exact rowB_ok. Qed.
Example C42_nonvacuous_species : exists s, denotes cB (RName "O+") s /\ nth_error (get_species cB false false true) 1 = Some s.
Proof. exact reportB. Qed.
Example C42_nonvacuous_electrons : c_kind cB = Plain /\ exists s, denotes cB (RName "e") s /\ sp_name s = "e"%string.
Proof. exact electronB. Qed.
Example C42_nonvacuous_surface rho : exists e ws ss, eq_init K1 Combined vB parB = Ok e /\ List.length ws = List.length (v_names vB) /\
  answers e (CFluxes (state n1 rho) None None None) (AVec (map X ws)) /\ answers e (CSurface (state n1 rho) None None) (AVec (map X ss)) /\
  el ws 1 < 0.
Proof. exact (surfaceB Combined rho). Qed.

Example C104_nonvacuous : reachable E1 cD /\ view_of E1 objsD cD = Ok vB /\
  (forall i, In (Some i) (map fst rowB) <-> In i (map rx_id (get_reactions cD false))) /\
  filter (fun kv => negb (String.eqb (fst kv) "t")) fluxB = combine (v_names vB) [-1; -3] /\
  exists s, denotes cD (RName "O*") s /\ c_en cD (sp_id s) = false /\ ~ In (sp_name s) ["e"; "M"]%string.
Proof. exact (conj cD_reachable (conj vD_ok (conj rowD (conj fluxB_ok cD_off)))). Qed.

Example C101_nonvacuous : physical K1 /\ proper_params parB /\ proper_view vB /\ all_nonneg n1 /\ electrons vB n1 = 2 /\
  exists e ls rs ss q, eq_init K1 Combined vB parB = Ok e /\ answers e (CPower 1) (APower (Ok q)) /\
  answers e (CLosses (state n1 9) None) (AVec (map X ls)) /\ answers e (CRates (state n1 9) None None None None) (AVec (map X rs)) /\
  answers e (CSurface (state n1 9) None None) (AVec (map X ss)).
Proof. exact (conj K1_physical (conj parB_proper (conj vB_proper (conj n1_nonneg (conj nB_electrons energyB))))). Qed.

(** All theorems of this file at once (one traversal instead of one per
    theorem). *)
Definition all_theorems := (
  @C19_charge,
  @C19_atoms,
  @C102_charge_refuted,
  @C42_volume_entries,
  @C42_volume,
  @C42_electrons,
  @C42_surface,
  @C42_surface_special,
  @C103_sorted_refuted,
  @C104_volume_disabled,
  @C104_surface_disabled,
  @C101_energy,
  @C101_losses).
Print Assumptions all_theorems.
