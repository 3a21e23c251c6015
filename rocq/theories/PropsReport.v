(** Property theorems about the printed reports of processes (C130); the
    vocabulary is that of ReportSpec.v and EqSpec.v. *)
From Coq Require Import Reals Qreals Sorted.
From Verif Require Import Base Species Reactions Chemistry ChemSpec ChemGetters MolSpec MolExamples
  ExtReal Equations EqSpec EqExamples Views ConserveSpec Rates Report ReportSpec ReportProofs BalanceExamples ReportExamples.
Open Scope R_scope.

(** C130: the printed production and consumption processes of a heavy species,
    from logged rows of rates and fluxes: sorted by their size, each once, exactly
    those that contribute, and adding up to the source terms of the equations;
    a capped report ([capped]: for every number of lines and every unit) is the
    beginning of the whole one. *)
Theorem C130_heavy E c a s rates rs fluxes objs v K model p e y k ws ss sw :
  reachable E c -> denotes c a s -> NoDup (map fst rates) ->
  (forall i, In (Some i) (map fst rates) <-> In i (map rx_id (get_reactions c false))) ->
  Forall2 (fun r x => In (Some (rx_id r), x) rates) (get_reactions c false) rs ->
  view_of E objs c = Ok v -> proper_params p -> eq_init K model v p = Ok e ->
  nth_error (get_species c false false true) k = Some s ->
  answers e (CVolume y (Some (map X rs))) (AVec (map X ss)) ->
  answers e (CFluxes y None None None) (AVec (map X ws)) -> List.length ws = List.length (v_names v) ->
  filter (fun kv => negb (String.eqb (fst kv) "t")) fluxes = combine (v_names v) ws ->
  answers e (CSurface y None None) (AVec (map X sw)) ->
  let ok_line (sign : R -> Prop) (q : process) (x : R) := sign x /\
    match q with
    | PVolume i => exists r z, In r (get_reactions c false) /\ rx_id r = i /\ In (Some i, z) rates /\
        x = (IZR (times s (rx_rhs r) - times s (rx_lhs r)) * z)%R
    | PSurface i => exists j t, nth_error (get_species c false false true) j = Some t /\ sp_id t = i /\
        x = (((if Nat.eqb j k then 1 else 0) - returned v k j) * el ws j * area_of p / volume_of p)%R
    end in
  exists gl ll, capped (print_production c a (p_radius p) (p_length p) rates fluxes) gl /\
    capped (print_consumption c a (p_radius p) (p_length p) rates fluxes) ll /\
    StronglySorted (fun x y => snd y <= snd x)%R gl /\ StronglySorted (fun x y => snd x <= snd y)%R ll /\
    NoDup (map fst gl) /\ NoDup (map fst ll) /\
    (forall q x, In (q, x) gl <-> ok_line (fun x => 0 < x)%R q x) /\
    (forall q x, In (q, x) ll <-> ok_line (fun x => x < 0)%R q x) /\
    (fold_right Rplus 0 (map snd gl) + fold_right Rplus 0 (map snd ll) = el ss k + el sw k)%R.
Proof. intros. eapply report_heavy; eassumption. Qed.

(** C130: those of the electrons add up to the net production of electrons. *)
Theorem C130_electrons E c a s rates rs fluxes objs v radius len :
  reachable E c -> denotes c a s -> NoDup (map fst rates) ->
  (forall i, In (Some i) (map fst rates) <-> In i (map rx_id (get_reactions c false))) ->
  Forall2 (fun r x => In (Some (rx_id r), x) rates) (get_reactions c false) rs ->
  view_of E objs c = Ok v -> c_kind c = Plain -> sp_name s = "e"%string ->
  (forall n, In n (map sp_name (get_species c false false true)) <-> In n (map fst fluxes) /\ n <> "t"%string) ->
  let ok_line (q : process) (x : R) := exists r z, q = PVolume (rx_id r) /\ In r (get_reactions c false) /\ In (Some (rx_id r), z) rates /\
        x = (IZR (times s (rx_rhs r) - times s (rx_lhs r)) * z)%R in
  exists gl ll, capped (print_production c a radius len rates fluxes) gl /\ capped (print_consumption c a radius len rates fluxes) ll /\
    StronglySorted (fun x y => snd y <= snd x)%R gl /\ StronglySorted (fun x y => snd x <= snd y)%R ll /\
    NoDup (map fst gl) /\ NoDup (map fst ll) /\
    (forall q x, In (q, x) gl <-> (0 < x)%R /\ ok_line q x) /\ (forall q x, In (q, x) ll <-> (x < 0)%R /\ ok_line q x) /\
    (fold_right Rplus 0 (map snd gl) + fold_right Rplus 0 (map snd ll) = Sum (List.length rs) (fun j => IZR (nth j (v_e_net v) 0%Z) * el rs j))%R.
Proof. intros. eapply report_electrons; eassumption. Qed.

(** ** The hypotheses are met by concrete cases *)

Lemma C130_example : exists s e ws ss sw, denotes cB (RName "O+") s /\ nth_error (get_species cB false false true) 1 = Some s /\
  eq_init K1 Combined vB parB = Ok e /\ List.length ws = List.length (v_names vB) /\
  answers e (CVolume (state n1 1) (Some (map X [3; 5]%R))) (AVec (map X ss)) /\
  answers e (CFluxes (state n1 1) None None None) (AVec (map X ws)) /\ answers e (CSurface (state n1 1) None None) (AVec (map X sw)).
Proof. exact reports_example. Qed.
Lemma C130_rows : NoDup (map fst rowB) /\ (forall i, In (Some i) (map fst rowB) <-> In i (map rx_id (get_reactions cB false))) /\
  Forall2 (fun r x => In (Some (rx_id r), x) rowB) (get_reactions cB false) [3; 5]%R.
Proof. exact rowB_ok. Qed.
Lemma C130_electron : c_kind cB = Plain /\ exists s, denotes cB (RName "e") s /\ sp_name s = "e"%string.
Proof. exact electronB. Qed.

(** All theorems of this file at once (one traversal instead of one per
    theorem). *)
Definition all_theorems := (
  @C130_heavy,
  @C130_electrons).
Print Assumptions all_theorems.
