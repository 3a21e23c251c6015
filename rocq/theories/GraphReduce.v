(** Rankings of chemistry graphs as rankings of reduction runs
    (pygmo_fwork/optichem/reduction.py L334-345). *)
From Coq Require Import Sorted Permutation Lia Lqa.
From Verif Require Import Base BaseLemmas Species Reactions Chemistry ChemSpec ChemInv ChemHist ChemLoad ChemGetters ChemExamples Graph GraphSpec GraphProofs
  GraphPaths ChemGraph ChemGraphSpec GraphExamples Tables Workspace GraphInit GraphInitSpec GraphInitProofs GraphInitRank GraphInitExamples GraphMore Reduction.
Local Open Scope Q_scope.

Fixpoint no_gaps (l : list (option Q)) : option (list Q) :=
  match l with
  | [] => Some []
  | Some q :: l' => match no_gaps l' with Some m => Some (q :: m) | None => None end
  | None :: _ => None
  end.

(** reduction.py L341 [list(values) == list(sorted(values))] for an array of
    floats with NaN (None): [list] of an array makes a new object for every
    element, so a NaN is equal to nothing, wherever [sorted] puts it. *)
Definition passes_check (l : list (option Q)) : bool :=
  match no_gaps l with Some qs => ascendingb qs | None => false end.

Lemma no_gaps_iff l : (exists qs, no_gaps l = Some qs) <-> ~ In None l.
Proof.
  induction l as [|[q|] l IH]; cbn.
  - split; [tauto|eauto].
  - split.
    + intros (qs & H). destruct (no_gaps l) as [m|]; [|discriminate]. intros [X|X]; [discriminate|]. apply IH in X; [exact X|eauto].
    + intros H. destruct IH as [_ IH]. destruct IH as (m & ->); [tauto|eauto].
  - split; [intros (qs & H); discriminate|]. intros H. elim H. auto.
Qed.

Lemma sorted_passes (l : list (string * option Q)) :
  LocallySorted (fun p q => score_leb Qltb p q = true) l -> ~ In None (map snd l) -> passes_check (map snd l) = true.
Proof.
  intros S N. unfold passes_check. destruct (proj2 (no_gaps_iff _) N) as (qs & G). rewrite G. revert qs G N.
  induction S as [|x|x y l S IH Hxy]; intros qs G N.
  - cbn in G. injection G as <-. reflexivity.
  - cbn in G. destruct (snd x); [|discriminate]. injection G as <-. reflexivity.
  - cbn [map no_gaps] in G, IH. destruct (snd x) as [a|] eqn:Ex; [|discriminate].
    destruct (snd y) as [b|] eqn:Ey; [|discriminate]. destruct (no_gaps (map snd l)) as [m|] eqn:Em; [|discriminate].
    injection G as <-. unfold score_leb in Hxy. rewrite Ex, Ey in Hxy. unfold Qltb in Hxy. rewrite negb_involutive in Hxy.
    change (Qle_bool a b && ascendingb (b :: m) = true). rewrite Hxy. cbn [andb]. apply IH; [reflexivity|].
    intros X. apply N. cbn [map]. right. rewrite Ey. exact X.
Qed.

Section Use.
  Variable c : chem.
  Hypothesis I : Inv c.
  Hypothesis A : assert_consistency c = Ok tt.
  Hypothesis D : dict_rets c.
  Variables (par : list (string * Q)) (rates : frame) (fluxes : table) (k : cgraph).
  Hypothesis RC : rectangular rates.
  Hypothesis K : cgraph_init c par rates fluxes = Ok k.
  Hypothesis FR : finite_rets c.

  Lemma usable r z label it surface important :
    rates_nonneg rates -> sget "radius" par = Some r -> sget "length" par = Some z -> 0 < r -> 0 < z ->
    permuting it -> fr_rows rates <> [] -> important <> [] ->
    NoDup (map (fun x => label (fst x) (snd x)) (list_prod important (cg_times k))) ->
    exists gs rk, distribute_weights k DRG surface = Ok gs /\
      ranking_values k Qltb label (scores_shortest it) gs important = Ok rk /\
      forall l, Permutation rk l -> LocallySorted (fun p q => score_leb Qltb p q = true) l ->
        (passes_check (map snd l) = true <->
         forall x, In x (enabled_species c) -> ordinary x -> ~ In (sp_name x) important -> ~ isolated c rates fluxes surface x).
  Proof using I A D RC K FR.
    intros RN Er Ez Pr Pz Hit Hne Him Hl.
    destruct (chem_ranking c I A D par rates fluxes k RC K FR r z label it surface important RN Er Ez Pr Pz Hit Hne Hl)
      as (gs & rk & Hgs & Hr & Hn & Hv).
    exists gs, rk. split; [exact Hgs|]. split; [exact Hr|]. intros l P S.
    assert (ND : NoDup (map fst rk)).
    { rewrite Hn. unfold enabled_species. rewrite filter_filter. apply NoDup_map_filter, (i_wf c I). }
    split.
    - intros H x Hx Ox Nx Iso. destruct (Hv x Hx Ox Nx) as (o & Ho & Hnone).
      assert (o = None) by (apply Hnone; right; exact Iso). subst o.
      apply (aget_In String.eqb Seqb_spec) in Ho. apply (Permutation_in _ P) in Ho. apply (in_map snd) in Ho. cbn [snd] in Ho.
      unfold passes_check in H. destruct (no_gaps (map snd l)) as [qs|] eqn:G; [|discriminate].
      apply (proj1 (no_gaps_iff (map snd l))); eauto.
    - intros H. apply sorted_passes; [exact S|]. intros X. apply in_map_iff in X. destruct X as ([n o] & Eo & X). cbn in Eo. subst o.
      apply (Permutation_in _ (Permutation_sym P)) in X.
      assert (Xn : In n (map fst rk)) by (apply in_map_iff; now exists (n, None)).
      rewrite Hn in Xn. apply in_map_iff in Xn. destruct Xn as (x & En & Hx). apply filter_In in Hx. destruct Hx as [Hx Hb].
      apply andb_true_iff in Hb. destruct Hb as [Ob Mb]. apply ordinary_iff in Ob. rewrite negb_true_iff in Mb.
      assert (Nx : ~ In (sp_name x) important) by (intros Y; apply memS_In in Y; congruence).
      destruct (Hv x Hx Ob Nx) as (o & Ho & Hnone).
      apply (In_aget String.eqb Seqb_spec) in X; [|exact ND]. rewrite En in Ho. assert (o = None) by congruence. subst o.
      destruct (proj1 Hnone eq_refl) as [Y|Y]; [contradiction|]. exact (H x Hx Ob Nx Y).
  Qed.
End Use.

(** ** Oxygen that takes part in no running reaction *)
Definition go_rates : frame := MkFrame [LName "t"; LId 1; LId 2; LId 3; LId 4; LId 5; LId 6] [(0%Z, [0; 1; 1; 1; 1; 0; 1])].
Definition go_fluxes : table := MkTable ["t"; "Ar"; "Ar+"; "Ar*"; "O"; "O+"]%string
  [(0%Z, fun n => if String.eqb n "Ar+" then 1 else 0)].
Definition go_par : list (string * Q) := [("radius"%string, 1); ("length"%string, 2#1)].

Lemma gap_fails (l : list (string * option Q)) n : In (n, None) l -> passes_check (map snd l) = false.
Proof.
  intros H. unfold passes_check. destruct (no_gaps (map snd l)) as [qs|] eqn:G; [|reflexivity]. exfalso.
  apply (proj1 (no_gaps_iff (map snd l))); [eauto|]. apply in_map_iff. now exists (n, None).
Qed.

Definition computed (c : chem) (par : list (string * Q)) (rates : frame) (fluxes : table) : option (list (string * option Q)) :=
  match cgraph_init c par rates fluxes with
  | Ok k => match distribute_weights k DRG true with
            | Ok gs => match ranking_values k Qltb ex_label (scores_shortest keep) gs ["Ar+"%string] with
                       | Ok rk => Some rk
                       | Err _ => None
                       end
            | Err _ => None
            end
  | Err _ => None
  end.
Lemma computed_inv c par rates fluxes rk : computed c par rates fluxes = Some rk ->
  exists k gs, cgraph_init c par rates fluxes = Ok k /\ distribute_weights k DRG true = Ok gs /\
    ranking_values k Qltb ex_label (scores_shortest keep) gs ["Ar+"%string] = Ok rk.
Proof.
  unfold computed. intros H.
  destruct (cgraph_init c par rates fluxes) as [k|]; [|discriminate].
  destruct (distribute_weights k DRG true) as [gs|] eqn:Hg; [|discriminate].
  destruct (ranking_values k Qltb ex_label (scores_shortest keep) gs ["Ar+"%string]) as [rk'|] eqn:Hr; [|discriminate].
  injection H as ->. exists k, gs. auto.
Qed.
Lemma go_has_gap : exists a b v w, computed c0 go_par go_rates go_fluxes = Some [("Ar"%string, Some a); ("Ar*"%string, Some b); ("O"%string, v); ("O+"%string, w)] /\
  0 < a /\ 0 < b /\ v = None /\ w = None.
Proof. do 4 eexists. split; [vm_compute; reflexivity|]. repeat split; vm_compute; reflexivity. Qed.

Lemma refused_ranking : exists c par rates fluxes k gs rk,
  reachable E0 c /\ assert_consistency c = Ok tt /\ cgraph_init c par rates fluxes = Ok k /\ rates_nonneg rates /\
  distribute_weights k DRG true = Ok gs /\ ranking_values k Qltb ex_label (scores_shortest keep) gs ["Ar+"%string] = Ok rk /\
  (exists a, In ("Ar"%string, Some a) rk /\ 0 < a) /\
  forall l, Permutation rk l -> passes_check (map snd l) = false.
Proof.
  destruct go_has_gap as (a & b & v & w & H & Ha & Hb & -> & ->). apply computed_inv in H. destruct H as (k & gs & Hk & Hg & Hr).
  exists c0, go_par, go_rates, go_fluxes, k, gs. eexists.
  split; [exact c0_reachable|]. split; [exact c0_consistent|]. split; [exact Hk|].
  split. { intros r v [<-|[]]; cbn; intros H; repeat (destruct H as [<-|H]; [lra|]); destruct H. }
  split; [exact Hg|]. split; [exact Hr|]. split; [exists a; split; [now left|exact Ha]|].
  intros l P. apply (gap_fails l "O"). apply (Permutation_in _ P). cbn. auto.
Qed.


Lemma gi_passes : exists a b, computed cd gi_par gi_rates gi_fluxes = Some [("Ar"%string, Some a); ("Ar*"%string, Some b)] /\
  (passes_check [Some a; Some b] = true \/ passes_check [Some b; Some a] = true).
Proof. do 2 eexists. split; [vm_compute; reflexivity|]. vm_compute. auto. Qed.
