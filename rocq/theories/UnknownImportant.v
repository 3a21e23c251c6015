(** Important species that are no species of the chemistry
    (pygmo_fwork/optichem/graph.py L493-547). *)
From Coq Require Import Permutation Sorted Lqa.
From Verif Require Import Base BaseLemmas SortLemmas Graph GraphSpec GraphProofs GraphPaths GraphFlow ChemGraph ChemGraphSpec ChemGraphProofs ChemRanking
  GraphExamples RankSpec RankMethods.
Local Open Scope Q_scope.

Section Unknown.
  Variable k : cgraph.
  Hypothesis AD : admissible k.
  Variable label : string -> Q -> string.
  Variable it : nat -> list string -> list string.
  Hypothesis Hit : permuting it.
  Variables (m : weighting) (surface : bool) (gs : list (graph Q)) (important : list string).
  Hypothesis Hgs : distribute_weights k m surface = Ok gs.
  Hypothesis Hne : cg_times k <> [].
  Hypothesis Hl : NoDup (map (fun x => label (fst x) (snd x)) (list_prod important (cg_times k))).
  Hypothesis Hu : forall imp, In imp important -> ~ In imp (cg_species k).

  Lemma no_walk imp t g s q ws : In imp important -> nth_error gs t = Some g -> In s (cg_species k) ->
    ~ walk (N := GraphPaths.Qnum) g Ok "weight" imp s q ws.
  Proof using AD Hgs Hu.
    intros Hi Hg Hs W. pose proof (Hu imp Hi) as N.
    destruct (graph_facts k AD m surface gs Hgs) as [_ GF]. destruct (GF t g Hg) as [(_ & _ & _ & HE & _) _].
    revert Hs. induction W as [|u v w p ws (He & _) W IH]; [exact N|]. intros _. apply IH.
    apply HE in He. destruct He as (a & b & Sa & _). exact (nth_error_In _ _ Sa).
  Qed.

  Lemma all_assessed : assessed k important = filter (fun s => negb (memS s (cg_special k))) (cg_species k).
  Proof using Hu.
    unfold assessed. apply filter_ext_in. intros s Hs. f_equal.
    destruct (memS s important) eqn:E; [|reflexivity]. apply memS_In in E. elim (Hu s E Hs).
  Qed.

  Lemma unknown_shortest : exists r, ranking_values k Qltb label (scores_shortest it) gs important = Ok r /\
    map fst r = filter (fun s => negb (memS s (cg_special k))) (cg_species k) /\
    forall s v, sget s r = Some (Some v) -> v == 0.
  Proof using AD Hit Hgs Hne Hl Hu.
    destruct (rank_shortest k AD label it Hit m surface gs important Hgs Hne Hl) as (r & H1 & H2 & H3).
    exists r. split; [exact H1|]. split; [rewrite H2; exact all_assessed|]. intros s v Hv.
    assert (A : In s (assessed k important)).
    { rewrite <- H2. apply in_map_iff. exists (s, Some v). split; [reflexivity|]. exact (aget_In String.eqb Seqb_spec _ _ _ Hv). }
    apply assessed_In in A. destruct A as (A1 & A2 & A3). destruct (H3 s A1 A2 A3) as (o & Ho & _ & HV).
    assert (o = Some v) by congruence. subst o. destruct (HV v eq_refl) as [_ [(imp & t & g & q & ws & Hi & Hg & W & _)|[Z _]]]; [|exact Z].
    elim (no_walk imp t g s q ws Hi Hg A1 W).
  Qed.

  Lemma unknown_widest : exists r, ranking_values k (@xltb GraphPaths.Qnum) label (scores_bottleneck it) gs important = Ok r /\
    map fst r = filter (fun s => negb (memS s (cg_special k))) (cg_species k) /\
    forall s v, sget s r = Some (Some v) -> v = Num 0.
  Proof using AD Hit Hgs Hne Hl Hu.
    destruct (rank_widest k AD label it Hit m surface gs important Hgs Hne Hl) as (r & H1 & H2 & H3).
    exists r. split; [exact H1|]. split; [rewrite H2; exact all_assessed|]. intros s v Hv.
    assert (A : In s (assessed k important)).
    { rewrite <- H2. apply in_map_iff. exists (s, Some v). split; [reflexivity|]. exact (aget_In String.eqb Seqb_spec _ _ _ Hv). }
    apply assessed_In in A. destruct A as (A1 & A2 & A3). destruct (H3 s A1 A2 A3) as (o & Ho & _ & HV).
    assert (o = Some v) by congruence. subst o. destruct (HV v eq_refl) as [_ [(imp & t & g & q & ws & Hi & Hg & W & _)|[Z _]]]; [|exact Z].
    elim (no_walk imp t g s q ws Hi Hg A1 W).
  Qed.

  Lemma no_flow imp t g s x : In imp important -> nth_error gs t = Some g -> connected g s -> In s (cg_species k) -> largest_flow g s imp x -> x == 0.
  Proof using AD Hgs Hu.
    intros Hi Hg Hc Hs [(cap & f & _ & F) _]. pose proof (Hu imp Hi) as N.
    destruct (graph_facts k AD m surface gs Hgs) as [_ GF]. destruct (GF t g Hg) as [(W & _ & HN & HE & _) _].
    assert (NI : ~ In imp (g_nodes g)).
    { intros H. apply HN in H. destruct H as [v [H|H]]; apply HE in H; destruct H as (a & b & Sa & Sb & _); apply N; eapply nth_error_In; eassumption. }
    assert (D : s <> imp) by (intros ->; contradiction).
    rewrite (cut_flow (g_nodes g) cap f s imp x (fun u => negb (String.eqb u imp)) F (wf_nodup g W) (proj2 (HN s) Hc)).
    - apply qsum_0. intros u _. apply qsum_0. intros v Hv. destruct (String.eqb_spec v imp) as [->|_]; [contradiction|]. cbn. now rewrite andb_false_r.
    - destruct (String.eqb_spec s imp); [contradiction|reflexivity].
    - now rewrite String.eqb_refl.
  Qed.

  Lemma unknown_flow : important <> [] ->
    (forall s t g, In s (cg_species k) -> ~ In s (cg_special k) -> nth_error gs t = Some g -> connected g s) ->
    exists n, forall fuel, (n <= fuel)%nat ->
    exists r, ranking_values k Qltb label (scores_flow it fuel (assessed k important)) gs important = Ok r /\
      map fst r = filter (fun s => negb (memS s (cg_special k))) (cg_species k) /\
      forall s, In s (map fst r) -> exists v, sget s r = Some (Some v) /\ v == 0.
  Proof using AD Hit Hgs Hne Hl Hu.
    intros Hi Hc. destruct (rank_flow k AD label it Hit m surface gs important Hgs Hne Hl Hi) as [n Hn]; [intros s t g A _ B; now apply Hc|].
    exists n. intros fuel Hf. destruct (Hn fuel Hf) as (r & H1 & H2 & H3). exists r. split; [exact H1|]. split; [rewrite H2; exact all_assessed|].
    intros s Hs. rewrite H2 in Hs. apply assessed_In in Hs as (A1 & A2 & A3). destruct (H3 s A1 A2 A3) as (v & Hv & (imp & t & g & I & G & L) & _).
    exists v. split; [exact Hv|]. exact (no_flow imp t g s v I G (Hc s t g A1 A3 G) A1 L).
  Qed.
End Unknown.

(** A misspelled name: nothing is said, B and C get the score 0; with the
    right name they have positive scores. *)
Lemma misspelled :
  (admissible over_k /\ distribute_weights over_k DRG true = Ok [over_g] /\ cg_times over_k <> [] /\
   NoDup (map (fun x => ex_label (fst x) (snd x)) (list_prod ["a"%string] (cg_times over_k))) /\
   (forall imp, In imp ["a"%string] -> ~ In imp (cg_species over_k))) /\
  (exists x y z, ranking_values over_k Qltb ex_label (scores_shortest keep) [over_g] ["a"%string] =
     Ok [("A"%string, Some x); ("B"%string, Some y); ("C"%string, Some z)]) /\
  exists y z, ranking_values over_k Qltb ex_label (scores_shortest keep) [over_g] ["A"%string] =
     Ok [("B"%string, Some y); ("C"%string, Some z)] /\ 0 < y /\ 0 < z.
Proof.
  destruct over_ok as (A & B & C & D). split; [|split].
  - split; [exact A|]. split; [exact B|]. split; [exact C|]. split.
    + cbn. repeat (constructor; [cbn; intuition discriminate|]). constructor.
    + intros imp [<-|[]]. vm_compute. intuition discriminate.
  - do 3 eexists. vm_compute. reflexivity.
  - do 2 eexists. split; [vm_compute; reflexivity|]. split; vm_compute; reflexivity.
Qed.

Lemma misspelled_flow :
  (forall s t g, In s (cg_species over_k) -> ~ In s (cg_special over_k) -> nth_error [over_g] t = Some g -> connected g s) /\
  ranking_values over_k Qltb ex_label (scores_flow keep 5 (assessed over_k ["a"])) [over_g] ["a"] =
  Ok [("A", Some 0); ("B", Some 0); ("C", Some 0)].
Proof.
  split; [|vm_compute; reflexivity]. intros s t g Hs _ Hg. apply nth_single in Hg as ->. unfold connected. rewrite over_edges.
  destruct Hs as [<-|[<-|[<-|[]]]]; [exists "B"|exists "A"|exists "A"]; left; cbn; tauto.
Qed.
