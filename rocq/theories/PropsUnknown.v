(** The claim about unknown important species: C185. *)
From Verif Require Import Base Graph GraphSpec GraphProofs GraphPaths ChemGraph ChemGraphSpec ChemGraphProofs ChemRanking GraphExamples RankSpec RankMethods
  UnknownImportant.
Local Open Scope Q_scope.

(** Names of important species that are no species of the graph are not
    noticed; every species gets the score 0 or none, whatever the graph is. *)
Theorem C185_unknown_refuted k label it m surface gs important :
  admissible k -> permuting it -> distribute_weights k m surface = Ok gs -> cg_times k <> [] ->
  NoDup (map (fun x => label (fst x) (snd x)) (list_prod important (cg_times k))) ->
  (forall imp, In imp important -> ~ In imp (cg_species k)) ->
  exists r, ranking_values k Qltb label (scores_shortest it) gs important = Ok r /\
    map fst r = filter (fun s => negb (memS s (cg_special k))) (cg_species k) /\
    forall s v, sget s r = Some (Some v) -> v == 0.
Proof. exact (fun AD Hit Hgs Hne Hl Hu => unknown_shortest k AD label it Hit m surface gs important Hgs Hne Hl Hu). Qed.

Theorem C185_widest_refuted k label it m surface gs important :
  admissible k -> permuting it -> distribute_weights k m surface = Ok gs -> cg_times k <> [] ->
  NoDup (map (fun x => label (fst x) (snd x)) (list_prod important (cg_times k))) ->
  (forall imp, In imp important -> ~ In imp (cg_species k)) ->
  exists r, ranking_values k (@xltb GraphPaths.Qnum) label (scores_bottleneck it) gs important = Ok r /\
    map fst r = filter (fun s => negb (memS s (cg_special k))) (cg_species k) /\
    forall s v, sget s r = Some (Some v) -> v = Num 0.
Proof. exact (fun AD Hit Hgs Hne Hl Hu => unknown_widest k AD label it Hit m surface gs important Hgs Hne Hl Hu). Qed.

Example C185_not_vacuous :
  (admissible over_k /\ distribute_weights over_k DRG true = Ok [over_g] /\ cg_times over_k <> [] /\
   NoDup (map (fun x => ex_label (fst x) (snd x)) (list_prod ["a"%string] (cg_times over_k))) /\
   (forall imp, In imp ["a"%string] -> ~ In imp (cg_species over_k))) /\
  (exists x y z, ranking_values over_k Qltb ex_label (scores_shortest keep) [over_g] ["a"%string] =
     Ok [("A"%string, Some x); ("B"%string, Some y); ("C"%string, Some z)]) /\
  exists y z, ranking_values over_k Qltb ex_label (scores_shortest keep) [over_g] ["A"%string] =
     Ok [("B"%string, Some y); ("C"%string, Some z)] /\ 0 < y /\ 0 < z.
Proof. exact misspelled. Qed.

(** The largest flow to a name that is no species is 0. *)
Theorem C185_flow_refuted k label it m surface gs important :
  admissible k -> permuting it -> distribute_weights k m surface = Ok gs -> cg_times k <> [] ->
  NoDup (map (fun x => label (fst x) (snd x)) (list_prod important (cg_times k))) ->
  (forall imp, In imp important -> ~ In imp (cg_species k)) -> important <> [] ->
  (forall s t g, In s (cg_species k) -> ~ In s (cg_special k) -> nth_error gs t = Some g -> connected g s) ->
  exists n, forall fuel, (n <= fuel)%nat ->
  exists r, ranking_values k Qltb label (scores_flow it fuel (assessed k important)) gs important = Ok r /\
    map fst r = filter (fun s => negb (memS s (cg_special k))) (cg_species k) /\
    forall s, In s (map fst r) -> exists v, sget s r = Some (Some v) /\ v == 0.
Proof. exact (fun AD Hit Hgs Hne Hl Hu => unknown_flow k AD label it Hit m surface gs important Hgs Hne Hl Hu). Qed.

Example C185_flow_not_vacuous :
  (forall s t g, In s (cg_species over_k) -> ~ In s (cg_special over_k) -> nth_error [over_g] t = Some g -> connected g s) /\
  ranking_values over_k Qltb ex_label (scores_flow keep 5 (assessed over_k ["a"%string])) [over_g] ["a"%string] =
  Ok [("A"%string, Some 0); ("B"%string, Some 0); ("C"%string, Some 0)].
Proof. exact misspelled_flow. Qed.

(** All theorems of this file at once (one traversal instead of one per
    theorem). *)
Definition all_theorems := (
  @C185_unknown_refuted,
  @C185_widest_refuted,
  @C185_flow_refuted).
Print Assumptions all_theorems.
