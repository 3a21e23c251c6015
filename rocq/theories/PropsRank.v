(** Property theorems about the rankings by the other search methods (C182).
    Vocabulary: GraphSpec.v, ChemGraphSpec.v and RankSpec.v. *)
From Coq Require Import Reals Qreals.
From Verif Require Import Base Graph GraphSpec GraphProofs GraphPaths ChemGraph ChemGraphSpec ChemGraphProofs GraphExamples
  RankSpec RankMethods.
Local Open Scope Q_scope.

(** C182: with 'max_bottleneck' the score of a species is the width of the
    widest of its paths to important species at important times. *)
Theorem C182_widest k label it m surface gs important :
  admissible k -> permuting it -> distribute_weights k m surface = Ok gs -> cg_times k <> [] ->
  NoDup (map (fun x => label (fst x) (snd x)) (list_prod important (cg_times k))) ->
  exists r, ranking_values k (@xltb GraphPaths.Qnum) label (scores_bottleneck it) gs important = Ok r /\
    map fst r = assessed k important /\
    forall s, In s (cg_species k) -> ~ In s important -> ~ In s (cg_special k) -> exists o, sget s r = Some o /\
      (o = None <-> important = [] \/ forall t g, nth_error gs t = Some g -> ~ connected g s) /\
      (forall v, o = Some v ->
         (forall imp t g q ws, In imp important -> nth_error gs t = Some g ->
            walk (N := GraphPaths.Qnum) g Ok "weight" imp s q ws -> xle (width ws) v) /\
         ((exists imp t g q ws, In imp important /\ nth_error gs t = Some g /\
             walk (N := GraphPaths.Qnum) g Ok "weight" imp s q ws /\ v = width ws) \/
          (v = Num 0 /\ forall imp t g q ws, In imp important -> nth_error gs t = Some g ->
             ~ walk (N := GraphPaths.Qnum) g Ok "weight" imp s q ws))).
Proof. exact (fun AD Hit Hgs Hne Hl => rank_widest k AD label it Hit m surface gs important Hgs Hne Hl). Qed.

(** With 'max_product' and the schemes DRG and DRGEP it is the largest product
    of weights along such a path, for species without a path of product one
    (see C61 for these). *)
Theorem C182_product k label it m surface gs important :
  admissible k -> permuting it -> distribute_weights k m surface = Ok gs -> cg_times k <> [] ->
  NoDup (map (fun x => label (fst x) (snd x)) (list_prod important (cg_times k))) ->
  m = DRG \/ m = DRGEP ->
  exists r, ranking_values k (nltb Rnum) label (scores_product it) gs important = Ok r /\
    map fst r = assessed k important /\
    forall s, In s (cg_species k) -> ~ In s important -> ~ In s (cg_special k) ->
      (forall imp t g q ws, In imp important -> nth_error gs t = Some g ->
         walk (N := GraphPaths.Qnum) g Ok "weight" imp s q ws -> ~ qproduct ws == 1) ->
      exists o, sget s r = Some o /\
      (o = None <-> important = [] \/ forall t g, nth_error gs t = Some g -> ~ connected g s) /\
      (forall v, o = Some v ->
         (forall imp t g q ws, In imp important -> nth_error gs t = Some g ->
            walk (N := GraphPaths.Qnum) g Ok "weight" imp s q ws -> (Q2R (qproduct ws) <= v)%R) /\
         ((exists imp t g q ws, In imp important /\ nth_error gs t = Some g /\
             walk (N := GraphPaths.Qnum) g Ok "weight" imp s q ws /\ v = Q2R (qproduct ws)) \/
          (v = 0%R /\ forall imp t g q ws, In imp important -> nth_error gs t = Some g ->
             ~ walk (N := GraphPaths.Qnum) g Ok "weight" imp s q ws))).
Proof. exact (fun AD Hit Hgs Hne Hl => rank_product k AD label it Hit m surface gs important Hgs Hne Hl). Qed.

(** With 'max_flow' it is the value of the largest flow to an important
    species at an important time, if every ranked species is connected to
    another one at every time (see C61 for the others); [n] bounds the number
    of augmenting paths. *)
Theorem C182_flow k label it m surface gs important :
  admissible k -> permuting it -> distribute_weights k m surface = Ok gs -> cg_times k <> [] ->
  NoDup (map (fun x => label (fst x) (snd x)) (list_prod important (cg_times k))) ->
  important <> [] ->
  (forall s t g, In s (cg_species k) -> ~ In s important -> ~ In s (cg_special k) -> nth_error gs t = Some g -> connected g s) ->
  exists n, forall fuel, (n <= fuel)%nat ->
  exists r, ranking_values k Qltb label (scores_flow it fuel (assessed k important)) gs important = Ok r /\
    map fst r = assessed k important /\
    forall s, In s (cg_species k) -> ~ In s important -> ~ In s (cg_special k) -> exists v, sget s r = Some (Some v) /\
      (exists imp t g, In imp important /\ nth_error gs t = Some g /\ largest_flow g s imp v) /\
      (forall imp t g x, In imp important -> nth_error gs t = Some g -> largest_flow g s imp x -> x <= v).
Proof. exact (fun AD Hit Hgs Hne Hl => rank_flow k AD label it Hit m surface gs important Hgs Hne Hl). Qed.

Example C182_not_vacuous :
  (admissible over_k /\ distribute_weights over_k DRG true = Ok [over_g] /\ cg_times over_k <> [] /\
   NoDup (map (fun x => ex_label (fst x) (snd x)) (list_prod ["A"] (cg_times over_k)))) /\
  ranking_values over_k (@xltb GraphPaths.Qnum) ex_label (scores_bottleneck keep) [over_g] ["A"] =
  Ok [("B", Some (Num (2#3))); ("C", Some (Num (1#3)))].
Proof. exact (conj over_ok over_widest). Qed.

Example C182_product_not_vacuous t g q ws s : nth_error [over_g] t = Some g ->
  walk (N := GraphPaths.Qnum) g Ok "weight" "A" s q ws -> s <> "A" -> ~ qproduct ws == 1.
Proof. exact (over_products t g q ws s). Qed.

Example C182_flow_not_vacuous :
  (forall s t g, In s (cg_species over_k) -> ~ In s ["A"] -> ~ In s (cg_special over_k) ->
    nth_error [over_g] t = Some g -> connected g s) /\
  ranking_values over_k Qltb ex_label (scores_flow keep 5 (assessed over_k ["A"])) [over_g] ["A"] =
  Ok [("B", Some (2#3)); ("C", Some (1#3))].
Proof. exact over_flow. Qed.

(** All theorems of this file at once (one traversal instead of one per
    theorem). *)
Definition all_theorems := (
  @C182_widest,
  @C182_product,
  @C182_flow).
Print Assumptions all_theorems.
