(** Runs started from densities given by name. *)
From Coq Require Import Permutation.
From Verif Require Import Base BaseLemmas Chemistry InitialGuess InitialSpec InitialMain ExtReal Neutral.
Open Scope Q_scope.

Lemma same_names_iff a b : same_names a b = true <-> Permutation a b.
Proof.
  unfold same_names. rewrite forallb_forall, (Permutation_count_occ string_dec). split.
  - intros H n. destruct (in_dec string_dec n (a ++ b)%list) as [I|I].
    + apply Nat.eqb_eq, H, I.
    + rewrite (proj1 (count_occ_not_In string_dec a n)), (proj1 (count_occ_not_In string_dec b n)); [reflexivity| |];
        intros J; apply I, in_or_app; tauto.
  - intros H n _. apply Nat.eqb_eq, H.
Qed.

Lemma given_values {A} (f : A -> string) (d : list (string * Q)) : NoDup (map fst d) -> forall l,
  (forall x, In x l -> In (f x) (map fst d)) ->
  exists ns, mapM (fun s => match sget (f s) d with Some q => Ok q | None => Err EKey end) l = Ok ns /\
    Forall2 (fun s q => In (f s, q) d) l ns.
Proof.
  intros N l. induction l as [|x l IH]; intros H; [exists []; split; [reflexivity|constructor]|].
  destruct IH as [ns [M F]]; [intros y I; apply H; right; exact I|].
  destruct (proj1 (in_map_iff _ _ _) (H x (or_introl eq_refl))) as [[k q] [E I]]. cbn in E. subst k.
  exists (q :: ns). cbn [mapM]. rewrite (In_aget String.eqb String.eqb_eq _ _ _ N I).
  cbn [bind]. rewrite M. split; [reflexivity|constructor; assumption].
Qed.

Lemma neutral_given names p d : NoDup (map fst d) ->
  (Permutation (map fst d) names -> exists ns, n_y0_from_init_params names p (Some d) = Ok (ns, 0) /\
     Forall2 (fun n q => In (n, q) d) names ns) /\
  (~ Permutation (map fst d) names -> n_y0_from_init_params names p (Some d) = Err EInitialSolution).
Proof.
  intros N. unfold n_y0_from_init_params. split; intros P.
  - rewrite (proj2 (same_names_iff _ _) P). cbn [negb raise_if bind].
    destruct (given_values (fun s => s) d N names) as [ns [M F]];
      [intros x I; apply (Permutation_in x (Permutation_sym P)), I|].
    rewrite M. exists ns. split; [reflexivity|exact F].
  - destruct (same_names (map fst d) names) eqn:S; [|reflexivity]. exfalso. apply P, same_names_iff, S.
Qed.

Lemma plain_given c p te l d : heavy c = Ok l -> NoDup (map fst d) ->
  (Permutation (map fst d) (map fst l) -> exists ns,
     y0_from_init_params c p te (Some d) = Ok (ns, (3 # 2) * charge_density l ns * te) /\
     Forall2 (fun s q => In (fst s, q) d) l ns) /\
  (~ Permutation (map fst d) (map fst l) -> y0_from_init_params c p te (Some d) = Err EInitialSolution).
Proof.
  intros H N. unfold y0_from_init_params. rewrite H. cbn [bind]. split; intros P.
  - rewrite (proj2 (same_names_iff _ _) P). cbn [negb raise_if bind].
    destruct (given_values fst d N l) as [ns [M F]];
      [intros x I; apply (Permutation_in _ (Permutation_sym P)), in_map, I|].
    rewrite M. cbn [bind]. exists ns. split; [reflexivity|exact F].
  - destruct (same_names (map fst d) (map fst l)) eqn:S; [|reflexivity]. exfalso. apply P, same_names_iff, S.
Qed.
