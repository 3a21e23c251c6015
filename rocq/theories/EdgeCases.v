(** Single cases: integer time points, neutral models, missing files. *)
From Coq Require Import Reals Qreals Lra Qround.
From Verif Require Import Base BaseLemmas Species Reactions Chemistry Morris MorrisStats InitialGuess Tables ExtReal Equations EqSpec Neutral Solution EqExamples.
Open Scope R_scope.

(** A negative integer time point given twice. *)
Lemma ceil_step z d : (0 < d < 1)%Q -> Qceiling (inject_Z z - d) = z.
Proof.
  intros [D1 D2]. pose proof (Qle_ceiling (inject_Z z - d)) as A. pose proof (Qceiling_lt (inject_Z z - d)) as B.
  assert (L1 : (inject_Z (z - 1) < inject_Z (Qceiling (inject_Z z - d)))%Q).
  { apply Qlt_le_trans with (inject_Z z - d)%Q; [|exact A]. unfold Z.sub. rewrite inject_Z_plus. change (inject_Z (- (1))) with (- (1))%Q. Lqa.lra. }
  assert (L2 : (inject_Z (Qceiling (inject_Z z - d) - 1) < inject_Z z)%Q) by Lqa.lra.
  rewrite <- Zlt_Qlt in L1, L2. lia.
Qed.
Lemma ceil_up z d : (0 < d < 1)%Q -> Qceiling (inject_Z z + d) = (z + 1)%Z.
Proof.
  intros [D1 D2]. replace (inject_Z z + d)%Q with (inject_Z z + d)%Q by reflexivity.
  assert (Q : (inject_Z z + d == inject_Z (z + 1) - (1 - d))%Q) by (rewrite inject_Z_plus; change (inject_Z 1) with 1%Q; Lqa.lra).
  rewrite (Qceiling_comp _ _ Q). apply ceil_step. split; Lqa.lra.
Qed.

Lemma negative_twice z w d : (z < 0)%Z -> (0 < d < 1)%Q -> (z + 1 < w)%Z ->
  adjust true d [inject_Z z; inject_Z z; inject_Z w] = [inject_Z z; inject_Z (z + 1); inject_Z w].
Proof.
  intros Z0 D W. unfold adjust. cbn [List.length Nat.sub seq fold_left adjust_at].
  rewrite (proj2 (Qeq_bool_iff _ _) (Qeq_refl _)). unfold store, trunc.
  assert (N1 : Qle_bool 0 (inject_Z z - d) = false).
  { destruct (Qle_bool 0 (inject_Z z - d)) eqn:B; [|reflexivity]. apply Qle_bool_iff in B.
    assert (inject_Z z < inject_Z 0)%Q by (rewrite <- Zlt_Qlt; exact Z0). change (inject_Z 0) with 0%Q in *. exfalso. Lqa.lra. }
  rewrite N1, ceil_step by exact D.
  assert (T2 : (if Qle_bool 0 (inject_Z z + d) then Qfloor (inject_Z z + d) else Qceiling (inject_Z z + d)) = (z + 1)%Z).
  { destruct (Qle_bool 0 (inject_Z z + d)) eqn:B; [|apply ceil_up; exact D]. apply Qle_bool_iff in B. exfalso.
    assert (inject_Z z <= inject_Z (-1))%Q by (rewrite <- Zle_Qle; lia). change (inject_Z (-1)) with (-1)%Q in *. Lqa.lra. }
  rewrite T2. cbn [adjust_at].
  destruct (Qeq_bool (inject_Z (z + 1)) (inject_Z w)) eqn:B; [|reflexivity].
  apply Qeq_bool_iff in B. apply (proj1 (inject_Z_injective _ _)) in B. exfalso. lia.
Qed.

Lemma integer_knots K model v p e z w :
  eq_init K model v p = Ok e -> p_int p = true -> p_times p = [inject_Z z; inject_Z z; inject_Z w] ->
  (z < 0)%Z -> (z + 1 < w)%Z -> (0 < p_t_end p < 100000)%Q ->
  s_tpow (st e) = [inject_Z z; inject_Z (z + 1); inject_Z w].
Proof.
  intros H I T Z0 W D.
  assert (Q : s_tpow (st e) = adjust (p_int p) ((1 # 100000) * p_t_end p) (p_times p)).
  { clear - H. revert H. unfold eq_init. intros H.
    repeat match type of H with bind ?r _ = _ => destruct r; cbn [bind] in H; [|discriminate H] end.
    injection H as <-. reflexivity. }
  rewrite Q, I, T. apply negative_twice; [exact Z0| |exact W]. destruct D. split; Lqa.lra.
Qed.

Lemma integer_knots_example : exists e, eq_init K1 Combined view1 (params1 true [-1; -1; 2]%Q 2%Q) = Ok e.
Proof. eexists. reflexivity. Qed.

(** Neutral models report no electrons. *)
Lemma neutral_reports s y : report_density NeutralOnly s y = X 0 /\ report_temperature NeutralOnly s y = XNaN.
Proof. split; reflexivity. Qed.

Lemma neutral_rows s names t y row :
  frame_row NeutralOnly s names t y = row -> sget "e"%string row = Some (X 0) /\ sget "Te"%string row = Some XNaN.
Proof.
  intros <-. unfold frame_row. split.
  - rewrite !(aget_aset_other String.eqb String.eqb_eq) by discriminate. apply (aget_aset_same String.eqb String.eqb_eq).
  - rewrite !(aget_aset_other String.eqb String.eqb_eq) by discriminate. apply (aget_aset_same String.eqb String.eqb_eq).
Qed.

(** Rates before a run. *)
Lemma no_rates cl b : bk_primary b = None -> bk_rates cl b = Err EModelSolution /\ bk_solution b = Err EModelSolution.
Proof. intros S. unfold bk_rates, bk_solution. rewrite S. split; reflexivity. Qed.

(** Which chemistries the neutral model takes. *)
Lemma neutral_model_iff c names : neutral_model_names c = Ok names <->
  (forall s z, In s (get_species c false false true) -> sp_charge s = Some z -> z = 0%Z) /\
  names = map sp_name (get_species c false false true).
Proof.
  unfold neutral_model_names. set (l := get_species c false false true).
  destruct (existsb _ l) eqn:B; cbn [raise_if bind].
  - split; [discriminate|]. intros [H _]. apply existsb_exists in B. destruct B as (s & I & B).
    destruct (sp_charge s) as [z|] eqn:C; [|discriminate B]. rewrite (H s z I C) in B. discriminate B.
  - split.
    + intros [= <-]. split; [|reflexivity]. intros s z I C.
      assert (N : existsb (fun s => match sp_charge s with Some z => negb (Z.eqb z 0) | None => false end) l <> true) by congruence.
      destruct (Z.eqb_spec z 0) as [Q|Q]; [exact Q|]. exfalso. apply N. apply existsb_exists. exists s. split; [exact I|].
      rewrite C. destruct (Z.eqb_spec z 0); [contradiction|reflexivity].
    + intros [_ ->]. reflexivity.
Qed.

(** The file of the chemistry is gone. *)
Lemma missing_file E fh c s f : c_xml c = Some s -> s <> ""%string -> fh s = None ->
  (forall d, chemistry_attributes E fh c <> Ok d) /\ load E fh c f true = (c, Err EChemAttr).
Proof.
  intros Q N F. split.
  - intros d. unfold chemistry_attributes. rewrite Q. cbn [path_or_none].
    destruct (String.eqb_spec s ""); [contradiction|].
    destruct (mapM _ (c_stick c)); cbn [bind]; [|discriminate].
    destruct (mapM _ (c_arrh c)); cbn [bind]; [|discriminate].
    unfold xml_hash. rewrite F. discriminate.
  - unfold load. destruct (raise_if (negb (opt_str_eqb (a_path f) (c_xml c))) EChemAttr) as [[]|x] eqn:R.
    + rewrite Q. cbn [bind xml_hash]. rewrite F. reflexivity.
    + cbn [bind]. unfold raise_if in R. destruct (negb _); [|discriminate R]. injection R as <-. reflexivity.
Qed.
