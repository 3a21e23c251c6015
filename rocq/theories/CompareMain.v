(** Comparisons of reduction runs: figures and axes. *)
From Coq Require Import Permutation Lqa Qabs.
From Verif Require Import Base BaseLemmas Species Reactions Chemistry ChemSpec ReductionChem Morris MorrisStats Tables InitialGuess
  GlobalModel GlobalSpec Reduction ReductionSpec ReductionProofs ReductionMain Compare CompareSpec CompareRun CompareDraw.
Open Scope list_scope.

(** ** Errors are not negative *)

Definition notneg (e : flt) : Prop := match e with Fin q => (0 <= q)%Q | NInf => False | _ => True end.

Lemma fabs_notneg e : notneg (fabs e).
Proof. destruct e; cbn; try exact Logic.I. apply Qabs_nonneg. Qed.
Lemma pymax_notneg l e : Forall notneg l -> pymax l = Ok e -> notneg e.
Proof.
  destruct l as [|x l]; [discriminate|]. intros F. cbn [pymax]. intros H. injection H as <-.
  inversion_clear F as [|? ? H1 H2]. revert x H1. induction l as [|y l IH]; intros x H1; [exact H1|].
  cbn [fold_left]. inversion_clear H2 as [|? ? H3 H4]. destruct (fltb x y); apply IH; assumption.
Qed.
Lemma error_notneg full red outs times e : get_error_max full red outs times = Ok e -> notneg e.
Proof.
  unfold get_error_max. intros H. destruct (mapM _ outs) as [ms|] eqn:H1; [|discriminate]. cbn [bind] in H. rename H into H2. apply (pymax_notneg ms); [|exact H2].
  apply mapM_Ok_inv in H1. apply Forall_forall. intros x I. revert x I. clear H2.
  induction H1 as [|o x os xs H K IH]; [easy|]. intros y [<-|I]; [|now apply IH].
  unfold get_output_error_max in H. destruct (get_output_errors _ _ _ _) as [es|]; [|discriminate]. cbn [bind] in H. apply (pymax_notneg _ _) in H; [exact H|].
  apply Forall_forall. intros z J. apply in_map_iff in J. destruct J as (w & <- & _). apply fabs_notneg.
Qed.

Section One.
  Variables (E : env) (fhash : string -> option string) (default_dir : string -> res path) (scan : list path -> list path).
  Hypothesis scan_perm : forall l, Permutation (scan l) l.
  Variables (k : rconf) (c0 : chem) (h : list hrow).
  Hypothesis H : history_of E fhash default_dir scan k c0 h.

  Lemma row_notneg r : In r h -> h_success r = Some true -> notneg (h_base r).
  Proof using H scan_perm.
    intros I S. destruct H as (b & g & s & st & R & D & M & O & C & IT & EH). subst h.
    destruct (proj2 (iterated_inv E fhash default_dir scan b k scan_perm c0 R D M true g s st O C IT)) as [_ _ _ _ _ _ (base & _ & CL) _].
    apply in_split in I. destruct I as (h1 & h2 & E1). destruct (CL h1 r h2 E1 S) as (rid & d & sol & _ & _ & _ & _ & _ & _ & X & _).
    destruct h1; [destruct X as [_ ->]; cbn; apply Qle_refl|]. exact (error_notneg _ _ _ _ _ X).
  Qed.

  Lemma removed_notneg r : numbers true h -> In r h -> h_success r = Some true -> (0 <= h_removed r)%Z.
  Proof using H scan_perm.
    intros N I S. destruct H as (b & g & s & st & R & D & M & O & C & IT & EH). subst h.
    destruct (proj2 (iterated_inv E fhash default_dir scan b k scan_perm c0 R D M true g s st O C IT)) as [_ _ _ _ _ _ (base & _ & CL) _].
    apply in_split in I. destruct I as (h1 & h2 & E1). destruct (CL h1 r h2 E1 S) as (rid & d & sol & _ & _ & RD & _ & HL & HR & _ & PD).
    assert (L : (List.length (names_of d) <= List.length (names_of c0))%nat).
    { apply NoDup_incl_length; [exact (names_nodup E d RD)|]. intros x X. apply present_names. apply present_names in X. now apply (PD N) in X. }
    lia.
  Qed.

  (** Only the first row has no species. *)
  Lemma named r m : (m == rc_max k)%Q -> In r h -> dead_end m r = true -> h_species r <> None.
  Proof using H scan_perm.
    intros EM I DE X. destruct (base_row E fhash default_dir scan scan_perm k c0 h H) as (r0 & h' & EH & _ & _ & B & _).
    destruct H as (b & g & s & st & R & D & M & O & C & IT & EH2).
    destruct (proj2 (iterated_inv E fhash default_dir scan b k scan_perm c0 R D M true g s st O C IT)) as [CR _ _ _ _ _ _ _].
    rewrite EH2, EH in CR. rewrite EH in I. cbn [map] in CR. injection CR as _ CR. destruct I as [<-|I].
    - apply (dead_end_iff m k EM) in DE. destruct DE as [_ DE]. rewrite B in DE. cbn in DE.
      apply (Qlt_not_le _ _ DE). apply Qle_shift_div_l; [reflexivity|]. now rewrite Qmult_0_l.
    - apply (in_map h_species) in I. rewrite CR, X in I. apply in_map_iff in I. destruct I as (? & ? & _). discriminate.
  Qed.

  Lemma history_starts m : (m == rc_max k)%Q -> starts_well m h.
  Proof using H scan_perm.
    intros EM. destruct (base_row E fhash default_dir scan scan_perm k c0 h H) as (r & h' & EH & _ & S & B & ST).
    exists r, h'. split; [exact EH|]. split; [now apply (on_line_iff m k EM)|].
    destruct (dead_end m r) eqn:DE; [|reflexivity]. apply (dead_end_iff m k EM) in DE. exfalso.
    exact (within_not_over k (h_base r) (proj2 ST eq_refl) (proj2 DE)).
  Qed.

  (** The last row of the line has lost the most. *)
  Lemma last_most m l hs r : (m == rc_max k)%Q -> numbers true h -> rev (filter (on_line m) h) = l :: hs -> In r h -> on_line m r = true ->
    (h_removed r <= h_removed l)%Z /\ on_line m l = true /\ In l h.
  Proof using H scan_perm.
    intros EM N RV I O. assert (EF : filter (on_line m) h = rev hs ++ [l]).
    { rewrite <- (rev_involutive (filter (on_line m) h)), RV. reflexivity. }
    assert (IL : In l (filter (on_line m) h)) by (rewrite EF; apply in_or_app; right; now left).
    apply filter_In in IL. destruct IL as [IL OL]. split; [|now split].
    (* the positions of r and l *)
    assert (POS : forall h' pre, filter (on_line m) h' = pre ++ [l] -> exists ha hb, h' = ha ++ l :: hb /\ forall q, In q hb -> on_line m q = false).
    { intros h'. induction h' as [|q h' IH]; intros pre X; [destruct pre; discriminate|]. cbn [filter] in X. destruct (on_line m q) eqn:Q.
      - destruct pre as [|z pre].
        + injection X as -> X. exists [], h'. split; [reflexivity|]. intros y Y. destruct (on_line m y) eqn:Z; [|reflexivity].
          assert (In y (filter (on_line m) h')) by (apply filter_In; auto). rewrite X in H0. contradiction.
        + injection X as <- X. destruct (IH pre X) as (ha & hb & -> & A). exists (q :: ha), hb. auto.
      - destruct (IH pre X) as (ha & hb & -> & A). exists (q :: ha), hb. auto. }
    destruct (POS h (rev hs) EF) as (ha & hb & EH & AF). rewrite EH in I. apply in_app_or in I. destruct I as [I|[<-|I]].
    - apply in_split in I. destruct I as (h1 & h2 & ->). apply Z.lt_le_incl.
      apply (kept_more E fhash default_dir scan scan_perm k c0 h H N h1 r h2 l hb).
      + rewrite EH, <- app_assoc. reflexivity.
      + now apply (on_line_iff m k EM).
      + now apply (on_line_iff m k EM).
    - lia.
    - rewrite (AF r I) in O. discriminate.
  Qed.
End One.
