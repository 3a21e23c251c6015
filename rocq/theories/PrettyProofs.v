(** Proofs about printed arrays. *)
From Verif Require Import Base BaseLemmas Species Reactions Chemistry PrettyPrint PrettySpec.

Lemma Forall2_len {A B} (R : A -> B -> Prop) a b : Forall2 R a b -> List.length a = List.length b.
Proof. induction 1; cbn; congruence. Qed.

Section Proofs.
  Context {A : Type}.
  Implicit Types t : frame (cell A).

  Definition redden (b : bool) (x : cell A) : cell A := MkCell (cl_val x) (b || cl_red x).
  Lemma redden_false x : redden false x = x. Proof. now destruct x. Qed.
  Lemma redden_true x : redden true x = paint x. Proof. reflexivity. Qed.
  Lemma redden_redden a b x : redden a (redden b x) = redden (a || b) x.
  Proof. unfold redden. cbn. now rewrite orb_assoc. Qed.

  Lemma twice_false l : NoDup l -> twice l = false.
  Proof.
    induction 1 as [|i l N ND IH]; [reflexivity|]. cbn. rewrite IH, orb_false_r.
    destruct (memZ i l) eqn:M; [|reflexivity]. apply memZ_In in M. contradiction.
  Qed.

  Definition red_rows (l : list Z) t : frame (cell A) :=
    MkFrame (fr_cols t) (map (fun row => (fst row, map (redden (memZ (fst row) l)) (snd row))) (fr_rows t)).
  Definition red_cols (l : list Z) t : frame (cell A) :=
    MkFrame (fr_cols t) (map (fun row => (fst row, map (fun jx => redden (memZ (fst jx) l) (snd jx)) (combine (fr_cols t) (snd row)))) (fr_rows t)).

  Lemma red_rows_index l t : fr_index (red_rows l t) = fr_index t.
  Proof. unfold fr_index, red_rows. cbn. rewrite map_map. reflexivity. Qed.
  Lemma red_cols_index l t : fr_index (red_cols l t) = fr_index t.
  Proof. unfold fr_index, red_cols. cbn. rewrite map_map. reflexivity. Qed.
  Lemma red_rows_rect l t : rectangular t -> rectangular (red_rows l t).
  Proof. intros R row I. cbn in I. apply in_map_iff in I. destruct I as [r [<- I]]. cbn. rewrite map_length. apply R, I. Qed.

  Lemma map_same {B} (f : B -> B) l : (forall x, In x l -> f x = x) -> map f l = l.
  Proof. intros H. rewrite <- (map_id l) at 2. apply map_ext_in, H. Qed.

  Lemma paint_rows l : forall t, NoDup (fr_index t) -> each paint_row l t = Ok (red_rows l t).
  Proof.
    induction l as [|i l IH]; intros t N; cbn [each].
    - f_equal. destruct t as [cols rows]. unfold red_rows. cbn. f_equal. symmetry. apply map_same.
      intros [k xs] _. cbn. f_equal. rewrite (map_ext _ (fun x => x) redden_false). apply map_id.
    - unfold paint_row at 1. pose proof (proj1 (NoDup_count_occ Z.eq_dec _) N i) as L.
      replace (Nat.ltb 1 (count_occ Z.eq_dec (fr_index t) i)) with false by (symmetry; apply Nat.ltb_ge, L).
      cbn [andb raise_if bind].
      set (t1 := MkFrame _ _). assert (I1 : fr_index t1 = fr_index t).
      { unfold fr_index, t1. cbn. rewrite map_map. apply map_ext. intros r. now destruct (fst r =? i). }
      rewrite IH by (rewrite I1; exact N). f_equal. unfold red_rows, t1. cbn. f_equal. rewrite map_map.
      apply map_ext. intros [k xs]. cbn [fst snd]. unfold memZ. cbn [existsb].
      destruct (Z.eqb_spec k i) as [->|D]; cbn [fst snd].
      + f_equal. rewrite map_map. apply map_ext. intros x. cbn [orb].
        rewrite <- redden_true, redden_redden, orb_true_r. reflexivity.
      + f_equal.
  Qed.

  Lemma paint_cols l : forall t, rectangular t -> NoDup (fr_index t) -> each paint_col l t = Ok (red_cols l t).
  Proof.
    induction l as [|j l IH]; intros t R N; cbn [each].
    - f_equal. destruct t as [cols rows]. unfold red_cols. cbn. f_equal. symmetry. apply map_same.
      intros [k xs] I. cbn. f_equal. specialize (R _ I). cbn in R. clear -R. revert cols R.
      induction xs as [|x xs IH]; intros [|j cols] L; try discriminate L; [reflexivity|].
      cbn. rewrite redden_false. f_equal. apply IH. cbn in L. congruence.
    - unfold paint_col at 1. rewrite (twice_false _ N), andb_false_r. cbn [raise_if bind].
      set (t1 := MkFrame _ _). assert (I1 : fr_index t1 = fr_index t).
      { unfold fr_index, t1. cbn. rewrite map_map. reflexivity. }
      assert (R1 : rectangular t1).
      { intros row I. unfold t1 in I. cbn in I. apply in_map_iff in I. destruct I as [r [<- I]]. cbn.
        rewrite map_length, combine_length, (R _ I). lia. }
      rewrite IH by (try rewrite I1; assumption). f_equal. unfold red_cols, t1. cbn. f_equal. rewrite map_map.
      apply map_ext_in. intros [k xs] I. cbn [fst snd]. f_equal. specialize (R _ I). cbn in R. clear -R.
      revert R. generalize (fr_cols t) as cols. induction xs as [|x xs IH]; intros [|c cols] L; try discriminate L; [reflexivity|].
      cbn. rewrite IH by (cbn in L; congruence). f_equal. unfold memZ. cbn [existsb].
      destruct (Z.eqb_spec c j) as [->|D]; cbn [orb].
      + rewrite <- redden_true, redden_redden, orb_true_r. reflexivity.
      + reflexivity.
  Qed.
End Proofs.

Lemma look_up_ok labels ids : incl ids (map fst labels) ->
  exists l, look_up labels ids = Ok l /\ Forall2 (fun i s => In (i, s) labels) ids l.
Proof.
  unfold look_up. induction ids as [|i ids IH]; intros H; [exists []; split; [reflexivity|constructor]|].
  destruct IH as [l [E F]]; [intros x X; apply H; right; exact X|].
  destruct (zget i labels) as [s|] eqn:G.
  - exists (s :: l). cbn [mapM]. rewrite G. cbn [bind]. rewrite E. split; [reflexivity|]. constructor; [|exact F].
    exact (aget_In Z.eqb Z.eqb_eq _ _ _ G).
  - exfalso. specialize (H i (or_introl eq_refl)). apply in_map_iff in H. destruct H as [[k s] [<- I]]. cbn in G.
    revert G. clear -I. induction labels as [|[a b] labels IH]; [destruct I|]. cbn.
    destruct (Z.eqb_spec k a) as [->|D]; [discriminate|]. destruct I as [I|I]; [congruence|]. apply IH, I.
Qed.

Lemma group_labelled c g i s : In (i, s) (group_labels c g) <-> labelled c g i s.
Proof.
  destruct g; cbn; rewrite in_map_iff; split.
  - intros [x [E I]]. injection E as <- <-. exists x. auto.
  - intros [x [I [<- ->]]]. exists x. auto.
  - intros [r [E I]]. injection E as <- <-. exists r. auto.
  - intros [r [I [<- ->]]]. exists r. auto.
Qed.
Lemma group_ids_species c : group_ids c GSpecies = map sp_id (c_species c).
Proof. unfold group_ids. cbn. rewrite map_map. reflexivity. Qed.
Lemma group_ids_reactions c : group_ids c GReactions = map rx_id (c_reactions c).
Proof. unfold group_ids. cbn. rewrite map_map. reflexivity. Qed.
Lemma disabled_off c g i : In i (disabled_ids c g) <-> off c g i.
Proof.
  destruct g; cbn; unfold get_disabled_species, get_disabled_reactions; rewrite !in_map_iff; split.
  - intros [x [<- I]]. apply filter_In in I. destruct I as [I D]. apply negb_true_iff in D. split; [exists x; auto|exact D].
  - intros [[x [<- I]] D]. exists x. split; [reflexivity|]. apply filter_In. rewrite D. auto.
  - intros [x [<- I]]. apply filter_In in I. destruct I as [I D]. apply negb_true_iff in D. split; [exists x; auto|exact D].
  - intros [[x [<- I]] D]. exists x. split; [reflexivity|]. apply filter_In. rewrite D. auto.
Qed.
Lemma disabled_in c g i : off c g i -> In i (group_ids c g).
Proof. destruct g; rewrite ?group_ids_species, ?group_ids_reactions; cbn; tauto. Qed.

Lemma all_in l l' : forallb (fun i => memZ i l') l = true <-> incl l l'.
Proof.
  rewrite forallb_forall. split; intros H x I; apply memZ_In, H, I.
Qed.
Lemma detect_of c g ids : ids_of c g ids -> detect c ids = Ok g.
Proof.
  unfold detect. rewrite group_ids_species, group_ids_reactions. destruct g; cbn.
  - intros H. rewrite (proj2 (all_in _ _) H). reflexivity.
  - intros [H H']. rewrite (proj2 (all_in _ _) H).
    destruct (forallb _ ids) eqn:F; [|reflexivity]. apply all_in in F. contradiction.
Qed.
Lemma ids_of_in c g ids : ids_of c g ids -> incl ids (map fst (group_labels c g)).
Proof. fold (group_ids c g). destruct g; rewrite ?group_ids_species, ?group_ids_reactions; cbn; tauto. Qed.

Lemma red_off c g i : memZ i (disabled_ids c g) = true <-> off c g i.
Proof. rewrite memZ_In. apply disabled_off. Qed.

Lemma annotated {A} c gi gc (t : frame A) :
  rectangular t -> NoDup (fr_index t) -> ids_of c gi (fr_index t) -> ids_of c gc (fr_cols t) ->
  (forall i, In i (map sp_id (c_species c)) \/ In i (map rx_id (c_reactions c)) -> 0 <= i) -> ~ In 0 (fr_index t) -> ~ off c gi 0 ->
  exists header body,
    pretty_frame c t true = Ok (MkPretty (LBlank :: map LId (fr_index t)) (LBlank :: map LId (fr_cols t))
                                         ((MkCell (CText "") false :: header) :: body)) /\
    Forall2 (shows_label c gc) (fr_cols t) header /\
    Forall2 (fun row out => exists x xs, out = x :: xs /\ shows_label c gi (fst row) x /\
                              shows_values c gi gc (fr_cols t) (fst row) (snd row) xs) (fr_rows t) body.
Proof.
  intros R N Oi Oc P NZ NO.
  assert (P' : forall g i, In i (group_ids c g) -> 0 <= i).
  { intros g i I. apply P. destruct g; rewrite ?group_ids_species, ?group_ids_reactions in I; tauto. }
  destruct (look_up_ok _ _ (ids_of_in _ _ _ Oi)) as [li [Li Fi]].
  destruct (look_up_ok _ _ (ids_of_in _ _ _ Oc)) as [lc [Lc Fc]].
  unfold pretty_frame. rewrite (detect_of _ _ _ Oi), (detect_of _ _ _ Oc). cbn [bind]. unfold annotate.
  assert (WI : fr_index (wrap t) = fr_index t) by (unfold fr_index, wrap; cbn; rewrite map_map; reflexivity).
  rewrite WI, Li. cbn [bind]. replace (fr_cols (wrap t)) with (fr_cols t) by reflexivity.
  assert (M1 : forall l g, incl l (group_ids c g) -> memZ (-1) l = false).
  { intros l g H. destruct (memZ (-1) l) eqn:M; [|reflexivity]. apply memZ_In, H, P' in M. lia. }
  rewrite (M1 _ gc (ids_of_in _ _ _ Oc)), (M1 _ gc (incl_refl _)). cbn [raise_if bind].
  rewrite Lc. cbn [bind].
  set (t1 := MkFrame (-1 :: fr_cols t) _).
  assert (LL : List.length li = List.length (fr_rows t)).
  { rewrite <- (Forall2_len _ _ _ Fi). unfold fr_index. now rewrite map_length. }
  assert (I1 : fr_index t1 = 0 :: fr_index t).
  { unfold fr_index, t1. cbn. f_equal. rewrite map_map. cbn. clear -LL. revert LL.
    generalize (fr_rows t) as rows. induction li as [|s li IH]; intros [|row rows] L; try discriminate L; [reflexivity|].
    cbn. f_equal. apply IH. cbn in L. congruence. }
  assert (N1 : NoDup (fr_index t1)).
  { rewrite I1. constructor; [exact NZ|exact N]. }
  assert (R1 : rectangular t1).
  { intros row I. unfold t1 in I. cbn in I. destruct I as [<-|I]; cbn; rewrite ?map_length.
    - now rewrite (Forall2_len _ _ _ Fc).
    - apply in_map_iff in I. destruct I as [[s row'] [<- I]]. cbn. apply in_combine_r in I. apply in_map_iff in I.
      destruct I as [row0 [<- I]]. cbn. rewrite map_length. now rewrite (R _ I). }
  rewrite (paint_rows _ _ N1). cbn [bind].
  rewrite paint_cols; [|apply red_rows_rect, R1|rewrite red_rows_index; exact N1]. cbn [bind].
  rewrite red_cols_index, red_rows_index, I1. cbn [blank_first bind]. cbn [red_cols fr_cols red_rows t1].
  cbn [blank_first bind].
  unfold red_cols, red_rows, t1. cbn [fr_rows fr_cols map fst snd combine].
  assert (Z0 : memZ 0 (disabled_ids c gi) = false).
  { destruct (memZ 0 (disabled_ids c gi)) eqn:M; [|reflexivity]. apply red_off in M. contradiction. }
  assert (ZM : memZ (-1) (disabled_ids c gc) = false).
  { destruct (memZ (-1) (disabled_ids c gc)) eqn:M; [|reflexivity]. apply red_off in M. apply disabled_in, P' in M. lia. }
  rewrite Z0, ZM.
  eexists _, _. split; [reflexivity|]. split.
  - clear -Fc. induction Fc as [|j s cols lc I F IH]; [constructor|]. cbn. constructor; [|exact IH].
    exists s. split; [apply group_labelled, I|]. split; [reflexivity|]. cbn. rewrite orb_false_r. apply red_off.
  - rewrite !map_map. unfold wrap. cbn [fr_rows].
    assert (G : forall rows li, Forall2 (fun i s => In (i, s) (group_labels c gi)) (map fst rows) li ->
      (forall row, In row rows -> List.length (snd row) = List.length (fr_cols t)) ->
      Forall2 (fun row out => exists x xs, out = x :: xs /\ shows_label c gi (fst row) x /\
                 shows_values c gi gc (fr_cols t) (fst row) (snd row) xs) rows
        (map (fun x => snd (fst (snd x), map (fun jx => redden (memZ (fst jx) (disabled_ids c gc)) (snd jx))
             (combine (-1 :: fr_cols t) (map (redden (memZ (fst (snd x)) (disabled_ids c gi))) (plain (CText (fst x)) :: snd (snd x))))))
           (combine li (map (fun row : Z * list A => (fst row, map (fun a => plain (CVal a)) (snd row))) rows)))).
    { clear -ZM. induction rows as [|row rows IH]; intros li F R; inversion F as [|i s r l I F']; subst; [constructor|].
      cbn [map combine]. constructor; [|apply IH; [exact F'|intros; apply R; right; assumption]].
      cbn [fst snd map combine]. rewrite ZM. eexists _, _. split; [reflexivity|]. split.
      - exists s. split; [apply group_labelled, I|]. split; [reflexivity|]. cbn. rewrite orb_false_r. apply red_off.
      - unfold shows_values. specialize (R row (or_introl eq_refl)). revert R. generalize (fr_cols t) as cols.
        generalize (snd row) as vs. induction vs as [|v vs IHv]; intros [|j cols] L; try discriminate L; [constructor|].
        cbn. constructor; [|apply IHv; cbn in L; congruence]. cbn [cl_val cl_red redden plain fst snd]. split; [reflexivity|].
        rewrite orb_false_r, orb_true_iff, !red_off. tauto. }
    specialize (G (fr_rows t) li Fi R). exact G.
Qed.

(** Without annotation the values and colours are the same, but the labels
    of the first row and of the first column are lost. *)
Lemma unannotated {A} c gi gc (t : frame A) :
  rectangular t -> NoDup (fr_index t) -> ids_of c gi (fr_index t) -> ids_of c gc (fr_cols t) ->
  fr_index t <> [] -> fr_cols t <> [] ->
  exists body,
    pretty_frame c t false = Ok (MkPretty (LBlank :: map LId (tl (fr_index t))) (LBlank :: map LId (tl (fr_cols t))) body) /\
    Forall2 (fun row out => shows_values c gi gc (fr_cols t) (fst row) (snd row) out) (fr_rows t) body.
Proof.
  intros R N Oi Oc NI NC. unfold pretty_frame. rewrite (detect_of _ _ _ Oi), (detect_of _ _ _ Oc). cbn [bind].
  assert (WI : fr_index (wrap t) = fr_index t) by (unfold fr_index, wrap; cbn; rewrite map_map; reflexivity).
  assert (RW : rectangular (wrap t)).
  { intros row I. cbn in I. apply in_map_iff in I. destruct I as [r [<- I]]. cbn. rewrite map_length. apply R, I. }
  rewrite paint_rows by (rewrite WI; exact N). cbn [bind].
  rewrite paint_cols; [|apply red_rows_rect, RW|rewrite red_rows_index, WI; exact N]. cbn [bind].
  rewrite red_cols_index, red_rows_index, WI.
  destruct (fr_index t) as [|i0 il] eqn:Ei; [contradiction|]. cbn [blank_first bind tl].
  replace (fr_cols (red_cols (disabled_ids c gc) (red_rows (disabled_ids c gi) (wrap t)))) with (fr_cols t) by reflexivity.
  destruct (fr_cols t) as [|j0 jl] eqn:Ej; [contradiction|]. cbn [blank_first bind tl].
  eexists. split; [reflexivity|]. rewrite <- Ej. unfold red_cols, red_rows, wrap. cbn [fr_rows fr_cols].
  rewrite !map_map. cbn [fst snd]. clear -R. revert R. unfold rectangular. generalize (fr_cols t) as cols. generalize (fr_rows t) as rows.
  induction rows as [|row rows IH]; intros cols R; [constructor|]. cbn [map]. constructor; [|apply IH; intros; apply R; right; assumption].
  unfold shows_values. specialize (R row (or_introl eq_refl)). revert cols R. generalize (snd row) as vs.
  induction vs as [|v vs IHv]; intros [|j cols] L; try discriminate L; [constructor|].
  cbn. constructor; [|apply IHv; cbn in L; congruence]. cbn [cl_val cl_red redden plain fst snd]. split; [reflexivity|].
  rewrite orb_false_r, orb_true_iff, !red_off. tauto.
Qed.

(** Arrays of other ids are refused. *)
Lemma foreign {A} c (t : frame A) b :
  ~ incl (fr_index t) (map sp_id (c_species c)) -> ~ incl (fr_index t) (map rx_id (c_reactions c)) ->
  pretty_frame c t b = Err EKey.
Proof.
  intros S R. unfold pretty_frame, detect. rewrite group_ids_species, group_ids_reactions.
  destruct (forallb _ (fr_index t)) eqn:F; [apply all_in in F; contradiction|].
  destruct (forallb (fun i => memZ i (map rx_id (c_reactions c))) (fr_index t)) eqn:G; [apply all_in in G; contradiction|].
  reflexivity.
Qed.

(** The stoichiometric matrix is rectangular and indexed by reactions and
    species. *)
Lemma stoich_frame_rect c d s m : rectangular (stoich_frame c d s m) /\
  fr_index (stoich_frame c d s m) = map rx_id (get_reactions c d) /\ fr_cols (stoich_frame c d s m) = map sp_id (get_species c d s true).
Proof.
  unfold stoich_frame, fr_index, get_stoichiomatrix. cbn. repeat split.
  - intros row I. cbn in *. rewrite map_map in I. apply in_map_iff in I. destruct I as [r [<- I]]. cbn.
    rewrite !map_length. reflexivity.
  - rewrite !map_map. reflexivity.
Qed.

Lemma get_reactions_incl c d : incl (map rx_id (get_reactions c d)) (map rx_id (c_reactions c)).
Proof. intros i I. apply in_map_iff in I. destruct I as [r [<- I]]. apply filter_In in I. apply in_map, I. Qed.
Lemma get_species_incl c d s p : incl (map sp_id (get_species c d s p)) (map sp_id (c_species c)).
Proof. intros i I. apply in_map_iff in I. destruct I as [r [<- I]]. apply filter_In in I. apply in_map, I. Qed.
