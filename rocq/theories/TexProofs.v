(** Contents of LaTeX tables after any calls. *)
From Verif Require Import Base BaseLemmas Latex TexTable TexSpec RateCoef RateNames.

(** ** What was said last *)
Lemma latest_nil {A} sel (d : A) x : latest sel d [] x <-> x = d.
Proof.
  split; [|intros ->; left; split; [intros o []|reflexivity]].
  intros [[_ H]|(u & o & v & H & _)]; [exact H|]. now destruct u.
Qed.
Lemma latest_snoc {A} sel (d : A) ops o x :
  latest sel d (ops ++ [o]) x <-> match sel o with Some y => x = y | None => latest sel d ops x end.
Proof.
  split.
  - intros [[N ->]|(u & o' & v & H & S & N)].
    + rewrite (N o) by (apply in_app_iff; right; now left). left. split; [|reflexivity]. intros o' Ho'. apply N, in_app_iff. now left.
    + destruct (exists_last (l := o' :: v)) as (w & z & Hw); [discriminate|]. rewrite Hw, app_assoc in H. apply app_inj_tail in H as [-> ->].
      destruct w as [|a w]; cbn in Hw; injection Hw as -> ->.
      * rewrite S. reflexivity.
      * rewrite (N z) by (apply in_app_iff; right; now left). right. exists u, a, w. split; [reflexivity|]. split; [exact S|].
        intros o2 H2. apply N, in_app_iff. now left.
  - destruct (sel o) as [y|] eqn:S.
    + intros ->. right. exists ops, o, []. split; [reflexivity|]. split; [exact S|]. intros o' [].
    + intros [[N ->]|(u & o' & v & -> & S' & N)].
      * left. split; [|reflexivity]. intros o' Ho'. apply in_app_iff in Ho' as [Ho'|[<-|[]]]; auto.
      * right. exists u, o', (v ++ [o]). split; [now rewrite <- app_assoc|]. split; [exact S'|].
        intros o2 H2. apply in_app_iff in H2 as [H2|[<-|[]]]; auto.
Qed.
Lemma latest_some {A} sel (d : A) ops u o v x : ops = u ++ o :: v -> sel o = Some x -> (forall o', In o' v -> sel o' = None) -> latest sel d ops x.
Proof. intros H S N. right. now exists u, o, v. Qed.

Lemma texrun_snoc ops o t : texrun (ops ++ [o]) t = apply_tex o (texrun ops t).
Proof. unfold texrun. now rewrite fold_left_app. Qed.
Lemma texrun_app a b t : texrun (a ++ b) t = texrun b (texrun a t).
Proof. unfold texrun. apply fold_left_app. Qed.

Lemma said_caption ops t : latest sel_caption (t_caption t) ops (t_caption (texrun ops t)).
Proof. induction ops as [|o ops IH] using rev_ind; [now apply latest_nil|]. rewrite texrun_snoc. apply latest_snoc. now destruct o. Qed.
Lemma said_label ops t : latest sel_label (t_label t) ops (t_label (texrun ops t)).
Proof. induction ops as [|o ops IH] using rev_ind; [now apply latest_nil|]. rewrite texrun_snoc. apply latest_snoc. now destruct o. Qed.
Lemma said_frame ops t : latest sel_frame (t_frame t) ops (t_frame (texrun ops t)).
Proof. induction ops as [|o ops IH] using rev_ind; [now apply latest_nil|]. rewrite texrun_snoc. apply latest_snoc. now destruct o. Qed.
Lemma said_dec b t i col : (forall o, In o b -> sel_frame o = None) ->
  latest (sel_dec i col) (dec_at (t_decs t) i col) b (dec_at (t_decs (texrun b t)) i col).
Proof.
  induction b as [|o b IH] using rev_ind; intros N; [now apply latest_nil|]. rewrite texrun_snoc. apply latest_snoc.
  assert (IH' := IH (fun o' H => N o' (proj2 (in_app_iff _ _ _) (or_introl H)))).
  assert (N' : sel_frame o = None) by (apply N, in_app_iff; right; now left).
  destruct o; try exact IH'; [discriminate N'|]. cbn [sel_dec apply_tex t_decs dec_at].
  destruct (Z.eq_dec i0 i) as [->|Q]; [rewrite Z.eqb_refl|now rewrite (proj2 (Z.eqb_neq i0 i) Q)].
  destruct (string_dec col0 col) as [->|Q']; [now rewrite String.eqb_refl|now rewrite (proj2 (String.eqb_neq col0 col) Q')].
Qed.
Lemma said_fixed ops t : t_type (texrun ops t) = t_type t /\ t_spacing (texrun ops t) = t_spacing t /\ t_font (texrun ops t) = t_font t.
Proof. induction ops as [|o ops IH] using rev_ind; [now split|]. rewrite texrun_snoc. now destruct o. Qed.

(** ** Notes *)
Lemma first_seen_snoc l : forall seen x, first_seen seen (l ++ [x]) = first_seen seen l ++ (if memS x seen || memS x l then [] else [x]).
Proof.
  induction l as [|a l IH]; intros seen x; cbn [app first_seen].
  - rewrite Bool.orb_false_r. now destruct (memS x seen).
  - destruct (memS a seen) eqn:M.
    + rewrite IH. destruct (memS x seen) eqn:Mx; [reflexivity|]. cbn [orb]. f_equal.
      assert (memS x (a :: l) = memS x l) as ->; [|reflexivity]. unfold memS. cbn [existsb].
      destruct (String.eqb_spec x a) as [->|]; [congruence|reflexivity].
    + rewrite IH. cbn [app]. f_equal. f_equal. unfold memS. cbn [existsb]. destruct (String.eqb x a), (existsb (String.eqb x) seen), (existsb (String.eqb x) l); reflexivity.
Qed.

Lemma keys_sset s (n : string) d : map fst (sset s n d) = if memS s (map fst d) then map fst d else map fst d ++ [s].
Proof.
  induction d as [|[k v] d IH]; [reflexivity|]. cbn [aset map fst]. unfold memS in *. cbn [existsb].
  destruct (String.eqb_spec s k) as [->|Q]; [reflexivity|]. cbn [map fst orb]. rewrite IH. now destruct (existsb (String.eqb s) (map fst d)).
Qed.

Lemma notes_keys ops t : t_notes t = [] -> map fst (t_notes (texrun ops t)) = first_seen [] (superscripts ops).
Proof.
  intros T. induction ops as [|o ops IH] using rev_ind; [cbn; now rewrite T|]. rewrite texrun_snoc. unfold superscripts. rewrite flat_map_app.
  fold (superscripts ops). destruct o; cbn [apply_tex t_notes flat_map app]; rewrite ?app_nil_r; try exact IH.
  rewrite keys_sset, IH, first_seen_snoc. cbn [memS existsb orb].
  assert (memS sup (first_seen [] (superscripts ops)) = memS sup (superscripts ops)) as ->.
  { destruct (memS sup (superscripts ops)) eqn:M.
    - apply memS_In. apply first_seen_In. split; [now apply memS_In|intros []].
    - destruct (memS sup (first_seen [] (superscripts ops))) eqn:M'; [|reflexivity]. apply memS_In, first_seen_In in M'.
      destruct M' as [M' _]. apply memS_In in M'. congruence. }
  destruct (memS sup (superscripts ops)); [now rewrite app_nil_r|reflexivity].
Qed.

Lemma notes_get ops t s : t_notes t = [] -> latest (fun o => option_map Some (sel_note s o)) None ops (sget s (t_notes (texrun ops t))).
Proof.
  intros T. induction ops as [|o ops IH] using rev_ind; [apply latest_nil; cbn; now rewrite T|]. rewrite texrun_snoc. apply latest_snoc.
  destruct o; try exact IH. cbn [sel_note apply_tex t_notes]. destruct (string_dec sup s) as [->|Q]; cbn [option_map].
  - now rewrite aget_aset_same by (apply String.eqb_eq).
  - rewrite aget_aset_other by (try apply String.eqb_eq; congruence). exact IH.
Qed.

Lemma notes_ok ops t : t_notes t = [] -> notes_said ops (t_notes (texrun ops t)).
Proof.
  intros T. pose proof (notes_keys ops t T) as K.
  assert (ND : NoDup (map fst (t_notes (texrun ops t)))) by (rewrite K; apply first_seen_NoDup).
  split; [exact ND|]. split.
  - intros s n. pose proof (notes_get ops t s T) as L. split.
    + intros I. apply (In_aget _ String.eqb_eq) in I; [|exact ND]. rewrite I in L.
      destruct L as [[_ Q]|(u & o & v & H & S & N)]; [discriminate|]. exists u, v.
      destruct o; try discriminate S. cbn [sel_note] in S. destruct (string_dec sup s) as [->|]; [|discriminate S]. injection S as ->.
      split; [exact H|]. intros o' Ho'. specialize (N o' Ho'). now destruct (sel_note s o').
    + intros (u & v & H & N). apply (aget_In _ String.eqb_eq).
      destruct L as [[N' _]|(u' & o' & v' & H' & S' & N')].
      * exfalso. specialize (N' (TNote s n)). rewrite H in N'. cbn [sel_note] in N'. destruct (string_dec s s); [|congruence].
        discriminate N'. apply in_app_iff. right. now left.
      * assert (Lt : latest (fun o => option_map Some (sel_note s o)) None ops (Some n)).
        { apply (latest_some _ _ _ u (TNote s n) v); [exact H|cbn [sel_note]; now destruct (string_dec s s)|].
          intros o2 H2. now rewrite (N o2 H2). }
        assert (Lt' : latest (fun o => option_map Some (sel_note s o)) None ops (sget s (t_notes (texrun ops t))))
          by (apply (latest_some _ _ _ u' o' v'); assumption).
        clear -Lt Lt'. revert Lt Lt'. generalize (sget s (t_notes (texrun ops t))). clear t. induction ops as [|o ops IH] using rev_ind; intros x A B.
        -- apply latest_nil in A, B. congruence.
        -- apply latest_snoc in A, B. destruct (option_map Some (sel_note s o)); [congruence|]. now apply IH.
  - intros u x v y w H. rewrite K in H. now apply first_seen_order in H.
Qed.

(** ** Rows *)
Definition shown (t : textable) (r : Z * list string) : list string :=
  map (fun p => dec_at (t_decs t) (fst r) (fst p) (snd p)) (combine (f_cols (t_frame t)) (snd r)).

Lemma filter_one {A} (f : A -> bool) l a : In a l -> f a = true -> NoDup l -> (forall b, In b l -> f b = true -> b = a) -> filter f l = [a].
Proof.
  intros I F ND U. induction l as [|b l IH]; [destruct I|]. inversion ND as [|? ? Ni ND']; subst. cbn [filter].
  destruct (f b) eqn:Fb.
  - assert (b = a) as -> by (apply U; [now left|exact Fb]). f_equal.
    destruct (filter f l) as [|c m] eqn:Q; [reflexivity|]. exfalso.
    assert (In c (filter f l)) as Hc by (rewrite Q; now left). apply filter_In in Hc as [Hc Fc].
    apply Ni. rewrite <- (U c); [exact Hc|now right|exact Fc].
  - apply IH; [destruct I as [->|I]; [congruence|exact I]|exact ND'|]. intros c Hc. apply U. now right.
Qed.

Lemma combine_keys {A B} (l : list A) (m : list B) : List.length m = List.length l -> map fst (combine l m) = l.
Proof. revert m. induction l as [|a l IH]; intros [|b m] H; cbn in *; try lia; [reflexivity|]. f_equal. apply IH. lia. Qed.

Lemma NoDup_of_keys {A B} (l : list (A * B)) : NoDup (map fst l) -> NoDup l.
Proof. apply NoDup_map_inv. Qed.

Lemma at_regular f r col x : regular f -> In r (f_rows f) -> In (col, x) (combine (f_cols f) (snd r)) -> frame_at f (fst r) col = Ok x.
Proof.
  intros (N1 & N2 & Len) Hr Hc. unfold frame_at.
  rewrite (filter_one _ _ r); [|exact Hr|apply Z.eqb_refl|now apply NoDup_of_keys|].
  - assert (NC : NoDup (map fst (combine (f_cols f) (snd r)))) by (rewrite combine_keys; [exact N2|now apply Len]).
    rewrite (filter_one _ _ (col, x)); [reflexivity|exact Hc|apply String.eqb_refl|now apply NoDup_of_keys|].
    intros [c y] Hb Q. cbn in Q. apply String.eqb_eq in Q. subst c. exact (NoDup_map_inj fst _ _ _ NC Hb Hc eq_refl).
  - intros s Hs Q. apply Z.eqb_eq in Q. exact (NoDup_map_inj fst _ _ _ N1 Hs Hr Q).
Qed.

Lemma mapM_all_ok {A B} (f : A -> res B) g l : (forall a, In a l -> f a = Ok (g a)) -> mapM f l = Ok (map g l).
Proof. induction l as [|a l IH]; intros H; [reflexivity|]. cbn [mapM map]. rewrite (H a) by now left. cbn [bind]. rewrite IH; [reflexivity|]. intros b Hb. apply H. now right. Qed.

Lemma body_regular t : regular (t_frame t) ->
  tex_body t = Ok (map (fun r => (str_join " & " (shown t r) ++ " \\")%string) (f_rows (t_frame t))).
Proof.
  intros R. unfold tex_body.
  assert (G : forall l, incl l (f_rows (t_frame t)) ->
    mapM (fun i => let* cs := mapM (fun col => let* x := frame_at (t_frame t) i col in Ok (dec_at (t_decs t) i col x)) (f_cols (t_frame t)) in
      Ok (str_join " & " cs ++ " \\")%string) (map fst l) = Ok (map (fun r => (str_join " & " (shown t r) ++ " \\")%string) l)).
  { induction l as [|r l IH]; intros I; [reflexivity|]. cbn [map mapM].
    assert (mapM (fun col => let* x := frame_at (t_frame t) (fst r) col in Ok (dec_at (t_decs t) (fst r) col x)) (f_cols (t_frame t)) = Ok (shown t r)) as ->.
    { assert (Hr : In r (f_rows (t_frame t))) by (apply I; now left). destruct R as (N1 & N2 & Len). pose proof (Len r Hr) as L. unfold shown.
      rewrite <- (combine_keys _ _ L) at 1.
      assert (Gc : forall l, incl l (combine (f_cols (t_frame t)) (snd r)) ->
        mapM (fun col => let* x := frame_at (t_frame t) (fst r) col in Ok (dec_at (t_decs t) (fst r) col x)) (map fst l) =
        Ok (map (fun p => dec_at (t_decs t) (fst r) (fst p) (snd p)) l)).
      { intros q. induction q as [|[c x] q IHq]; intros Iq; [reflexivity|]. cbn [map mapM fst snd].
        rewrite (at_regular _ r c x); [|now repeat split|exact Hr|apply Iq; now left]. cbn [bind].
        rewrite IHq; [reflexivity|]. intros z Hz. apply Iq. now right. }
      apply Gc, incl_refl. }
    cbn [bind]. rewrite IH; [reflexivity|]. intros z Hz. apply I. now right. }
  apply G, incl_refl.
Qed.

Lemma shown_said ops a fr b t r : regular fr -> ops = a ++ TLoad fr :: b -> (forall o, In o b -> sel_frame o = None) -> In r (f_rows fr) ->
  shown_row b (f_cols fr) r (shown (texrun ops t) r).
Proof.
  intros R H N Hr. assert (Lr : List.length (snd r) = List.length (f_cols fr)) by (now apply R).
  assert (F : t_frame (texrun ops t) = fr).
  { pose proof (said_frame ops t) as L. assert (L' : latest sel_frame (t_frame t) ops fr) by (apply (latest_some _ _ _ a (TLoad fr) b); [exact H|reflexivity|exact N]).
    clear -L L'. revert L L'. generalize (t_frame (texrun ops t)). induction ops as [|o ops IH] using rev_ind; intros x A B.
    - apply latest_nil in A, B. congruence.
    - apply latest_snoc in A, B. destruct (sel_frame o); [congruence|]. now apply IH. }
  unfold shown. rewrite F. split; [rewrite map_length, combine_length, Lr; lia|].
  intros k col x y Hc Hx Hy. rewrite nth_error_map in Hy.
  assert (nth_error (combine (f_cols fr) (snd r)) k = Some (col, x)) as Q.
  { clear -Hc Hx. revert k Hc Hx. generalize (snd r). induction (f_cols fr) as [|c cs IH]; intros [|z zs] [|k] Hc Hx; try discriminate; cbn in *.
    - congruence.
    - now apply IH. }
  rewrite Q in Hy. injection Hy as <-. eexists. split; [|reflexivity]. cbn [fst].
  assert (E : texrun ops t = texrun b (apply_tex (TLoad fr) (texrun a t))) by (rewrite H, texrun_app; reflexivity).
  rewrite E. pose proof (said_dec b (apply_tex (TLoad fr) (texrun a t)) (fst r) col N) as D. cbn [apply_tex t_decs dec_at] in D. exact D.
Qed.
