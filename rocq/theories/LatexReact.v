(** LaTeX of formulas as names, of reactions, and the table of reactions. *)
From Verif Require Import Base BaseLemmas Species Reactions ReactionProofs Latex LatexSpec LatexNum LatexRate LatexName LatexFormula LatexSet.

(** ** Formulas *)

Lemma concat_text_cons x l : concat_text (x :: l) = (x ++ concat_text l)%string.
Proof.
  unfold concat_text. destruct l as [|y l]; cbn [String.concat]; [|reflexivity].
  induction x as [|c x IH]; cbn; congruence.
Qed.
Lemma formula_chars f : chars (formula_text f) = plain (f_groups f) (f_tail f) (f_mark f).
Proof.
  unfold formula_text. rewrite !chars_app. induction (f_groups f) as [|g gs IH].
  - cbn [map plain]. now rewrite letters_concat.
  - cbn [map plain]. rewrite concat_text_cons, !chars_app, <- !app_assoc, IH, letters_concat. reflexivity.
Qed.
Lemma spaced_chars l : chars (String.concat " " l) = spaced (map chars l).
Proof.
  induction l as [|x l IH]; [reflexivity|]. destruct l as [|y l]; [reflexivity|].
  change (String.concat " " (x :: y :: l)) with (x ++ " " ++ String.concat " " (y :: l))%string.
  rewrite !chars_app, IH. reflexivity.
Qed.
Lemma formula_latex_chars f :
  chars (formula_latex f) = spaced (pieces (f_tail f) (f_groups f)) ++ chars (snd (f_mark f)).
Proof.
  unfold formula_latex. rewrite chars_app, spaced_chars. f_equal. f_equal. rewrite map_app, map_map.
  induction (f_groups f) as [|g gs IH]; cbn [map app pieces].
  - destruct (f_tail f) as [|x t]; [reflexivity|]. cbn [map]. unfold upright. now rewrite !chars_app, letters_concat.
  - rewrite IH. f_equal. unfold upright. rewrite !chars_app, letters_concat, <- !app_assoc. reflexivity.
Qed.

Lemma parts_clean : forallb (fun s => forallb no_brackets (chars s)) (elements ++ map fst counts ++ map fst marks) = true.
Proof. vm_compute. reflexivity. Qed.
Lemma plain_clean_formula f : formula_ok f -> forallb no_brackets (plain (f_groups f) (f_tail f) (f_mark f)) = true.
Proof.
  intros (H1 & H2 & _ & H3). pose proof parts_clean as K. rewrite forallb_forall in K.
  assert (L : forall r, (forall x, In x r -> In x elements) -> forallb no_brackets (letters r) = true).
  { induction r as [|x r IH]; intros H; [reflexivity|]. cbn [letters]. rewrite forallb_app, IH by (intros y Hy; apply H; now right).
    rewrite K; [reflexivity|]. apply in_or_app. left. apply H. now left. }
  induction (f_groups f) as [|g gs IH]; cbn [plain].
  - rewrite forallb_app, L, K; [reflexivity| |].
    + apply in_or_app. right. apply in_or_app. right. now apply in_map.
    + destruct H2 as [->|[_ R]]; [easy|exact R].
  - rewrite !forallb_app. destruct (H1 g) as [[_ R] C]; [now left|]. rewrite L by easy. rewrite K.
    + cbn. apply IH. intros x Hx. apply H1. now right.
    + apply in_or_app. right. apply in_or_app. left. now apply in_map.
Qed.
Lemma formula_bracket_free f : formula_ok f -> bracket_free (chars (formula_text f)).
Proof.
  intros H. rewrite formula_chars. pose proof (plain_clean_formula f H) as K. rewrite forallb_forall in K.
  split; intros G; apply K in G; discriminate.
Qed.

Lemma ground_of_formula f : formula_ok f -> str_of (texify_ground_state (chars (formula_text f))) = formula_latex f.
Proof.
  intros H. destruct H as (H1 & H2 & H3 & H4). apply chars_inj. rewrite chars_str_of, formula_chars, formula_latex_chars.
  apply ground_formula; try easy.
Qed.

Lemma formula_texified f : formula_ok f -> texify_species (formula_text f) = Ok (formula_latex f).
Proof. intros H. rewrite texify_plain by now apply formula_bracket_free. f_equal. now apply ground_of_formula. Qed.
Lemma formula_state_texified f x : formula_ok f -> bracket_free (chars x) ->
  texify_species (formula_text f ++ "(" ++ x ++ ")") = Ok (formula_latex f ++ " (" ++ x ++ ")")%string.
Proof. intros H X. rewrite texify_state by (easy || now apply formula_bracket_free). f_equal. f_equal. now apply ground_of_formula. Qed.

(** ** Reactions *)

Definition tcount (i : Z) (l : list Z) : Z := Z.of_nat (List.length (filter (fun x => x =? i) l)).
Lemma zadd_map n k (ids : list Z) (v : Z -> Z) : NoDup ids -> In k ids ->
  zadd n (map (fun i => (i, v i)) ids) k = map (fun i => (i, v i + (if i =? k then n else 0))) ids.
Proof.
  intros ND H. unfold zadd.
  assert (G : forall l, NoDup l -> (In k l -> aget Z.eqb k (map (fun i => (i, v i)) l) = Some (v k)) /\
             (In k l -> aset Z.eqb k (v k + n) (map (fun i => (i, v i)) l) = map (fun i => (i, v i + (if i =? k then n else 0))) l)).
  { induction l as [|i l IH]; intros N; [easy|]. inversion N; subst. destruct (IH) as [IH1 IH2]; [easy|]. cbn [map aget aset].
    destruct (Z.eqb_spec k i) as [->|E].
    - split; [reflexivity|]. intros _. rewrite Z.eqb_refl. f_equal. apply map_ext_in. intros j Hj.
      destruct (Z.eqb_spec j i); [subst; easy|]. f_equal. lia.
    - split; intros [K|K]; try congruence; [now apply IH1|]. rewrite IH2 by easy.
      destruct (Z.eqb_spec i k); [congruence|]. f_equal. f_equal. lia. }
  destruct (G ids ND) as [G1 G2].
  rewrite G1 by easy. now apply G2.
Qed.
Lemma fold_zadd n ids l : NoDup ids -> (forall k, In k l -> In k ids) -> forall v,
  fold_left (zadd n) l (map (fun i => (i, v i)) ids) = map (fun i => (i, v i + n * tcount i l)) ids.
Proof.
  intros ND. induction l as [|k l IH]; intros H v.
  - cbn. apply map_ext. intros i. f_equal. unfold tcount. cbn. lia.
  - cbn [fold_left]. rewrite zadd_map by (easy || (apply H; now left)).
    rewrite IH by (intros x Hx; apply H; now right). apply map_ext. intros i. f_equal. unfold tcount. cbn [filter].
    rewrite (Z.eqb_sym k i). destruct (i =? k); cbn [List.length]; lia.
Qed.
Lemma coefs_lhs l r : stoich_coefs Lhs l r = map (fun i => (i, tcount i l)) (odedupZ l).
Proof.
  unfold stoich_coefs. rewrite fold_zadd; [|apply odedupZ_NoDup|intros k; now rewrite odedupZ_In].
  apply map_ext. intros i. f_equal. lia.
Qed.
Lemma coefs_rhs l r : stoich_coefs Rhs l r = map (fun i => (i, tcount i r)) (odedupZ r).
Proof.
  unfold stoich_coefs. rewrite fold_zadd; [|apply odedupZ_NoDup|intros k; now rewrite odedupZ_In].
  apply map_ext. intros i. f_equal. lia.
Qed.

(** The ids of a tally. *)
Lemma odedup_seen s l : forall seen, memZ s seen = true ->
  odedup_from Z.eqb seen l = odedup_from Z.eqb seen (filter (fun x => negb (x =? s)) l).
Proof.
  induction l as [|x l IH]; intros seen H; [reflexivity|]. cbn [filter odedup_from].
  destruct (Z.eqb_spec x s) as [->|E]; cbn [negb].
  - unfold memZ in H. rewrite H. now apply IH.
  - cbn [odedup_from]. destruct (existsb (Z.eqb x) seen); [now apply IH|]. f_equal. apply IH.
    unfold memZ in *. cbn [existsb]. now rewrite H, Bool.orb_true_r.
Qed.
Lemma odedup_drop s l : forall seen, ~ In s l ->
  odedup_from Z.eqb (s :: seen) l = odedup_from Z.eqb seen l.
Proof.
  revert s. assert (G : forall l seen1 seen2, (forall x, In x l -> existsb (Z.eqb x) seen1 = existsb (Z.eqb x) seen2) ->
             odedup_from Z.eqb seen1 l = odedup_from Z.eqb seen2 l).
  { clear. induction l as [|x l IH]; intros s1 s2 H; [reflexivity|]. cbn [odedup_from]. rewrite (H x) by now left.
    destruct (existsb (Z.eqb x) s2).
    - apply IH. intros y Hy. apply H. now right.
    - f_equal. apply IH. intros y Hy. cbn [existsb]. rewrite H by now right. reflexivity. }
  intros s seen H. apply G. intros x Hx. cbn [existsb]. destruct (Z.eqb_spec x s); [subst; easy|reflexivity].
Qed.
Lemma odedup_cons s l : odedupZ (s :: l) = s :: odedupZ (filter (fun x => negb (x =? s)) l).
Proof.
  unfold odedupZ. cbn [odedup_from existsb]. f_equal. rewrite (odedup_seen s).
  - apply odedup_drop. rewrite filter_In. intros [_ H]. now rewrite Z.eqb_refl in H.
  - unfold memZ. cbn. now rewrite Z.eqb_refl.
Qed.
Lemma map_filter_ids (s : Z) l : map rp_id (filter (fun x => negb (rp_id x =? s)) l) = filter (fun x => negb (x =? s)) (map rp_id l).
Proof. induction l as [|x l IH]; [reflexivity|]. cbn [filter map]. destruct (rp_id x =? s); cbn; congruence. Qed.
Lemma count_filter_ids (s : Z) l : List.length (filter (fun x => rp_id x =? s) l) = List.length (filter (fun x => x =? s) (map rp_id l)).
Proof. induction l as [|x l IH]; [reflexivity|]. cbn [filter map]. destruct (rp_id x =? s); cbn; congruence. Qed.
Lemma tcount_filter i s l : i <> s -> tcount i (filter (fun x => negb (x =? s)) l) = tcount i l.
Proof.
  intros H. unfold tcount. induction l as [|x l IH]; [reflexivity|]. cbn [filter].
  destruct (Z.eqb_spec x s) as [->|E]; cbn [negb filter].
  - destruct (Z.eqb_spec s i); [congruence|]. exact IH.
  - destruct (x =? i); cbn [List.length]; lia.
Qed.

Lemma tally_coefs l t : tally l t ->
  map (fun p => (rp_id (fst p), snd p)) t = map (fun i => (i, tcount i (map rp_id l))) (odedupZ (map rp_id l)).
Proof.
  intros H. induction H as [|s l n rest Hn Ht IH]; [reflexivity|].
  cbn [map]. rewrite odedup_cons. cbn [map fst snd]. f_equal.
  - f_equal. rewrite Hn. unfold tcount. cbn [filter]. rewrite Z.eqb_refl. cbn [List.length].
    rewrite count_filter_ids. lia.
  - rewrite IH. rewrite map_filter_ids. apply map_ext_in. intros i Hi. f_equal.
    apply odedupZ_In, filter_In in Hi as [_ Hi]. apply Bool.negb_true_iff, Z.eqb_neq in Hi.
    rewrite tcount_filter by easy. unfold tcount. cbn [filter]. destruct (Z.eqb_spec (rp_id s) i); [congruence|reflexivity].
Qed.
Lemma tally_pos l t : tally l t -> forall p, In p t -> 1 <= snd p /\ In (fst p) l.
Proof.
  intros H. induction H as [|s l n rest Hn Ht IH]; intros p Hp; [easy|]. destruct Hp as [<-|Hp].
  - cbn. split; [lia|now left].
  - apply IH in Hp as [P1 P2]. apply filter_In in P2 as [P2 _]. split; [easy|now right].
Qed.
Lemma tally_exists l : exists t, tally l t.
Proof.
  assert (G : forall n l, (List.length l <= n)%nat -> exists t, tally l t).
  { induction n as [|n IH]; intros k H.
    - destruct k; [|cbn in H; lia]. eexists. constructor.
    - destruct k as [|s k]; [eexists; constructor|]. destruct (IH (filter (fun x => negb (rp_id x =? rp_id s)) k)) as [t Ht].
      + cbn in H. assert (L : (List.length (filter (fun x => negb (rp_id x =? rp_id s)%Z) k) <= List.length k)%nat).
        { clear. induction k as [|x k IH]; cbn; [lia|]. destruct (negb _); cbn; lia. }
        lia.
      + eexists. econstructor; [reflexivity|exact Ht]. }
  apply (G (List.length l)). lia.
Qed.

(** One term of a side. *)
Definition term (n : Z) (t : string) : string := if n =? 1 then t else (show_int n ++ " " ++ t)%string.

Section Side.
Variables (r : reaction) (ns : list string).
Let all := (r_lhs r ++ r_rhs r)%list.
Hypothesis Hnames : names_of all = Ok ns.
Hypothesis Hids : forall x y, In x all -> In y all -> rp_id x = rp_id y -> rp_get_latex x = rp_get_latex y.

Lemma get_rp_latex s : In s all -> exists s', reaction_get_rp r (KId (rp_id s)) = Ok s' /\ rp_get_latex s' = rp_get_latex s.
Proof.
  intros H. unfold reaction_get_rp. fold all. rewrite Hnames. cbn [bind].
  destruct (find (fun x => rp_id x =? rp_id s) all) as [s'|] eqn:E.
  - apply find_some in E as [E1 E2]. apply Z.eqb_eq in E2. exists s'. split; [reflexivity|]. now apply Hids.
  - exfalso. apply find_none with (x := s) in E; [|easy]. now rewrite Z.eqb_refl in E.
Qed.

Lemma side_terms t ts : forall d, Forall2 (fun p x => rp_get_latex (fst p) = Ok x) t ts ->
  (forall p, In p t -> 1 <= snd p /\ In (fst p) all) ->
  NoDup (map fst d ++ ts) ->
  side_latex r (map (fun p => (rp_id (fst p), snd p)) t) d =
    Ok (d ++ map (fun px => (snd px, if snd (fst px) =? 1 then ""%string else (show_int (snd (fst px)) ++ " ")%string)) (combine t ts)).
Proof.
  revert ts. induction t as [|[s n] t IH]; intros ts d HF HP ND; inversion HF as [|? x ? ts' Hx HF']; subst; cbn [map side_latex combine].
  - now rewrite app_nil_r.
  - cbn [fst snd] in *. destruct (HP (s, n)) as [P1 P2]; [now left|]. cbn [fst snd] in *.
    destruct (get_rp_latex s P2) as (s' & -> & Es). cbn [bind]. rewrite Es, Hx. cbn [bind].
    set (v := if n =? 1 then ""%string else (show_int n ++ " ")%string).
    assert (Ev : (if n =? 1 then sset x ""%string d else if 1 <? n then sset x (show_int n ++ " ")%string d else d) = sset x v d).
    { unfold v. destruct (Z.eqb_spec n 1); [reflexivity|]. destruct (Z.ltb_spec 1 n); [reflexivity|lia]. }
    rewrite Ev.
    assert (Nx : ~ In x (map fst d)).
    { intros K. apply NoDup_remove_2 in ND. apply ND. apply in_or_app. now left. }
    assert (Es' : sset x v d = d ++ [(x, v)]).
    { clear - Nx. unfold sset. induction d as [|[k w] d IH]; [reflexivity|]. cbn [aset app].
      destruct (String.eqb_spec x k); [subst; exfalso; apply Nx; now left|]. f_equal. apply IH. intros K. apply Nx. now right. }
    rewrite Es', IH with (ts := ts').
    + now rewrite <- app_assoc.
    + easy.
    + intros p Hp. apply HP. now right.
    + rewrite map_app, <- app_assoc. exact ND.
Qed.
End Side.

Lemma append_assoc (a b c : string) : ((a ++ b) ++ c)%string = (a ++ b ++ c)%string.
Proof. induction a as [|x a IH]; cbn; congruence. Qed.

Lemma terms_text (t : list (rp * Z)) ts : List.length t = List.length ts ->
  map (fun kv : string * string => (snd kv ++ fst kv)%string)
    (map (fun px : rp * Z * string => (snd px, if snd (fst px) =? 1 then ""%string else (show_int (snd (fst px)) ++ " ")%string)) (combine t ts)) =
  map (fun px : rp * Z * string => term (snd (fst px)) (snd px)) (combine t ts).
Proof.
  intros _. rewrite map_map. apply map_ext. intros [[s n] x]. cbn [fst snd]. unfold term.
  destruct (n =? 1); [reflexivity|]. now rewrite append_assoc.
Qed.

Definition side_string (t : list (rp * Z)) (ts : list string) : string :=
  str_join " + " (map (fun px => term (snd (fst px)) (snd px)) (combine t ts)).

Lemma reaction_latex r ns tl tr ls rs :
  xattr r "latex" = VNone -> names_of (r_lhs r ++ r_rhs r) = Ok ns ->
  (forall x y, In x (r_lhs r ++ r_rhs r) -> In y (r_lhs r ++ r_rhs r) -> rp_id x = rp_id y -> rp_get_latex x = rp_get_latex y) ->
  tally (r_lhs r) tl -> tally (r_rhs r) tr ->
  Forall2 (fun p x => rp_get_latex (fst p) = Ok x) tl ls -> Forall2 (fun p x => rp_get_latex (fst p) = Ok x) tr rs ->
  NoDup ls -> NoDup rs ->
  rx_get_latex r = Ok (side_string tl ls ++ " \rightarrow " ++ side_string tr rs)%string.
Proof.
  intros Hx Hn Hi Tl Tr Fl Fr Nl Nr. unfold rx_get_latex. rewrite Hx. unfold VNone. unfold get_stoich_coefs.
  rewrite coefs_lhs, coefs_rhs, <- (tally_coefs _ _ Tl), <- (tally_coefs _ _ Tr).
  assert (F2 : forall (t : list (rp * Z)) (ts : list string), Forall2 (fun p x => rp_get_latex (fst p) = Ok x) t ts -> List.length t = List.length ts).
  { intros t ts H. induction H; cbn; congruence. }
  rewrite (side_terms r ns Hn Hi tl ls); [|easy| |easy].
  2:{ intros p Hp. apply (tally_pos _ _ Tl) in Hp as [P1 P2]. split; [easy|]. apply in_or_app. now left. }
  cbn [bind]. rewrite (side_terms r ns Hn Hi tr rs); [|easy| |easy].
  2:{ intros p Hp. apply (tally_pos _ _ Tr) in Hp as [P1 P2]. split; [easy|]. apply in_or_app. now right. }
  cbn [bind app]. rewrite !terms_text by auto. reflexivity.
Qed.

(** ** The table *)

Lemma table_rows E cols rs rows : reactions_table E cols rs = Ok rows ->
  List.length rows = List.length rs /\
  forall i r row, nth_error rs i = Some r -> nth_error rows i = Some row -> Forall2 (fun c t => cell E c r = Ok t) cols row.
Proof.
  unfold reactions_table. intros H. destruct (mapM (fun c => mapM (cell E c) rs) cols) as [by_col|] eqn:M; [|discriminate].
  cbn [bind] in H. apply Ok_inj in H. subst rows. split; [now rewrite map_length, seq_length|].
  intros i r row Hr Hrow.
  assert (Li : (i < List.length rs)%nat) by (apply nth_error_Some; congruence).
  assert (Er : row = map (fun col => nth i col ""%string) by_col).
  { rewrite nth_error_map in Hrow. destruct (nth_error (seq 0 (List.length rs)) i) as [j|] eqn:Ej; [|discriminate].
    apply nth_error_nth with (d := 0%nat) in Ej. rewrite seq_nth in Ej by easy. cbn in Ej. subst j. now injection Hrow as <-. }
  subst row. apply mapM_Ok_inv in M. induction M as [|c col cols by_col Hc HM IH]; cbn [map]; constructor.
  - apply mapM_Ok_inv in Hc. clear - Hc Hr. revert i Hr. induction Hc as [|x y rs col Hxy Hc IH]; intros i Hr; [now destruct i|].
    destruct i as [|i]; cbn in *; [congruence|]. now apply IH.
  - apply IH. rewrite nth_error_map in Hrow |- *. destruct (nth_error (seq 0 (List.length rs)) i) as [j|] eqn:Ej; [|discriminate].
    apply nth_error_nth with (d := 0%nat) in Ej. rewrite seq_nth in Ej by easy. cbn in Ej. now subst j.
Qed.

Lemma table_fails E cols rs c r e : In c cols -> In r rs -> cell E c r = Err e -> exists e', reactions_table E cols rs = Err e'.
Proof.
  intros Hc Hr He. destruct (reactions_table E cols rs) as [rows|e'] eqn:T; [|now exists e']. exfalso.
  destruct (In_nth_error _ _ Hr) as [i Hi]. destruct (table_rows _ _ _ _ T) as [L R].
  assert (Li : (i < List.length rows)%nat) by (rewrite L; apply nth_error_Some; congruence).
  apply nth_error_Some in Li. destruct (nth_error rows i) as [row|] eqn:Er; [|congruence].
  specialize (R i r row Hi Er). clear - R Hc He. induction R as [|c' t cols row H HR IH]; [easy|].
  destruct Hc as [->|Hc]; [congruence|auto].
Qed.

(** ** Reactions of species with default LaTeX *)

Lemma rp_latex_default s n : rattr s "latex" = VNone -> get_name s = Ok n -> rp_get_latex s = texify_species n.
Proof. intros H G. unfold rp_get_latex. rewrite H. unfold VNone. now rewrite G. Qed.

Lemma tally_ids l t : tally l t -> NoDup (map (fun p => rp_id (fst p)) t).
Proof.
  intros H. pose proof (tally_coefs l t H) as K. apply (f_equal (map fst)) in K. rewrite !map_map in K. cbn [fst] in K.
  rewrite K, map_id. apply odedupZ_NoDup.
Qed.

Lemma tally_texts l t :
  tally l t ->
  (forall s, In s l -> exists x, rp_get_latex s = Ok x) ->
  (forall x y, In x l -> In y l -> rp_get_latex x = rp_get_latex y -> rp_id x = rp_id y) ->
  exists ts, Forall2 (fun p x => rp_get_latex (fst p) = Ok x) t ts /\ NoDup ts.
Proof.
  intros T Hs Hi. pose proof (tally_ids l t T) as ND. pose proof (tally_pos l t T) as HP.
  assert (G : forall t', incl t' t -> NoDup (map (fun p => rp_id (fst p)) t') ->
            exists ts, Forall2 (fun p x => rp_get_latex (fst p) = Ok x) t' ts /\ NoDup ts).
  { clear ND T. induction t' as [|p t' IH]; intros I ND.
    - exists []. split; constructor.
    - inversion ND as [|? ? Np ND']; subst. destruct IH as (ts & F & N); [intros x Hx; apply I; now right|easy|].
      destruct (HP p) as [_ Pl]; [apply I; now left|]. destruct (Hs _ Pl) as (x & Tx). exists (x :: ts). split.
      + constructor; easy.
      + constructor; [|easy]. intros Hx.
        assert (K : exists p', In p' t' /\ rp_get_latex (fst p') = Ok x).
        { clear - F Hx. induction F as [|p' y t' ts E F IH]; [easy|]. destruct Hx as [->|Hx].
          - exists p'. split; [now left|easy].
          - destruct IH as (q & Q1 & Q2); [easy|]. exists q. split; [now right|easy]. }
        destruct K as (p' & Hp' & Ep'). destruct (HP p') as [_ Pl']; [apply I; now right|].
        apply Np. apply in_map_iff. exists p'. split; [|easy]. apply Hi; [easy|easy|]. now rewrite Ep', Tx. }
  apply G; [apply incl_refl|easy].
Qed.

Lemma names_of_total l : (forall s, In s l -> exists n, get_name s = Ok n) -> exists ns, names_of l = Ok ns.
Proof.
  unfold names_of. induction l as [|s l IH]; intros H; [eexists; reflexivity|]. cbn [mapM].
  destruct (H s) as [n ->]; [now left|]. destruct IH as [ns ->]; [intros x Hx; apply H; now right|]. eexists. reflexivity.
Qed.

(** The number of body lines and their cells. *)
Lemma body_rows rows i row : nth_error rows i = Some row ->
  nth_error (body_lines rows) i = Some (String.concat " & " row ++ " \\")%string.
Proof. intros H. unfold body_lines. rewrite nth_error_map, H. reflexivity. Qed.

Lemma join_concat sep l : str_join sep l = String.concat sep l.
Proof. induction l as [|x [|y l] IH]; [reflexivity..|].
  change (str_join sep (x :: y :: l)) with (x ++ sep ++ str_join sep (y :: l))%string. rewrite IH. reflexivity.
Qed.
Lemma side_terms_text t ts : Forall2 (fun p x => rp_get_latex (fst p) = Ok x) t ts ->
  exists us, Forall2 (term_text rp_get_latex) t us /\ side_string t ts = String.concat " + " us.
Proof.
  intros F. exists (map (fun px : rp * Z * string => term (snd (fst px)) (snd px)) (combine t ts)). split.
  - induction F as [|p x t ts H F IH]; cbn [combine map]; constructor; [|easy]. exists x. split; [easy|]. cbn [fst snd].
    unfold term. destruct (Z.eqb_spec (snd p) 1); [now left|]. right. split; [easy|].
    exists (show_int (snd p)). split; [apply show_int_denotes|reflexivity].
  - unfold side_string. apply join_concat.
Qed.

Lemma reaction_terms r tl tr :
  xattr r "latex" = VNone -> (exists ns, names_of (r_lhs r ++ r_rhs r) = Ok ns) ->
  (forall s, In s (r_lhs r ++ r_rhs r) -> exists x, rp_get_latex s = Ok x) ->
  (forall x y, In x (r_lhs r ++ r_rhs r) -> In y (r_lhs r ++ r_rhs r) -> rp_id x = rp_id y -> rp_get_latex x = rp_get_latex y) ->
  (forall x y, In x (r_lhs r) -> In y (r_lhs r) -> rp_get_latex x = rp_get_latex y -> rp_id x = rp_id y) ->
  (forall x y, In x (r_rhs r) -> In y (r_rhs r) -> rp_get_latex x = rp_get_latex y -> rp_id x = rp_id y) ->
  tally (r_lhs r) tl -> tally (r_rhs r) tr ->
  exists ls rs,
    Forall2 (term_text rp_get_latex) tl ls /\ Forall2 (term_text rp_get_latex) tr rs /\
    rx_get_latex r = Ok (String.concat " + " ls ++ " \rightarrow " ++ String.concat " + " rs)%string.
Proof.
  intros Hx [ns Hn] Hs Hi Il Ir Tl Tr.
  destruct (tally_texts _ _ Tl) as (ls & Fl & Nl); [|easy|]. { intros s K. apply Hs, in_or_app. now left. }
  destruct (tally_texts _ _ Tr) as (rs & Fr & Nr); [|easy|]. { intros s K. apply Hs, in_or_app. now right. }
  destruct (side_terms_text _ _ Fl) as (us & Ul & El), (side_terms_text _ _ Fr) as (vs & Ur & Er).
  exists us, vs. split; [easy|]. split; [easy|]. rewrite <- El, <- Er. now apply (reaction_latex r ns).
Qed.
Lemma reaction_default_terms r tl tr :
  xattr r "latex" = VNone ->
  (forall s, In s (r_lhs r ++ r_rhs r) -> exists n, rattr s "latex" = VNone /\ get_name s = Ok n /\ stated n) ->
  (forall x y, In x (r_lhs r ++ r_rhs r) -> In y (r_lhs r ++ r_rhs r) -> rp_id x = rp_id y <-> get_name x = get_name y) ->
  tally (r_lhs r) tl -> tally (r_rhs r) tr ->
  exists ls rs,
    Forall2 (term_text rp_get_latex) tl ls /\ Forall2 (term_text rp_get_latex) tr rs /\
    rx_get_latex r = Ok (String.concat " + " ls ++ " \rightarrow " ++ String.concat " + " rs)%string.
Proof.
  intros Hx Hs Hi Tl Tr.
  assert (inL : forall s, In s (r_lhs r) -> In s (r_lhs r ++ r_rhs r)) by (intros; apply in_or_app; now left).
  assert (inR : forall s, In s (r_rhs r) -> In s (r_lhs r ++ r_rhs r)) by (intros; apply in_or_app; now right).
  assert (Inj : forall x y, In x (r_lhs r ++ r_rhs r) -> In y (r_lhs r ++ r_rhs r) -> rp_get_latex x = rp_get_latex y -> rp_id x = rp_id y).
  { intros x y Kx Ky E. apply Hi; [easy|easy|].
    destruct (Hs x Kx) as (n & Lx & Gx & Sx), (Hs y Ky) as (m & Ly & Gy & Sy).
    rewrite (rp_latex_default x n), (rp_latex_default y m) in E by easy. destruct (texify_total n Sx) as [t Tx].
    rewrite Gx, Gy. f_equal. apply (texify_inj n m t); try easy. now rewrite <- E. }
  apply reaction_terms; try easy.
  - apply names_of_total. intros s K. destruct (Hs s K) as (n & _ & G & _). eauto.
  - intros s K. destruct (Hs s K) as (n & L & G & S). rewrite (rp_latex_default s n) by easy. now apply texify_total.
  - intros x y Kx Ky E. apply Hi in E; [|easy|easy]. destruct (Hs x Kx) as (n & Lx & Gx & _), (Hs y Ky) as (m & Ly & Gy & _).
    rewrite (rp_latex_default x n), (rp_latex_default y m) by easy. congruence.
  - intros x y Kx Ky. apply Inj; auto.
  - intros x y Kx Ky. apply Inj; auto.
Qed.

Lemma cells_say E r :
  (exists t, cell E ColId r = Ok t /\ denotes t (inject_Z (r_id r))) /\
  (forall t, cell E ColReaction r = Ok t <-> exists x, rx_get_latex r = Ok x /\ t = ("$" ++ x ++ "$")%string) /\
  (forall t, cell E ColRate r = Ok t <-> exists x, texify_rate_coefficient E true false r = Ok x /\ t = ("$" ++ x ++ "$")%string) /\
  (forall d, xattr r "doi" = VStr d -> cell E ColSource r = Ok d).
Proof.
  split; [|split; [|split]].
  - eexists. split; [reflexivity|]. apply show_int_denotes.
  - intros t. unfold cell. generalize (rx_get_latex r). intros [x|e]; cbn [bind]; split; intros H.
    + apply Ok_inj in H. eauto.
    + destruct H as (y & E1 & ->). apply Ok_inj in E1. now subst.
    + discriminate.
    + destruct H as (y & E1 & _). discriminate.
  - intros t. unfold cell. generalize (texify_rate_coefficient E true false r). intros [x|e]; cbn [bind]; split; intros H.
    + apply Ok_inj in H. eauto.
    + destruct H as (y & E1 & ->). apply Ok_inj in E1. now subst.
    + discriminate.
    + destruct H as (y & E1 & _). discriminate.
  - intros d H. unfold cell. rewrite H. reflexivity.
Qed.
