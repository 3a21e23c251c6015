From Coq Require Import Permutation Lqa.
From Verif Require Import Base BaseLemmas Species Reactions Chemistry Morris MorrisStats MorrisRun Tables InitialGuess GlobalModel GlobalSpec
  GlobalFiles Workspace WorkspaceSpec WorkspaceProofs RunCompare RunCompareSpec.
Open Scope list_scope.

(** ** Labels *)

Lemma str_of_app a b : str_of (a ++ b) = (str_of a ++ str_of b)%string.
Proof. induction a as [|c a IH]; [reflexivity|]. change (String c (str_of (a ++ b)) = String c (str_of a ++ str_of b)). now rewrite IH. Qed.
Lemma length_chars s : List.length (chars s) = String.length s.
Proof. induction s as [|c s IH]; [reflexivity|]. cbn. now rewrite IH. Qed.
Lemma length_str_of l : String.length (str_of l) = List.length l.
Proof. rewrite <- length_chars. now rewrite chars_str_of. Qed.

Lemma after_slash_ok l : ~ In slash (after_slash l) /\ (l = after_slash l \/ exists a, l = a ++ slash :: after_slash l).
Proof.
  induction l as [|c l IH]; [split; [easy|now left]|]. cbn [after_slash]. destruct (existsb (Ascii.eqb slash) l) eqn:X.
  - destruct IH as [N [E|(a & E)]]; (split; [exact N|]); right.
    + exfalso. rewrite existsb_exists in X. destruct X as (x & I & XE). apply Ascii.eqb_eq in XE. subst x. apply N. now rewrite <- E.
    + exists (c :: a). cbn [app]. now rewrite <- E.
  - assert (N : ~ In slash l).
    { intros I. assert (Y : existsb (Ascii.eqb slash) l = true) by (apply existsb_exists; exists slash; split; [exact I|reflexivity]). congruence. }
    destruct (Ascii.eqb_spec c slash) as [->|D].
    + split; [exact N|]. right. now exists [].
    + split; [|now left]. intros [Y|I]; [now apply D|contradiction].
Qed.
Lemma base_name_ok d : last_part d (base_name d).
Proof.
  unfold base_name. destruct (after_slash_ok (chars d)) as [N E]. split.
  - intros a b X. apply N. apply (f_equal chars) in X. rewrite chars_str_of, !chars_app in X. rewrite X. apply in_or_app. right. now left.
  - destruct E as [E|(a & E)].
    + left. rewrite <- E. symmetry. apply str_of_chars.
    + right. exists (str_of a). rewrite <- (str_of_chars d) at 1. rewrite E at 1. rewrite str_of_app. reflexivity.
Qed.
Lemma run_label_ok nominal ids parent : run_parent nominal ids = parent -> labelled parent (ri_run ids) (run_label nominal ids).
Proof.
  intros <-. unfold labelled, run_label, cut_name. cbv zeta. set (s := ("..." ++ run_parent nominal ids ++ "/" ++ ri_run ids)%string). clearbody s.
  destruct (Nat.ltb_spec 40 (String.length s)) as [L|L]; [right|left; now split]. split; [exact L|].
  exists (str_of (firstn (String.length s - 40) (chars s))), (str_of (skipn (String.length s - 40) (chars s))).
  split; [now rewrite <- str_of_app, firstn_skipn, str_of_chars|]. split; [|reflexivity].
  rewrite length_str_of, skipn_length, length_chars. lia.
Qed.

(** ** Reading *)

Section Read.
  Variables (cfg : cfg_file) (to_path : string -> path) (other_csv : content -> res table).

  Lemma grown_refl s : grown s s. Proof. split; auto. Qed.
  Lemma grown_trans a b c : grown a b -> grown b c -> grown a c.
  Proof. intros [F1 D1] [F2 D2]. split; [congruence|auto]. Qed.

  Lemma make_dirs_grown l : forall s, grown s (fst (make_dirs l s)).
  Proof.
    induction l as [|p l IH]; intros s; [apply grown_refl|]. cbn [make_dirs]. destruct (isdir s p); [apply IH|].
    unfold mkdir. destruct (_ || _); [apply grown_refl|]. eapply grown_trans; [|apply IH]. split; [reflexivity|].
    intros d H. unfold isdir in *. cbn [fs_dirs existsb]. rewrite H. apply orb_true_r.
  Qed.
  Lemma results_dir_grown b s : grown s (fst (results_dir cfg to_path b s)).
  Proof.
    unfold results_dir. destruct (load_config cfg); [|apply grown_refl]. destruct (negb _); [apply grown_refl|].
    destruct (results_root cfg to_path) as [r|]; [|apply grown_refl]. unfold mkdir_parents.
    pose proof (make_dirs_grown (ancestors (r ++ [str_lower b])) s) as G. destruct (make_dirs _ s) as [s' [[]|]]; exact G.
  Qed.
  Lemma fetch_grown nominal id b d f s : grown s (fst (fetch_solution cfg to_path other_csv nominal id b d f s)).
  Proof.
    unfold fetch_solution, fetch_table, fetch_file, parser_dir. destruct b as [b|], d as [d|]; try apply grown_refl.
    pose proof (results_dir_grown b s) as G. destruct (results_dir cfg to_path b s) as [s' r]. exact G.
  Qed.

  Lemma final_ok t v : final_values t = Ok v -> exists rows z r, tb_rows t = rows ++ [(z, r)] /\ v = map (fun c => (c, r c)) (tb_cols t).
  Proof.
    unfold final_values. destruct (rev (tb_rows t)) as [|[z r] l] eqn:E; [discriminate|]. intros H. injection H as <-.
    exists (rev l), z, r. split; [|reflexivity]. rewrite <- (rev_involutive (tb_rows t)), E. reflexivity.
  Qed.

  Definition got (nominal : path) (x : string * list (string * Q)) (lt : string * table) : Prop :=
    fst x = fst lt /\ final_values (snd lt) = Ok (snd x).

  Lemma compare_one_ok nominal run s s' x : compare_one cfg to_path other_csv nominal run s = (s', Ok x) ->
    grown s s' /\ exists lt, found cfg to_path other_csv nominal s s' run lt /\ got nominal x lt.
  Proof.
    unfold compare_one. destruct (parse_run_identifiers _ _ run) as [ids|] eqn:PI; [|discriminate].
    destruct (fetch_solution _ _ _ _ _ _ _ _ s) as [s2 r] eqn:FS. intros H. injection H as <- H.
    destruct r as [t|]; [|discriminate]. cbn [bind] in H. destruct (final_values t) as [v|] eqn:FV; [|discriminate]. cbn [bind] in H. injection H as <-.
    pose proof (fetch_grown nominal (ri_run ids) (ri_backend ids) (option_map to_path (ri_dir ids)) (ri_file ids) s) as G. rewrite FS in G. cbn [fst] in G.
    split; [exact G|]. exists (run_label nominal ids, t). split; [|split; [reflexivity|exact FV]].
    exists s, s2, ids, (run_parent nominal ids). split; [apply grown_refl|]. split; [exact G|]. split; [apply grown_refl|]. split; [exact PI|].
    split; [exact FS|]. split; [|now apply run_label_ok]. unfold run_parent. destruct (ri_backend ids); [reflexivity|].
    destruct (ri_dir ids); [apply base_name_ok|reflexivity].
  Qed.
  Lemma found_grown nominal s0 s s' s1 run lt : found cfg to_path other_csv nominal s s' run lt -> grown s0 s -> grown s' s1 ->
    found cfg to_path other_csv nominal s0 s1 run lt.
  Proof.
    intros (a & b & ids & parent & G1 & G2 & G3 & R) H0 H1. exists a, b, ids, parent.
    split; [exact (grown_trans _ _ _ H0 G1)|]. split; [exact G2|]. split; [exact (grown_trans _ _ _ G3 H1)|exact R].
  Qed.
  Lemma compare_each_ok nominal runs : forall s s' l, compare_each cfg to_path other_csv nominal runs s = (s', Ok l) ->
    grown s s' /\ exists ts, Forall2 (found cfg to_path other_csv nominal s s') runs ts /\ Forall2 (got nominal) l ts.
  Proof.
    induction runs as [|run runs IH]; intros s s' l H.
    - injection H as <- <-. split; [apply grown_refl|]. exists []. split; constructor.
    - cbn [compare_each] in H. destruct (compare_one _ _ _ nominal run s) as [s1 [x|]] eqn:C1; [|discriminate].
      destruct (compare_each _ _ _ nominal runs s1) as [s2 [l'|]] eqn:C2; [|discriminate]. cbn [bind] in H. injection H as <- <-.
      destruct (compare_one_ok _ _ _ _ _ C1) as (G1 & lt & F1 & X1). destruct (IH _ _ _ C2) as (G2 & ts & F2 & X2).
      split; [exact (grown_trans _ _ _ G1 G2)|]. exists (lt :: ts). split; constructor; try assumption.
      + exact (found_grown _ _ _ _ _ _ _ F1 (grown_refl s) G2).
      + clear -F2 G1. induction F2 as [|a b la lb H F IH]; constructor; [|exact IH].
        exact (found_grown _ _ _ _ _ _ _ H G1 (grown_refl s2)).
  Qed.
End Read.

(** ** The frame *)

Definition names_in (r : string * list (string * Q)) : list string := map fst (snd r).

Lemma all_cols_from l : (forall r, In r l -> NoDup (names_in r)) -> forall acc, NoDup acc ->
  let f := fold_left (fun acc r => acc ++ filter (fun c => negb (memS c acc)) (map fst (snd r))) l acc in
  NoDup f /\ (exists more, f = acc ++ more) /\ forall c, In c f <-> In c acc \/ exists r, In r l /\ In c (names_in r).
Proof.
  induction l as [|r l IH]; intros HN acc NA; cbn [fold_left].
  - split; [exact NA|]. split; [exists []; now rewrite app_nil_r|]. intros c. split; [now left|]. intros [H|(r & [] & _)]. exact H.
  - assert (N2 : NoDup (acc ++ filter (fun c => negb (memS c acc)) (map fst (snd r)))).
    { assert (NF : NoDup (filter (fun c => negb (memS c acc)) (map fst (snd r)))) by (apply NoDup_filter; apply HN; now left).
      revert NF. set (g := filter _ _). assert (D : forall c, In c g -> ~ In c acc).
      { intros c I. apply filter_In in I. destruct I as [_ I]. intros J. apply memS_In in J. rewrite J in I. discriminate. }
      clearbody g. clear -NA D. induction acc as [|a acc IHa]; intros NF; [exact NF|]. inversion_clear NA as [|? ? H1 H2]. cbn [app]. constructor.
      - intros I. apply in_app_or in I. destruct I as [I|I]; [contradiction|]. apply (D a I). now left.
      - apply IHa; [exact H2| |exact NF]. intros c I J. apply (D c I). now right. }
    destruct (IH (fun q I => HN q (or_intror I)) _ N2) as (H1 & (more & H2) & H3). cbv zeta in *. split; [exact H1|]. split.
    + exists (filter (fun c => negb (memS c acc)) (map fst (snd r)) ++ more). now rewrite app_assoc.
    + intros c. rewrite H3, in_app_iff, filter_In. split.
      * intros [[H|[H _]]|(q & I & J)]; [now left|right; exists r; split; [now left|exact H]|right; exists q; split; [now right|exact J]].
      * intros [H|(q & [<-|I] & J)]; [left; now left| |right; now exists q].
        left. destruct (memS c acc) eqn:M; [left; now apply memS_In|right; split; [exact J|reflexivity]].
Qed.

Lemma sget_map (f : string -> Q) cols c : sget c (map (fun x => (x, f x)) cols) = if memS c cols then Some (f c) else None.
Proof.
  induction cols as [|x cols IH]; [reflexivity|]. cbn [map]. unfold sget in *. cbn [aget memS existsb]. unfold memS in IH.
  destruct (String.eqb_spec c x) as [->|N]; [reflexivity|]. cbn [orb]. exact IH.
Qed.

Lemma got_names nominal x lt : got nominal x lt -> names_in x = tb_cols (snd lt).
Proof. intros [_ H]. destruct (final_ok _ _ H) as (rows & z & r & _ & E). unfold names_in. rewrite E, map_map. apply map_id. Qed.
Lemma got_cell nominal x lt c : got nominal x lt -> last_value (snd lt) c (cell c (snd x)).
Proof.
  intros [_ H]. destruct (final_ok _ _ H) as (rows & z & r & ER & E). unfold cell. rewrite E, sget_map.
  destruct (memS c (tb_cols (snd lt))) eqn:M.
  - left. apply memS_In in M. split; [exact M|]. exists rows, z, r. auto.
  - right. split; [|reflexivity]. intros I. apply memS_In in I. congruence.
Qed.

Lemma build_ok nominal l ts : Forall2 (got nominal) l ts -> (forall lt, In lt ts -> NoDup (tb_cols (snd lt))) -> frame_of ts (build_frame l).
Proof.
  intros F HN.
  assert (NL : forall r, In r l -> NoDup (names_in r)).
  { intros r I. clear -F HN I. induction F as [|x lt l ts H F IH]; [easy|]. destruct I as [<-|I].
    - rewrite (got_names _ _ _ H). apply HN. now left.
    - apply IH; [|exact I]. intros q J. apply HN. now right. }
  destruct (all_cols_from l NL [] (NoDup_nil _)) as (H1 & _ & H3). cbv zeta in *. fold (all_cols l) in *. split; cbn [cf_cols cf_rows build_frame].
  - exact H1.
  - intros c. rewrite H3. clear -F. split.
    + intros [[]|(r & I & J)]. revert I. induction F as [|x lt l ts H F IH]; [easy|]. intros [<-|I].
      * exists lt. split; [now left|]. now rewrite <- (got_names _ _ _ H).
      * destruct (IH I) as (q & K & L). exists q. split; [now right|exact L].
    + intros (q & I & J). right. revert I. induction F as [|x lt l ts H F IH]; [easy|]. intros [<-|I].
      * exists x. split; [now left|]. now rewrite (got_names _ _ _ H).
      * destruct (IH I) as (r & K & L). exists r. split; [now right|exact L].
  - intros lt ts' ->. inversion F as [|x ? l' ? HG FG]; subst. unfold all_cols. cbn [fold_left].
    assert (E0 : [] ++ filter (fun c => negb (memS c [])) (map fst (snd x)) = tb_cols (snd lt)).
    { cbn [app memS existsb]. fold (names_in x). rewrite (got_names _ _ _ HG). clear. induction (tb_cols (snd lt)) as [|c k IH]; [reflexivity|]. cbn [filter negb]. f_equal. exact IH. }
    rewrite E0. destruct (all_cols_from l' (fun r I => NL r (or_intror I)) (tb_cols (snd lt)) (HN lt (or_introl eq_refl))) as (_ & M & _). exact M.
  - generalize (all_cols l) as cols. intros cols. clear -F. induction F as [|x lt l ts H F IH]; [constructor|]. cbn [map]. constructor; [|exact IH].
    split; [exact (proj1 H)|]. cbn [snd]. clear IH. induction cols as [|c cols IHc]; [constructor|]. cbn [map]. constructor; [now apply (got_cell nominal)|exact IHc].
Qed.

Lemma rel_diff_ok x0 x : x0 <> PInf -> x0 <> NInf -> x <> PInf -> x <> NInf -> percent_of x0 x (rel_diff x0 x).
Proof.
  intros A B C D. destruct x0 as [a| | |], x as [b| | |]; try congruence; unfold rel_diff, percent_of; cbn [fsub fneg fadd fquot]; try reflexivity.
  - unfold fdivq. destruct (Qeq_bool a 0) eqn:Z.
    + apply Qeq_bool_iff in Z. destruct (Qeq_bool (b + - a) 0) eqn:Z2.
      * apply Qeq_bool_iff in Z2. left. split; [lra|reflexivity].
      * right. destruct (Qltb 0 (b + - a)) eqn:L.
        -- left. unfold Qltb in L. apply negb_true_iff in L. split; [|reflexivity]. apply Qnot_le_lt. intros X. assert (Y : (b + - a <= 0)%Q) by lra. apply Qle_bool_iff in Y. congruence.
        -- right. unfold Qltb in L. apply negb_false_iff in L. apply Qle_bool_iff in L. split; [|reflexivity].
           apply Qnot_le_lt. intros X. assert (Y : (b + - a == 0)%Q) by lra. apply Qeq_bool_iff in Y. congruence.
    + exists ((b + - a) / a * 100)%Q. split; [reflexivity|]. assert (NZ : ~ (a == 0)%Q) by (intros X; apply Qeq_bool_iff in X; congruence). field. exact NZ.
  - unfold fdivq. destruct (Qeq_bool a 0); reflexivity.
Qed.

(** ** The comparison *)

Section Main.
  Variables (cfg : cfg_file) (to_path : string -> path) (other_csv : content -> res table).

  Lemma compare_ok nominal runs s s' f : compare cfg to_path other_csv nominal runs false s = (s', Ok f) ->
    grown s s' /\ exists ts, Forall2 (found cfg to_path other_csv nominal s s') runs ts /\
      ((forall lt, In lt ts -> NoDup (tb_cols (snd lt))) -> frame_of ts f).
  Proof.
    unfold compare. destruct (compare_each _ _ _ nominal runs s) as [s1 [l|]] eqn:C; [|discriminate]. cbn [bind]. intros H. injection H as <- <-.
    destruct (compare_each_ok _ _ _ _ _ _ _ _ C) as (G & ts & F & X). split; [exact G|]. exists ts. split; [exact F|].
    intros HN. exact (build_ok _ _ _ X HN).
  Qed.

  Lemma zip_nth (g : flt -> flt -> flt) l0 l i x0 x : nth_error l0 i = Some x0 -> nth_error l i = Some x ->
    nth_error (map (fun p => g (fst p) (snd p)) (combine l0 l)) i = Some (g x0 x).
  Proof.
    revert l i. induction l0 as [|a l0 IH]; intros [|b l] [|i]; cbn; try discriminate; [|apply IH]. intros H1 H2. now injection H1 as <-; injection H2 as <-.
  Qed.

  Definition no_infinity (x : flt) : Prop := x <> PInf /\ x <> NInf.
  Lemma cell_fin c r : no_infinity (cell c r).
  Proof. unfold cell. destruct (sget c r); split; discriminate. Qed.

  Lemma relative_ok nominal runs s s' d : compare cfg to_path other_csv nominal runs true s = (s', Ok d) ->
    exists f r0 rows, compare cfg to_path other_csv nominal runs false s = (s', Ok f) /\ cf_rows f = r0 :: rows /\ cf_cols d = cf_cols f /\
      Forall2 (fun r r' => fst r' = fst r /\ List.length (snd r') = List.length (snd r) /\
        forall i x0 x, nth_error (snd r0) i = Some x0 -> nth_error (snd r) i = Some x -> exists y, nth_error (snd r') i = Some y /\ percent_of x0 x y)
        (cf_rows f) (cf_rows d).
  Proof.
    unfold compare. destruct (compare_each _ _ _ nominal runs s) as [s1 [l|]]; [|discriminate]. cbn [bind]. intros H. injection H as <- H.
    unfold relative in H. destruct (cf_rows (build_frame l)) as [|r0 rows] eqn:ER; [discriminate|].
    match type of H with Ok ?x = Ok _ => assert (HD : d = x) by congruence end. subst d. clear H.
    exists (build_frame l), r0, rows. split; [reflexivity|]. split; [exact ER|]. split; [reflexivity|]. cbn [cf_rows].
    assert (A : forall r, In r (r0 :: rows) -> List.length (snd r) = List.length (all_cols l) /\ forall i x, nth_error (snd r) i = Some x -> no_infinity x).
    { rewrite <- ER. intros r I. cbn [build_frame cf_rows] in I. apply in_map_iff in I. destruct I as (q & <- & _). cbn [snd]. split; [apply map_length|].
      intros i x X. apply nth_error_In in X. apply in_map_iff in X. destruct X as (c & <- & _). apply cell_fin. }
    rewrite ER. destruct (A r0 (or_introl eq_refl)) as [L0 N0]. revert A. generalize (r0 :: rows). intros rs A.
    induction rs as [|r rs IH]; [constructor|]. cbn [map]. constructor; [|apply IH; intros q I; apply A; now right].
    destruct (A r (or_introl eq_refl)) as [L1 N1]. cbn [fst snd]. split; [reflexivity|]. split; [rewrite map_length, combine_length; lia|].
    intros i x0 x X0 X. exists (rel_diff x0 x). split; [exact (zip_nth rel_diff _ _ _ _ _ X0 X)|]. destruct (N0 _ _ X0), (N1 _ _ X). now apply rel_diff_ok.
  Qed.
  Lemma relative_nothing nominal s : compare cfg to_path other_csv nominal [] true s = (s, Err EIndex) /\
    compare cfg to_path other_csv nominal [] false s = (s, Ok (MkCf [] [])).
  Proof. split; reflexivity. Qed.

  Lemma readable_one nominal s run : readable cfg to_path other_csv nominal s run -> exists x, compare_one cfg to_path other_csv nominal run s = (s, Ok x).
  Proof.
    intros (ids & t & P & F & N). unfold compare_one. rewrite P, F. cbn [bind]. unfold final_values. destruct (rev (tb_rows t)) as [|r l] eqn:E.
    - exfalso. apply N. rewrite <- (rev_involutive (tb_rows t)), E. reflexivity.
    - cbn [bind]. eexists. reflexivity.
  Qed.
  Lemma readable_each nominal s runs : (forall r, In r runs -> readable cfg to_path other_csv nominal s r) -> exists l, compare_each cfg to_path other_csv nominal runs s = (s, Ok l) /\ List.length l = List.length runs.
  Proof.
    induction runs as [|r runs IH]; intros H; [exists []; now split|]. destruct (readable_one _ _ _ (H r (or_introl eq_refl))) as (x & X).
    destruct (IH (fun q I => H q (or_intror I))) as (l & L & LN). exists (x :: l). cbn [compare_each]. rewrite X, L. cbn [bind List.length]. now rewrite LN.
  Qed.
  Lemma succeeds nominal s runs b : (forall r, In r runs -> readable cfg to_path other_csv nominal s r) -> (b = true -> runs <> []) ->
    exists f, compare cfg to_path other_csv nominal runs b s = (s, Ok f).
  Proof.
    intros H NB. destruct (readable_each _ _ _ H) as (l & L & LN). unfold compare. rewrite L. cbn [bind]. destruct b; [|eexists; reflexivity].
    unfold relative. cbn [build_frame cf_rows]. destruct l as [|x l]; [|eexists; reflexivity]. destruct runs; [now destruct (NB eq_refl)|discriminate].
  Qed.
  Lemma unreadable_one nominal s s' run e : unreadable cfg to_path other_csv nominal s s' run e -> compare_one cfg to_path other_csv nominal run s = (s', Err e).
  Proof.
    unfold unreadable, compare_one. destruct (parse_run_identifiers _ _ run) as [ids|e']; [|now intros [-> ->]]. cbv zeta.
    destruct (fetch_solution _ _ _ _ _ _ _ _ s) as [s1 r]. cbn [fst snd]. intros [<- [->|(t & -> & T & ->)]]; [reflexivity|].
    cbn [bind]. unfold final_values. now rewrite T.
  Qed.
  Lemma raises nominal s s' before run later e b : (forall r, In r before -> readable cfg to_path other_csv nominal s r) -> unreadable cfg to_path other_csv nominal s s' run e ->
    compare cfg to_path other_csv nominal (before ++ run :: later) b s = (s', Err e).
  Proof.
    intros H U. unfold compare. assert (X : compare_each cfg to_path other_csv nominal (before ++ run :: later) s = (s', Err e)).
    { induction before as [|r before IH]; cbn [app compare_each].
      - now rewrite (unreadable_one _ _ _ _ _ U).
      - destruct (readable_one _ _ _ (H r (or_introl eq_refl))) as (x & X). rewrite X, (IH (fun q I => H q (or_intror I))). reflexivity. }
    now rewrite X.
  Qed.

  (** ** The plot *)
  Lemma curve_inv t p c : curve t p = Ok c -> In "t"%string (tb_cols t) /\ In p (tb_cols t) /\ c = (p, points_in_time t p).
  Proof.
    unfold curve. destruct (memS "t" (tb_cols t)) eqn:T; [|discriminate]. destruct (memS p (tb_cols t)) eqn:M; [|discriminate]. cbn. intros H. injection H as <-.
    split; [now apply memS_In|]. split; [now apply memS_In|reflexivity].
  Qed.
  Lemma curve_ok t p : In "t"%string (tb_cols t) -> In p (tb_cols t) -> curve t p = Ok (p, points_in_time t p).
  Proof. intros T M. unfold curve. apply memS_In in T. apply memS_In in M. now rewrite T, M. Qed.
  Lemma curve_missing t p : ~ In p (tb_cols t) -> curve t p = Err EKey.
  Proof. intros M. unfold curve. destruct (memS p (tb_cols t)) eqn:X; [apply memS_In in X; contradiction|]. now rewrite orb_true_r. Qed.
  Lemma curves_ok t ps : In "t"%string (tb_cols t) -> incl ps (tb_cols t) ->
    mapM (curve t) ps = Ok (map (fun p => (p, points_in_time t p)) ps).
  Proof.
    intros T. induction ps as [|p ps IH]; intros I; [reflexivity|]. cbn [mapM map]. rewrite (curve_ok t p T (I p (or_introl eq_refl))). cbn [bind].
    rewrite IH by (intros x X; apply I; now right). reflexivity.
  Qed.
  Lemma curves_missing t ps : In "t"%string (tb_cols t) -> ~ incl ps (tb_cols t) -> mapM (curve t) ps = Err EKey.
  Proof.
    intros T. induction ps as [|p ps IH]; intros I; [destruct I; easy|]. cbn [mapM]. destruct (in_dec string_dec p (tb_cols t)) as [P|P].
    - rewrite (curve_ok t p T P). cbn [bind]. rewrite IH; [reflexivity|]. intros X. apply I. intros q [<-|Q]; [exact P|now apply X].
    - now rewrite (curve_missing t p P).
  Qed.
  Lemma dens_iff (cols : list string) : negb (existsb (fun x => memS x cols) ["p"; "Te"; "Tg"]%string) = true <-> forall x, In x ["p"; "Te"; "Tg"]%string -> ~ In x cols.
  Proof.
    rewrite negb_true_iff. split.
    - intros H x I J. apply memS_In in J. assert (X : existsb (fun x => memS x cols) ["p"; "Te"; "Tg"]%string = true) by (apply existsb_exists; now exists x). congruence.
    - intros H. apply not_true_is_false. intros X. apply existsb_exists in X. destruct X as (x & I & J). apply memS_In in J. exact (H x I J).
  Qed.

  Lemma plot_named nominal id ps b d n s s' t : ps <> [] ->
    fetch_solution cfg to_path other_csv nominal id b d n s = (s', Ok t) -> In "t"%string (tb_cols t) ->
    (incl ps (tb_cols t) -> exists dens, plot_solution cfg to_path other_csv nominal id ps b d n s =
       (s', Ok (map (fun p => (p, points_in_time t p)) ps, dens)) /\
       (dens = true <-> forall x, In x ["p"; "Te"; "Tg"]%string -> ~ In x ps)) /\
    (~ incl ps (tb_cols t) -> plot_solution cfg to_path other_csv nominal id ps b d n s = (s', Err EKey)).
  Proof.
    intros N F T. unfold plot_solution. rewrite F. cbn [bind]. destruct ps as [|p ps]; [contradiction|]. cbv zeta. split.
    - intros I. rewrite (curves_ok t _ T I). cbn [bind]. eexists. split; [reflexivity|apply dens_iff].
    - intros I. now rewrite (curves_missing t _ T I).
  Qed.
  Lemma plot_default nominal id b d n s s' t names : fetch_solution cfg to_path other_csv nominal id b d n s = (s', Ok t) ->
    tb_cols t = ("t" :: names ++ ["e"; "Te"; "Tg"; "p"])%string ->
    exists dens, plot_solution cfg to_path other_csv nominal id [] b d n s =
       (s', Ok (map (fun p => (p, points_in_time t p)) names, dens)).
  Proof.
    intros F C. unfold plot_solution. rewrite F. cbn [bind]. cbv zeta.
    assert (D : default_columns (tb_cols t) = names).
    { rewrite C. unfold default_columns. cbn [List.length]. rewrite app_length. cbn [List.length]. replace (S (List.length names + 4) - 4)%nat with (S (List.length names)) by lia.
      cbn [firstn tl]. rewrite firstn_app, firstn_all, Nat.sub_diag. cbn [firstn]. apply app_nil_r. }
    rewrite D, (curves_ok t names).
    - cbn [bind]. eexists. reflexivity.
    - rewrite C. now left.
    - intros x X. rewrite C. right. apply in_or_app. now left.
  Qed.
  Lemma plot_unread nominal id ps b d n s s' e : fetch_solution cfg to_path other_csv nominal id b d n s = (s', Err e) ->
    plot_solution cfg to_path other_csv nominal id ps b d n s = (s', Err e).
  Proof. intros F. unfold plot_solution. now rewrite F. Qed.
End Main.

(** ** Labels again *)
Lemma string_app_inv p a b : (p ++ a)%string = (p ++ b)%string -> a = b.
Proof. induction p as [|c p IH]; [easy|]. intros H. apply IH. now injection H. Qed.
Lemma string_app_length a b : String.length (a ++ b) = (String.length a + String.length b)%nat.
Proof. induction a as [|c a IH]; [reflexivity|]. cbn. now rewrite IH. Qed.
Lemma labels_differ p id id' l : labelled p id l -> labelled p id' l -> (String.length p + String.length id <= 36)%nat -> id = id'.
Proof.
  unfold labelled. cbv zeta. intros H1 H2 L. rewrite !string_app_length in *. cbn [String.length] in *.
  destruct H1 as [[_ H1]|[H1 _]]; [|lia]. destruct H2 as [[_ H2]|[H2 (a & b & _ & LB & H3)]].
  - rewrite H1 in H2. apply string_app_inv in H2. apply string_app_inv in H2. now apply (string_app_inv "/") in H2.
  - exfalso. apply (f_equal String.length) in H1. apply (f_equal String.length) in H3. rewrite !string_app_length in *. cbn [String.length] in *. lia.
Qed.
