(** What a comparison of reduction runs draws. *)
From Coq Require Import Permutation Lqa.
From Verif Require Import Base BaseLemmas Species Reactions Chemistry ChemSpec Latex Morris MorrisStats Tables InitialGuess
  GlobalModel GlobalSpec Reduction ReductionSpec ReductionProofs Compare CompareSpec CompareRun.
Open Scope list_scope.

(** ** Rows *)

Lemma picked_filter {A} (P : A -> Prop) f : (forall x : A, f x = true <-> P x) -> forall l, picked P l (filter f l).
Proof.
  intros H l. induction l as [|x l IH]; [constructor|]. cbn [filter]. destruct (f x) eqn:F.
  - apply pk_take; [now apply H|exact IH].
  - apply pk_skip; [|exact IH]. intros X. apply H in X. congruence.
Qed.
Lemma picked_In {A} (P : A -> Prop) l m : picked P l m -> forall x, In x m <-> In x l /\ P x.
Proof.
  induction 1 as [|x l m H K IH|x l m H K IH]; intros y.
  - cbn. tauto.
  - cbn [In]. rewrite IH. split; [intros [->|[? ?]]; auto|]. intros [[->|?] ?]; auto.
  - cbn [In]. rewrite IH. split; [tauto|]. intros [[->|?] ?]; [contradiction|auto].
Qed.

Lemma fltb_lt a b : fltb (Fin a) (Fin b) = true <-> (a < b)%Q.
Proof.
  cbn [fltb]. rewrite negb_true_iff. split.
  - intros H. apply Qnot_le_lt. intros L. apply Qle_bool_iff in L. congruence.
  - intros H. destruct (Qle_bool b a) eqn:L; [|reflexivity]. apply Qle_bool_iff in L. exfalso. exact (Qlt_not_le _ _ H L).
Qed.
Lemma fltb_ge a b : fltb (Fin a) (Fin b) = false <-> (b <= a)%Q.
Proof.
  split.
  - intros H. apply Qnot_lt_le. intros L. apply fltb_lt in L. congruence.
  - intros H. destruct (fltb (Fin a) (Fin b)) eqn:L; [|reflexivity]. apply fltb_lt in L. exfalso. exact (Qlt_not_le _ _ L H).
Qed.
Lemma fleb_le a b : fleb (Fin a) (Fin b) = true <-> (a <= b)%Q.
Proof.
  unfold fleb. rewrite orb_true_iff, fltb_lt. cbn [feqb]. rewrite Qeq_bool_iff. split.
  - intros [H|H]; [now apply Qlt_le_weak|rewrite H; apply Qle_refl].
  - intros H. destruct (Qeq_dec a b) as [X|X]; [now right|left]. destruct (Qlt_le_dec a b) as [Y|Y]; [exact Y|].
    exfalso. apply X. now apply Qle_antisym.
Qed.

Section Rows.
  Variables (m : Q) (k : rconf).
  Hypothesis same_limit : (m == rc_max k)%Q.

  Lemma limits_eq : (m / 100 == rc_max k / 100)%Q.
  Proof using same_limit. now rewrite same_limit. Qed.

  Lemma succeeded_iff r : succeeded r = true <-> h_success r = Some true.
  Proof. unfold succeeded. destruct (h_success r) as [[]|]; split; congruence. Qed.

  Lemma on_line_iff r : on_line m r = true <-> stays k true r.
  Proof using same_limit.
    unfold on_line, stays. rewrite andb_true_iff, succeeded_iff.
    assert (W : fleb (h_base r) (Fin (m / 100)) = true <-> within_limit k (h_base r)).
    { unfold within_limit. destruct (h_base r) as [q| | |]; [rewrite fleb_le, limits_eq; reflexivity| | |]; cbn; intuition congruence. }
    rewrite W. intuition.
  Qed.
  Lemma dead_end_iff r : dead_end m r = true <-> h_success r = Some true /\ over_limit k (h_base r).
  Proof using same_limit.
    unfold dead_end. rewrite andb_true_iff, succeeded_iff.
    assert (W : fltb (Fin (m / 100)) (h_base r) = true <-> over_limit k (h_base r)).
    { unfold over_limit. destruct (h_base r) as [q| | |]; [rewrite fltb_lt, limits_eq; reflexivity| | |]; cbn; intuition congruence. }
    now rewrite W.
  Qed.
End Rows.

Lemma place_spot r : spot r (fst (place r)) (snd (place r)).
Proof.
  split; [reflexivity|]. cbn [place snd]. unfold percent. destruct (h_base r) as [q| | |]; try reflexivity.
  exists (q * 100)%Q. split; [reflexivity|]. apply Qmult_comm.
Qed.
Lemma places_spots rs : spots rs (map place rs).
Proof. induction rs; constructor; [apply place_spot|assumption]. Qed.

(** ** The drawings of one run *)

Definition text_of (a : plot_args) (style name : string) (p : Q * flt) : drawing :=
  DText name (text_pos a p) (match colour_of style with Ok c => c | Err _ => "" end).

Definition last_on (m : Q) (before : list hrow) : option hrow :=
  match rev (filter (on_line m) before) with p :: _ => Some p | [] => None end.

Definition dead_one (a : plot_args) (m : Q) (style : string) (p r : hrow) : list drawing :=
  [DLine [place p; place r] (drop_last style) None; DLine [place r] style None] ++
  (if pa_annotate a then match h_species r with Some x => [text_of a style (prettify (pa_names a) x) (place r)] | None => [] end else []).

Fixpoint dead_draw (a : plot_args) (m : Q) (style : string) (before rows : list hrow) : list drawing :=
  match rows with
  | [] => []
  | r :: rows' =>
      (if dead_end m r then match last_on m before with Some p => dead_one a m style p r | None => [] end else []) ++
      dead_draw a m style (before ++ [r]) rows'
  end.

Definition up_x (x z : Z) : Z := if (x <? z)%Z then z else x.
Definition up_y (x y : flt) : flt := if fltb x y then y else x.
Definition dead_x (m : Q) (rows : list hrow) (x : Z) : Z := fold_left (fun x r => if dead_end m r then up_x x (h_removed r) else x) rows x.
Definition dead_y (m : Q) (rows : list hrow) (y : flt) : flt := fold_left (fun y r => if dead_end m r then up_y y (percent (h_base r)) else y) rows y.

Lemma canvas_eta v : v = MkCanvas (cv_draw v) (cv_x v) (cv_y v).
Proof. now destruct v. Qed.

Lemma dead_ends_eq a m style : (pa_annotate a = true -> style <> ""%string) -> forall rows before v,
  (rows <> [] -> last_on m before <> None \/ exists r rows', rows = r :: rows' /\ on_line m r = true /\ dead_end m r = false) ->
  (pa_annotate a = true -> forall r, In r rows -> dead_end m r = true -> h_species r <> None) ->
  dead_ends a m style before rows v =
    Ok (MkCanvas (cv_draw v ++ dead_draw a m style before rows) (dead_x m rows (cv_x v)) (dead_y m rows (cv_y v))).
Proof.
  intros HS rows. induction rows as [|r rows IH]; intros before v HL HN.
  - cbn [dead_ends dead_draw]. unfold dead_x, dead_y. cbn [fold_left]. rewrite app_nil_r, <- canvas_eta. reflexivity.
  - assert (NEXT : rows <> [] -> last_on m (before ++ [r]) <> None \/ exists r0 rows', rows = r0 :: rows' /\ on_line m r0 = true /\ dead_end m r0 = false).
    { intros _. left. unfold last_on. rewrite filter_app, rev_app_distr. cbn [filter]. destruct (on_line m r) eqn:O; [discriminate|].
      cbn [rev app]. destruct (HL ltac:(discriminate)) as [X|(r0 & rows' & E & X & _)]; [exact X|]. injection E as <- _. congruence. }
    assert (NEXT2 : pa_annotate a = true -> forall q, In q rows -> dead_end m q = true -> h_species q <> None) by (intros A q I; apply HN; [exact A|now right]).
    cbn [dead_ends dead_draw]. destruct (dead_end m r) eqn:D.
    + destruct (HL ltac:(discriminate)) as [X|(r0 & rows' & E & _ & X)]; [|injection E as <- _; congruence].
      unfold one_dead_end. unfold last_on in X |- *. destruct (rev (filter (on_line m) before)) as [|p t] eqn:RV; [congruence|].
      destruct (pa_annotate a) eqn:A.
      * destruct (h_species r) as [x|] eqn:SP; [|exfalso; apply (HN eq_refl r (or_introl eq_refl) D SP)].
        unfold note. destruct style as [|c0 cs]; [now exfalso; apply (HS eq_refl)|]. cbn [colour_of bind fst snd].
        rewrite (IH _ _ NEXT NEXT2). cbn [draw cv_draw cv_x cv_y raise_x raise_y].
        unfold dead_one, text_of. rewrite A, SP. cbn [colour_of app]. rewrite <- !app_assoc. unfold dead_x, dead_y. cbn [fold_left app]. rewrite D. reflexivity.
      * cbn [bind]. rewrite (IH _ _ NEXT NEXT2). cbn [draw cv_draw cv_x cv_y raise_x raise_y].
        unfold dead_one. rewrite A. rewrite <- !app_assoc. unfold dead_x, dead_y. cbn [fold_left app]. rewrite D. reflexivity.
    + cbn [bind app]. rewrite (IH _ _ NEXT NEXT2). unfold dead_x, dead_y. cbn [fold_left]. rewrite D. reflexivity.
Qed.

Definition end_line (a : plot_args) (dead : string) (l : hrow) : list drawing :=
  if pa_endpoints a
  then [DLine [(inject_Z (h_removed l), Fin (- inject_Z (10 ^ 10))); (inject_Z (h_removed l), Fin (inject_Z (10 ^ 10)))] dead None]
  else [].
Definition line_notes (a : plot_args) (style : string) (good : list hrow) : list drawing :=
  if pa_annotate a then map (fun r => text_of a style (prettify (pa_names a) (eliminated r)) (place r)) good else [].
Definition run_draw (a : plot_args) (m : Q) (style dead label : string) (h : list hrow) (l : hrow) : list drawing :=
  end_line a dead l ++ [DLine (map place (filter (on_line m) h)) style (Some label)] ++ line_notes a style (filter (on_line m) h) ++
  (if pa_dead_ends a then dead_draw a m dead [] h else []).

Lemma notes_eq a style xs : style <> ""%string ->
  mapM (note a style) xs = Ok (map (fun xp => text_of a style (fst xp) (snd xp)) xs).
Proof.
  intros N. induction xs as [|x xs IH]; [reflexivity|]. cbn [mapM map]. unfold note at 1. destruct style as [|c s]; [congruence|].
  cbn [colour_of bind]. rewrite IH. reflexivity.
Qed.

(** The first row of a history stays. *)
Definition starts_well (m : Q) (h : list hrow) : Prop :=
  exists r h', h = r :: h' /\ on_line m r = true /\ dead_end m r = false.

Lemma plot_run_eq a m style dead label h v :
  starts_well m h -> (pa_annotate a = true -> style <> ""%string /\ dead <> ""%string) ->
  (pa_annotate a = true -> forall r, In r h -> dead_end m r = true -> h_species r <> None) ->
  exists l hs, rev (filter (on_line m) h) = l :: hs /\
  plot_run a m style dead label h v =
    Ok (MkCanvas (cv_draw v ++ run_draw a m style dead label h l)
                 (if pa_dead_ends a then dead_x m h (up_x (cv_x v) (h_removed l)) else up_x (cv_x v) (h_removed l))
                 (if pa_dead_ends a then dead_y m h (up_y (cv_y v) (percent (h_base l))) else up_y (cv_y v) (percent (h_base l)))).
Proof.
  intros (r & h' & EH & O & D) HS HN. unfold plot_run.
  destruct (rev (filter (on_line m) h)) as [|l hs] eqn:RV.
  { exfalso. rewrite EH in RV. cbn [filter] in RV. rewrite O in RV. cbn [rev] in RV. now apply app_eq_nil in RV. }
  exists l, hs. split; [reflexivity|]. cbv zeta.
  assert (TS : pa_annotate a = true -> mapM (note a style) (map (fun r => (prettify (pa_names a) (eliminated r), place r)) (filter (on_line m) h)) =
    Ok (line_notes a style (filter (on_line m) h))).
  { intros A. rewrite notes_eq by now apply HS. unfold line_notes. rewrite A, map_map. reflexivity. }
  set (v4 := draw (raise_x _ _) _).
  assert (V4 : v4 = MkCanvas (cv_draw v ++ end_line a dead l ++ [DLine (map place (filter (on_line m) h)) style (Some label)])
                             (up_x (cv_x v) (h_removed l)) (up_y (cv_y v) (percent (h_base l)))).
  { subst v4. unfold end_line. destruct (pa_endpoints a); unfold draw, raise_x, raise_y; cbn [cv_draw cv_x cv_y]; rewrite <- ?app_assoc; reflexivity. }
  clearbody v4. subst v4.
  assert (V5 : (if pa_annotate a then
       bind (mapM (note a style) (map (fun r => (prettify (pa_names a) (eliminated r), place r)) (filter (on_line m) h)))
         (fun ts => Ok (draw (MkCanvas (cv_draw v ++ end_line a dead l ++ [DLine (map place (filter (on_line m) h)) style (Some label)])
                             (up_x (cv_x v) (h_removed l)) (up_y (cv_y v) (percent (h_base l)))) ts))
     else Ok (MkCanvas (cv_draw v ++ end_line a dead l ++ [DLine (map place (filter (on_line m) h)) style (Some label)])
                             (up_x (cv_x v) (h_removed l)) (up_y (cv_y v) (percent (h_base l))))) =
     Ok (MkCanvas (cv_draw v ++ end_line a dead l ++ [DLine (map place (filter (on_line m) h)) style (Some label)] ++ line_notes a style (filter (on_line m) h))
                             (up_x (cv_x v) (h_removed l)) (up_y (cv_y v) (percent (h_base l))))).
  { destruct (pa_annotate a) eqn:A.
    - rewrite (TS eq_refl). cbn [bind]. unfold draw. cbn [cv_draw cv_x cv_y]. rewrite <- !app_assoc. reflexivity.
    - unfold line_notes. rewrite A, app_nil_r. reflexivity. }
  rewrite V5. cbn [bind]. unfold run_draw. destruct (pa_dead_ends a).
  - rewrite dead_ends_eq.
    + cbn [cv_draw cv_x cv_y]. rewrite <- !app_assoc. reflexivity.
    + intros A. now apply HS.
    + intros _. right. exists r, h'. auto.
    + exact HN.
  - rewrite app_nil_r. reflexivity.
Qed.
