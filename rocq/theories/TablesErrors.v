(** Proofs about SolutionsDiff. *)
From Coq Require Import Qabs Sorted Reals Qreals Lra Lqa Permutation.
From Verif Require Import Base BaseLemmas Morris MorrisStats Tables TablesSpec TablesProofs.
Open Scope Q_scope.

Lemma result_ok tb o t : ascending tb -> In o (tb_cols tb) -> covered tb t ->
  exists v, result_in_time tb o t = Ok v /\ sampled tb o t v.
Proof.
  intros A I C. unfold result_in_time. apply memS_In in I. rewrite I. cbn [negb raise_if bind].
  rewrite (proj2 (assert_range_iff tb t) C). cbn [bind]. now apply covered_sampled.
Qed.

Lemma results_ok tb o times : ascending tb -> In o (tb_cols tb) -> (forall t, In t times -> covered tb t) ->
  exists vs, mapM (result_in_time tb o) times = Ok vs /\ Forall2 (sampled tb o) times vs.
Proof.
  intros A I. induction times as [|t times IH]; intros C; [exists []; split; [reflexivity|constructor]|].
  destruct (result_ok tb o t A I (C t (or_introl eq_refl))) as (v & E & Sa).
  destruct (IH (fun x X => C x (or_intror X))) as (vs & Es & F).
  cbn [mapM]. rewrite E. cbn [bind]. rewrite Es. cbn [bind]. eexists. split; [reflexivity|]. now constructor.
Qed.

(** Anything else is refused. *)
Theorem result_rejected tb o t : tb_rows tb <> [] -> (~ In o (tb_cols tb) \/ ~ covered tb t) -> result_in_time tb o t = Err EAssertion.
Proof.
  intros N H. unfold result_in_time. destruct (memS o (tb_cols tb)) eqn:M; cbn [negb raise_if bind]; [|reflexivity].
  apply memS_In in M. destruct H as [H|H]; [contradiction|].
  destruct (assert_range (tb_rows tb) t) as [[]|e] eqn:E; [now apply assert_range_iff in E|]. cbn [bind].
  now rewrite (assert_range_err tb t e N E).
Qed.

Lemma Qmaxl_ok l : forall a, (Qmaxl a l = a \/ In (Qmaxl a l) l) /\ a <= Qmaxl a l /\ forall y, In y l -> y <= Qmaxl a l.
Proof.
  unfold Qmaxl. induction l as [|b l IH]; intros a; cbn [fold_left].
  - split; [now left|]. split; [apply Qle_refl|easy].
  - destruct (Qltb a b) eqn:E.
    + apply Qltb_iff in E. destruct (IH b) as (I & L & M). split; [right; destruct I as [->|I]; [now left|now right]|].
      split; [lra|]. intros y [<-|Y]; [exact L|now apply M].
    + apply Qltb_false in E. destruct (IH a) as (I & L & M). split; [destruct I as [I|I]; [now left|right; now right]|].
      split; [exact L|]. intros y [<-|Y]; [lra|now apply M].
Qed.

(** One output: all errors are numbers, each the mixed error at its time. *)
Theorem errors_ok full red outs times o : comparable full red outs times -> In o outs ->
  exists top es, largest full o times top /\ 0 < top /\
    get_output_errors full red o times = Ok (map Fin es) /\ Forall2 (mixed_error full red o top) times es.
Proof.
  intros (Af & Ar & Nt & _ & Cols & Cov & Pos) Io.
  destruct (results_ok full o times Af (proj1 (Cols o Io)) (fun t T => proj1 (Cov t T))) as (vf & Ef & Sf).
  destruct (results_ok red o times Ar (proj2 (Cols o Io)) (fun t T => proj2 (Cov t T))) as (vr & Er & Sr).
  unfold get_output_errors. rewrite Ef. cbn [bind]. rewrite Er. cbn [bind].
  assert (Pf : Forall (fun v => 0 < v) vf).
  { apply Forall_forall. intros v V. assert (X : exists t, sampled full o t v).
    { clear -Sf V. induction Sf as [|t w ts ws S F IH]; [easy|]. destruct V as [->|V]; [now exists t|now apply IH]. }
    destruct X as (t & X). destruct (sampled_between _ _ _ _ X) as (a & b & Ia & Ib & _ & _ & H).
    pose proof (Pos o a Io Ia). pose proof (Pos o b Io Ib). destruct H as [H|H]; lra. }
  destruct vf as [|v vs].
  { inversion Sf; subst. contradiction. }
  destruct (Qmaxl_ok vs v) as (Im & Lv & Lm). set (top := Qmaxl v vs) in *.
  assert (It : In top (v :: vs)) by (destruct Im as [E|I]; [left; now rewrite E|now right]).
  assert (Pt : 0 < top) by (rewrite Forall_forall in Pf; now apply Pf).
  assert (Lg : largest full o times top).
  { split.
    - clear -Sf It. induction Sf as [|t w ts ws S F IH]; [easy|]. destruct It as [E|I].
      + exists t. split; [now left|]. now rewrite <- E.
      + destruct (IH I) as (x & X & Y). exists x. split; [now right|exact Y].
    - intros t w It' Sw. assert (X : exists u, In u (v :: vs) /\ sampled full o t u).
      { clear -Sf It'. induction Sf as [|x w ts ws S F IH]; [easy|]. destruct It' as [<-|I]; [exists w; split; [now left|exact S]|].
        destruct (IH I) as (u & U & V). exists u. split; [now right|exact V]. }
      destruct X as (u & Iu & Su). rewrite (sampled_unique full o t w u Af Sw Su).
      destruct Iu as [<-|Iu]; [exact Lv|now apply Lm]. }
  exists top. clearbody top. clear Im Lv Lm It Ef Er Cov Nt.
  assert (G : forall ts fs rs, Forall2 (sampled full o) ts fs -> Forall2 (sampled red o) ts rs -> Forall (fun x => 0 < x) fs ->
    exists es, zip_errors top rs fs = map Fin es /\ Forall2 (mixed_error full red o top) ts es).
  { clear -Pt. induction ts as [|t ts IH]; intros fs rs F R P; inversion F; subst; inversion R; subst.
    - exists []. split; [reflexivity|constructor].
    - inversion P; subst. destruct (IH l' l'0) as (es & E & Fe); [assumption|assumption|assumption|].
      exists (2 * (y0 - y) / (y + top) :: es). split.
      + cbn [zip_errors map]. rewrite E. f_equal. unfold fdivq. destruct (Qeq_bool (y + top) 0) eqn:Q; [|reflexivity].
        apply Qeq_bool_iff in Q. lra.
      + constructor; [|exact Fe]. exists y, y0. split; [assumption|]. split; [assumption|reflexivity]. }
  destruct (G times (v :: vs) vr Sf Sr Pf) as (es & E & Fe). exists es. split; [exact Lg|]. split; [exact Pt|].
  split; [now rewrite <- E|exact Fe].
Qed.

(** Largest number of a list of numbers. *)
Lemma pymax_fin l : l <> [] -> exists x, pymax (map Fin l) = Ok (Fin x) /\ In x l /\ forall y, In y l -> y <= x.
Proof.
  destruct l as [|a l]; [easy|]. intros _. cbn [map pymax].
  assert (G : forall l a, exists x, fold_left (fun m y => if fltb m y then y else m) (map Fin l) (Fin a) = Fin x /\ In x (a :: l) /\ forall y, In y (a :: l) -> y <= x).
  { clear. induction l as [|b l IH]; intros a; cbn [map fold_left].
    - exists a. split; [reflexivity|]. split; [now left|]. intros y [<-|[]]. apply Qle_refl.
    - cbn [fltb]. fold (Qltb a b). destruct (Qltb a b) eqn:E.
      + apply Qltb_iff in E. destruct (IH b) as (x & X & I & M). exists x. split; [exact X|]. split; [now right|].
        intros y [<-|Y]; [pose proof (M b (or_introl eq_refl)); lra|now apply M].
      + apply Qltb_false in E. destruct (IH a) as (x & X & I & M). exists x. split; [exact X|].
        split; [destruct I as [->|I]; [now left|right; now right]|].
        intros y [<-|[<-|Y]]; [apply M; now left|pose proof (M a (or_introl eq_refl)); lra|apply M; now right]. }
  destruct (G l a) as (x & X & I & M). exists x. rewrite X. now split.
Qed.

Lemma map_fabs es : map fabs (map Fin es) = map Fin (map Qabs es).
Proof. induction es as [|e es IH]; [reflexivity|]. cbn [map fabs]. now rewrite IH. Qed.

(** What the maximal error of an output is. *)
Definition largest_error (full red : table) (o : string) (times : list Q) (m : Q) : Prop :=
  exists top, largest full o times top /\
    (exists t e, In t times /\ mixed_error full red o top t e /\ m == Qabs e) /\
    (forall t e, In t times -> mixed_error full red o top t e -> Qabs e <= m).

Lemma mixed_unique full red o top t e e' : ascending full -> ascending red ->
  mixed_error full red o top t e -> mixed_error full red o top t e' -> e == e'.
Proof.
  intros A B (vf & vr & F & R & E) (vf' & vr' & F' & R' & E').
  rewrite E, E', (sampled_unique full o t vf vf' A F F'), (sampled_unique red o t vr vr' B R R'). reflexivity.
Qed.

Theorem output_max_ok full red outs times o : comparable full red outs times -> In o outs ->
  exists m, get_output_error_max full red o times = Ok (Fin m) /\ largest_error full red o times m.
Proof.
  intros C I. destruct (errors_ok _ _ _ _ _ C I) as (top & es & L & Pt & E & F). unfold get_output_error_max. rewrite E. cbn [bind].
  rewrite map_fabs. destruct (pymax_fin (map Qabs es)) as (m & Em & Im & Mm).
  { intros X. apply map_eq_nil in X. subst es. inversion F. subst times. now apply C. }
  exists m. split; [exact Em|]. exists top. split; [exact L|]. split.
  - apply in_map_iff in Im. destruct Im as (e & <- & Ie). clear -F Ie. induction F as [|t x ts xs H F IH]; [easy|]. destruct Ie as [->|Ie].
    + exists t, e. split; [now left|]. split; [exact H|reflexivity].
    + destruct (IH Ie) as (t' & e' & A & B). exists t', e'. split; [now right|exact B].
  - intros t e It Me. assert (X : exists e', In e' es /\ mixed_error full red o top t e').
    { clear -F It. induction F as [|x y ts xs H F IH]; [easy|]. destruct It as [<-|I]; [exists y; split; [now left|exact H]|].
      destruct (IH I) as (e' & A & B). exists e'. split; [now right|exact B]. }
    destruct X as (e' & Ie & Me'). rewrite (mixed_unique _ _ _ _ _ _ _ (proj1 C) (proj1 (proj2 C)) Me Me'). apply Mm. now apply in_map.
Qed.

Theorem overall_max_ok full red outs times : comparable full red outs times ->
  exists m, get_error_max full red outs times = Ok (Fin m) /\
    (exists o, In o outs /\ get_output_error_max full red o times = Ok (Fin m)) /\
    (forall o x, In o outs -> get_output_error_max full red o times = Ok (Fin x) -> x <= m).
Proof.
  intros C. unfold get_error_max.
  assert (G : forall os, incl os outs -> exists ms, mapM (fun o => get_output_error_max full red o times) os = Ok (map Fin ms) /\
     Forall2 (fun o x => get_output_error_max full red o times = Ok (Fin x)) os ms).
  { induction os as [|o os IH]; intros I; [exists []; split; [reflexivity|constructor]|].
    destruct (output_max_ok _ _ _ _ o C (I o (or_introl eq_refl))) as (x & E & _).
    destruct (IH (fun z Z => I z (or_intror Z))) as (ms & Em & F). exists (x :: ms). cbn [mapM]. rewrite E. cbn [bind]. rewrite Em.
    split; [reflexivity|now constructor]. }
  destruct (G outs (incl_refl _)) as (ms & Em & F). rewrite Em. cbn [bind].
  destruct (pymax_fin ms) as (m & E & I & M).
  { intros X. subst ms. inversion F. subst outs. now apply C. }
  exists m. split; [exact E|]. split.
  - clear -F I. induction F as [|o x os xs H F IH]; [easy|]. destruct I as [->|I]; [exists o; split; [now left|exact H]|].
    destruct (IH I) as (o' & A & B). exists o'. split; [now right|exact B].
  - intros o x Io Ex. assert (X : In x ms).
    { clear -F Io Ex. induction F as [|p y os ys H F IH]; [easy|]. destruct Io as [->|Io]; [left; rewrite H in Ex; congruence|right; now apply IH]. }
    now apply M.
Qed.

(** ** Root mean squares *)

Lemma all_some_map {A B} (f : A -> B) l : all_some (map (fun a => Some (f a)) l) = Some (map f l).
Proof. induction l as [|a l IH]; [reflexivity|]. cbn. now rewrite IH. Qed.

Lemma sum_sqr_nonneg l : (0 <= fold_right Rplus 0 (map Rsqr l))%R.
Proof. induction l as [|a l IH]; cbn; [Lra.lra|]. pose proof (Rle_0_sqr a). Lra.lra. Qed.

Lemma len_pos {A} (l : list A) : l <> [] -> (0 < INR (List.length l))%R.
Proof. destruct l; [easy|]. intros _. apply lt_0_INR. cbn. lia. Qed.

Lemma array_rms_ok l : l <> [] -> exists v, array_rms (map Some l) = Some v /\ rms_of l v.
Proof.
  intros N. unfold array_rms. change (map Some l) with (map (fun a : R => Some ((fun x => x) a)) l). rewrite all_some_map, map_id.
  destruct l as [|a l]; [easy|]. eexists. split; [reflexivity|]. set (m := a :: l) in *.
  pose proof (len_pos m ltac:(easy)) as Lp. split; [apply sqrt_pos|].
  rewrite Rsqr_sqrt; [field; Lra.lra|]. apply Rmult_le_pos; [apply sum_sqr_nonneg|]. left. now apply Rinv_0_lt_compat.
Qed.

Lemma rms_le l v b : l <> [] -> rms_of l v -> (0 <= b)%R -> (forall x, In x l -> Rabs x <= b)%R -> (v <= b)%R.
Proof.
  intros N (P & E) B M. apply Rsqr_incr_0_var; [|exact B]. pose proof (len_pos l N) as Lp.
  apply (Rmult_le_reg_r (INR (List.length l))); [exact Lp|]. rewrite E. clear E N Lp P.
  induction l as [|a l IH]; cbn [map fold_right List.length]; [cbn; Lra.lra|]. rewrite S_INR.
  assert (H : (Rsqr a <= Rsqr b)%R).
  { rewrite (Rsqr_abs a). apply Rsqr_incr_1; [apply M; now left|apply Rabs_pos|exact B]. }
  specialize (IH (fun x X => M x (or_intror X))). Lra.lra.
Qed.

Lemma Q2R_abs q : Q2R (Qabs q) = Rabs (Q2R q).
Proof.
  apply Qabs_case; intros H.
  - rewrite Rabs_right; [reflexivity|]. apply Rle_ge. replace 0%R with (Q2R 0) by (unfold Q2R; cbn; Lra.lra). now apply Qle_Rle.
  - rewrite Rabs_left1; [now rewrite Q2R_opp|]. replace 0%R with (Q2R 0) by (unfold Q2R; cbn; Lra.lra). now apply Qle_Rle.
Qed.

Theorem output_rms_ok full red outs times o : comparable full red outs times -> In o outs ->
  exists top es v m, largest full o times top /\ Forall2 (mixed_error full red o top) times es /\
    get_output_error_rms full red o times = Ok (Some v) /\ rms_of (map Q2R es) v /\
    get_output_error_max full red o times = Ok (Fin m) /\ (v <= Q2R m)%R.
Proof.
  intros C I. destruct (errors_ok _ _ _ _ _ C I) as (top & es & L & Pt & E & F).
  assert (N : es <> []).
  { intros ->. inversion F. subst times. now apply C. }
  exists top, es. unfold get_output_error_rms, get_output_error_max. rewrite E. cbn [bind].
  destruct (array_rms_ok (map Q2R es)) as (v & Ev & Rv); [intros X; now apply map_eq_nil in X|].
  rewrite map_fabs. destruct (pymax_fin (map Qabs es)) as (m & Em & Im & Mm); [intros X; now apply map_eq_nil in X|].
  exists v, m. split; [exact L|]. split; [exact F|]. split.
  { f_equal. rewrite map_map. cbn [finite_part]. rewrite map_map in Ev. exact Ev. }
  split; [exact Rv|]. split; [exact Em|].
  apply (rms_le (map Q2R es) v); [intros X; now apply map_eq_nil in X|exact Rv| |].
  - replace 0%R with (Q2R 0) by (unfold Q2R; cbn; Lra.lra). apply Qle_Rle. apply in_map_iff in Im. destruct Im as (e & <- & _). apply Qabs_nonneg.
  - intros x X. apply in_map_iff in X. destruct X as (e & <- & Ie). rewrite <- Q2R_abs. apply Qle_Rle, Mm. now apply in_map.
Qed.

Theorem overall_rms_ok full red outs times : comparable full red outs times ->
  exists vs v m, Forall2 (fun o x => get_output_error_rms full red o times = Ok (Some x)) outs vs /\
    get_error_rms full red outs times = Ok (Some v) /\ rms_of vs v /\
    get_error_max full red outs times = Ok (Fin m) /\ (v <= Q2R m)%R.
Proof.
  intros C. destruct (overall_max_ok _ _ _ _ C) as (m & Em & _ & Mm).
  assert (G : forall os, incl os outs -> exists vs, mapM (fun o => get_output_error_rms full red o times) os = Ok (map Some vs) /\
     Forall2 (fun o x => get_output_error_rms full red o times = Ok (Some x)) os vs /\ (forall x, In x vs -> 0 <= x <= Q2R m)%R).
  { induction os as [|o os IH]; intros I; [exists []; split; [reflexivity|split; [constructor|easy]]|].
    destruct (output_rms_ok _ _ _ _ o C (I o (or_introl eq_refl))) as (top & es & v & x & _ & _ & E & Rv & Ex & Lx).
    destruct (IH (fun z Z => I z (or_intror Z))) as (vs & Ev & F & B). exists (v :: vs). cbn [mapM]. rewrite E. cbn [bind]. rewrite Ev.
    split; [reflexivity|]. split; [now constructor|]. intros y [<-|Y]; [|now apply B]. split; [apply Rv|].
    apply Rle_trans with (Q2R x); [exact Lx|]. apply Qle_Rle. apply (Mm o x); [apply I; now left|exact Ex]. }
  destruct (G outs (incl_refl _)) as (vs & Ev & F & B).
  assert (N : vs <> []).
  { intros ->. inversion F. subst outs. now apply C. }
  destruct (array_rms_ok vs N) as (v & Er & Rv). exists vs, v, m. split; [exact F|]. unfold get_error_rms. rewrite Ev. cbn [bind]. rewrite Er.
  split; [reflexivity|]. split; [exact Rv|]. split; [exact Em|].
  assert (Mp : (0 <= Q2R m)%R).
  { destruct vs as [|x vs]; [easy|]. pose proof (B x (or_introl eq_refl)). Lra.lra. }
  apply (rms_le vs v _ N Rv Mp). intros x X. pose proof (B x X). rewrite Rabs_right; Lra.lra.
Qed.

(** ** What the error means *)

Theorem zero_error_iff full red outs times o m : comparable full red outs times -> In o outs ->
  get_output_error_max full red o times = Ok (Fin m) ->
  (m == 0 <-> forall t, In t times -> exists v, sampled full o t v /\ sampled red o t v).
Proof.
  intros C I E. destruct (output_max_ok _ _ _ _ _ C I) as (m' & E' & top & L & (t0 & e0 & I0 & M0 & Em) & Mx). rewrite E in E'. injection E' as <-.
  destruct C as (Af & Ar & Nt & No & Cols & Cov & Pos).
  assert (Pv : forall t v, sampled full o t v -> 0 < v).
  { intros t v V. destruct (sampled_between _ _ _ _ V) as (a & b & Ia & Ib & _ & _ & H).
    pose proof (Pos o a I Ia). pose proof (Pos o b I Ib). destruct H as [H|H]; lra. }
  assert (Pt : 0 < top) by (destruct L as ((t & It & St) & _); now apply (Pv t)).
  split.
  - intros Z t It. destruct (covered_sampled full o t Af (proj1 (Cov t It))) as (vf & _ & Sf).
    destruct (covered_sampled red o t Ar (proj2 (Cov t It))) as (vr & _ & Sr).
    pose proof (Pv t vf Sf) as Pf.
    assert (B : Qabs (2 * (vr - vf) / (vf + top)) <= 0).
    { rewrite <- Z. apply (Mx t); [exact It|]. exists vf, vr. split; [exact Sf|]. split; [exact Sr|reflexivity]. }
    assert (Z2 : 2 * (vr - vf) / (vf + top) == 0).
    { pose proof (Qabs_nonneg (2 * (vr - vf) / (vf + top))). apply Qabs_Qle_condition in B. lra. }
    assert (Eq : vr == vf).
    { assert (X : 2 * (vr - vf) / (vf + top) * (vf + top) == 2 * (vr - vf)) by (field; lra). rewrite Z2 in X. lra. }
    exists vf. split; [exact Sf|].
    destruct Sr as [(pre & a & b & post & R & T & V)|(pre & a & R & T & V)]; [left; exists pre, a, b, post|right; exists pre, a]; now rewrite <- Eq.
  - intros H. rewrite Em. destruct M0 as (vf & vr & Sf & Sr & Ee). destruct (H t0 I0) as (v & F & R).
    rewrite Ee, (sampled_unique full o t0 vf v Af Sf F), (sampled_unique red o t0 vr v Ar Sr R).
    pose proof (Pv t0 v F). assert (X : 2 * (v - v) / (v + top) == 0) by (field; lra). now rewrite X.
Qed.

Theorem relative_bound full red outs times o top t e vf vr : comparable full red outs times -> In o outs -> In t times ->
  largest full o times top -> sampled full o t vf -> sampled red o t vr -> mixed_error full red o top t e ->
  Qabs e <= Qabs (vr - vf) / vf.
Proof.
  intros (Af & Ar & Nt & No & Cols & Cov & Pos) I It (_ & L) Sf Sr (wf & wr & Tf & Tr & E).
  assert (Pv : 0 < vf).
  { destruct (sampled_between _ _ _ _ Sf) as (a & b & Ia & Ib & _ & _ & H).
    pose proof (Pos o a I Ia). pose proof (Pos o b I Ib). destruct H as [H|H]; lra. }
  rewrite E, (sampled_unique full o t wf vf Af Tf Sf), (sampled_unique red o t wr vr Ar Tr Sr).
  pose proof (L t vf It Sf) as Lt. unfold Qdiv at 1. rewrite Qabs_Qmult, Qabs_Qmult.
  rewrite (Qabs_pos (/ (vf + top))) by (apply Qinv_le_0_compat; lra). change (Qabs 2) with 2.
  set (d := Qabs (vr - vf)). assert (D : 0 <= d) by apply Qabs_nonneg. clearbody d.
  apply Qle_shift_div_l; [exact Pv|]. 
  assert (X : 2 * d * / (vf + top) * vf == d * (2 * vf / (vf + top))) by (field; lra). rewrite X.
  assert (Y : 2 * vf / (vf + top) <= 1) by (apply Qle_shift_div_r; lra).
  assert (Z : 0 <= 2 * vf / (vf + top)) by (apply Qle_shift_div_l; lra).
  generalize dependent (2 * vf / (vf + top)). intros w _ Y Z. nra.
Qed.

(** A solution compared with itself. *)
Theorem self_error full outs times : comparable full full outs times ->
  (exists m, get_error_max full full outs times = Ok (Fin m) /\ m == 0) /\ get_error_rms full full outs times = Ok (Some 0%R).
Proof.
  intros C. assert (Z : exists m, get_error_max full full outs times = Ok (Fin m) /\ m == 0).
  { destruct (overall_max_ok _ _ _ _ C) as (m & E & (o & Io & Eo) & _). exists m. split; [exact E|].
    apply (zero_error_iff _ _ _ _ o m C Io Eo). intros t It.
    destruct (covered_sampled full o t (proj1 C)) as (v & _ & S); [now apply C|]. now exists v. }
  split; [exact Z|]. destruct Z as (m & E & Z). destruct (overall_rms_ok _ _ _ _ C) as (vs & v & m' & _ & Ev & (P & _) & E' & L).
  rewrite E in E'. injection E' as <-. rewrite Ev. do 2 f_equal. rewrite (Qeq_eqR m 0 Z) in L. replace (Q2R 0) with 0%R in L by (unfold Q2R; cbn; Lra.lra). Lra.lra.
Qed.
