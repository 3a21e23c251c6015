(** Arithmetic of finite numbers and sums. *)
From Coq Require Import Reals Qreals Lra.
From Verif Require Import Base BaseLemmas Morris Tables ExtReal Equations EqSpec EqPure EqDefaults.
Open Scope R_scope.

(** ** Sums *)

Definition rsum (l : list R) : R := fold_right Rplus 0 l.

Lemma xsum_from l : forall a, fold_left xadd (map X l) (X a) = X (a + rsum l).
Proof.
  induction l as [|b l IH]; intros a; cbn [map fold_left rsum fold_right]; [f_equal; ring|].
  cbn [xadd]. rewrite IH. f_equal. unfold rsum. ring.
Qed.
Lemma xsum_real l : xsum (map X l) = X (rsum l).
Proof. unfold xsum. rewrite xsum_from. f_equal. ring. Qed.

Lemma rsum_app a b : rsum (a ++ b)%list = rsum a + rsum b.
Proof. unfold rsum. induction a as [|x a IH]; cbn [app fold_right]; [ring|]. rewrite IH. ring. Qed.

Lemma xsum_nan l : In XNaN l -> xsum l = XNaN.
Proof.
  unfold xsum. generalize (X 0). induction l as [|a l IH]; intros x I; [destruct I|]. cbn [fold_left].
  destruct I as [->|I]; [|apply IH; exact I].
  clear IH. replace (xadd x XNaN) with XNaN by (destruct x; reflexivity).
  induction l as [|b l IH]; [reflexivity|]. cbn [fold_left]. replace (xadd XNaN b) with XNaN by (destruct b; reflexivity). exact IH.
Qed.

Lemma xprod_from l : forall a, fold_left xmul (map X l) (X a) = X (a * fold_right Rmult 1 l).
Proof.
  induction l as [|b l IH]; intros a; cbn [map fold_left fold_right]; [f_equal; ring|].
  cbn [xmul]. rewrite IH. f_equal. ring.
Qed.
Lemma xprod_real l : xprod (map X l) = X (fold_right Rmult 1 l).
Proof. unfold xprod. rewrite xprod_from. f_equal. ring. Qed.

Lemma Sum_rsum k f : Sum k f = rsum (map f (seq 0 k)).
Proof. reflexivity. Qed.

Lemma rsum_map_ext {A} (f g : A -> R) l : (forall x, In x l -> f x = g x) -> rsum (map f l) = rsum (map g l).
Proof. intros H. f_equal. apply map_ext_in. exact H. Qed.

Lemma Sum_ext k f g : (forall i, (i < k)%nat -> f i = g i) -> Sum k f = Sum k g.
Proof. intros H. apply rsum_map_ext. intros i I. apply in_seq in I. apply H. lia. Qed.

Lemma rsum_plus {A} (f g : A -> R) l : rsum (map (fun i => f i + g i) l) = rsum (map f l) + rsum (map g l).
Proof. unfold rsum in *. induction l as [|a l IH]; cbn [map fold_right]; [ring|]. rewrite IH. ring. Qed.
Lemma rsum_scal {A} (f : A -> R) c l : rsum (map (fun i => c * f i) l) = c * rsum (map f l).
Proof. unfold rsum in *. induction l as [|a l IH]; cbn [map fold_right]; [ring|]. rewrite IH. ring. Qed.
Lemma rsum_zero {A} (l : list A) : rsum (map (fun _ => 0) l) = 0.
Proof. unfold rsum in *. induction l as [|a l IH]; cbn [map fold_right]; [ring|]. rewrite IH. ring. Qed.

Lemma Sum_plus k f g : Sum k (fun i => f i + g i) = Sum k f + Sum k g.
Proof. apply rsum_plus. Qed.
Lemma Sum_scal k c f : Sum k (fun i => c * f i) = c * Sum k f.
Proof. apply rsum_scal. Qed.
Lemma Sum_zero k : Sum k (fun _ => 0) = 0.
Proof. apply rsum_zero. Qed.

Lemma rsum_swap {A B} (f : A -> B -> R) l m :
  rsum (map (fun a => rsum (map (f a) m)) l) = rsum (map (fun b => rsum (map (fun a => f a b) l)) m).
Proof.
  induction l as [|a l IH]; cbn [map].
  - cbn. symmetry. apply rsum_zero.
  - change (rsum (rsum (map (f a) m) :: map (fun a => rsum (map (f a) m)) l)) with (rsum (map (f a) m) + rsum (map (fun a => rsum (map (f a) m)) l)).
    rewrite IH, <- rsum_plus. apply rsum_map_ext. intros b _. reflexivity.
Qed.
Lemma Sum_swap k m f : Sum k (fun i => Sum m (f i)) = Sum m (fun j => Sum k (fun i => f i j)).
Proof. apply rsum_swap. Qed.

Lemma rsum_nonneg l : Forall (fun x => 0 <= x) l -> 0 <= rsum l.
Proof. unfold rsum. induction 1 as [|a l H F IH]; cbn [fold_right]; lra. Qed.
Lemma Sum_nonneg k f : (forall i, (i < k)%nat -> 0 <= f i) -> 0 <= Sum k f.
Proof.
  intros H. apply rsum_nonneg. apply Forall_forall. intros x I. apply in_map_iff in I. destruct I as (i & <- & I).
  apply in_seq in I. apply H. lia.
Qed.

(** A sum over the indices with a property. *)
Lemma rsum_filter {A} (p : A -> bool) f l : rsum (map f (filter p l)) = rsum (map (fun i => if p i then f i else 0) l).
Proof.
  induction l as [|a l IH]; [reflexivity|]. cbn [filter]. destruct (p a) eqn:E; cbn [map]; unfold rsum in *; cbn [fold_right]; rewrite IH, E; ring.
Qed.

(** ** Vectors *)

Lemma at_map l i : (i < List.length l)%nat -> xat (map X l) i = X (el l i).
Proof.
  intros L. unfold xat, el. rewrite (nth_indep _ XNaN (X 0)) by (rewrite map_length; exact L). apply map_nth.
Qed.
Lemma tab_real k f : tab k (fun i => X (f i)) = map X (tab k f).
Proof. unfold tab. rewrite map_map. reflexivity. Qed.
Lemma xsum_tab k f : xsum (tab k (fun i => X (f i))) = X (Sum k f).
Proof. rewrite tab_real, xsum_real. reflexivity. Qed.
Lemma el_tab k f i : (i < k)%nat -> el (tab k f) i = f i.
Proof. apply nth_tab. Qed.

Lemma state_density n rho : get_density_vector (state n rho) = map X n.
Proof. unfold get_density_vector, state. apply removelast_last. Qed.
Lemma state_rho n rho : get_electron_energy_density (state n rho) = X rho.
Proof. unfold get_electron_energy_density, state. apply last_last. Qed.

Lemma rsum_Sum l : rsum l = Sum (List.length l) (el l).
Proof.
  unfold Sum, rsum. f_equal. induction l as [|a l IH]; [reflexivity|]. cbn [List.length seq map].
  rewrite <- seq_shift, map_map. change (a :: l = a :: map (el l) (seq 0 (List.length l))). f_equal. exact IH.
Qed.

Lemma Forall_el (P : R -> Prop) l i : Forall P l -> (i < List.length l)%nat -> P (el l i).
Proof. intros F L. rewrite Forall_forall in F. apply F. apply nth_In. exact L. Qed.

(** ** Finite arithmetic *)

Lemma xdiv_real a b : b <> 0 -> xdiv (X a) (X b) = X (a / b).
Proof. intros N. cbn. destruct (Req_EM_T b 0); [contradiction|reflexivity]. Qed.
Lemma xsqrt_real a : 0 <= a -> xsqrt (X a) = X (sqrt a).
Proof. intros N. cbn. destruct (Rlt_dec a 0); [lra|reflexivity]. Qed.
Lemma Rsgn_pos a : 0 < a -> Rsgn a = Gt.
Proof. intros H. unfold Rsgn. destruct (Rlt_dec a 0); [lra|]. destruct (Rlt_dec 0 a); [reflexivity|lra]. Qed.
Lemma Rsgn_neg a : a < 0 -> Rsgn a = Lt.
Proof. intros H. unfold Rsgn. destruct (Rlt_dec a 0); [reflexivity|lra]. Qed.
Lemma Rsgn_zero : Rsgn 0 = Eq.
Proof. unfold Rsgn. destruct (Rlt_dec 0 0); [lra|]. reflexivity. Qed.
Lemma xdiv_zero : xdiv (X 0) (X 0) = XNaN.
Proof. cbn. destruct (Req_EM_T 0 0); [|lra]. rewrite Rsgn_zero. reflexivity. Qed.
Lemma xlog_real a : 0 < a -> xlog (X a) = X (ln a).
Proof. intros H. cbn. rewrite Rsgn_pos by exact H. reflexivity. Qed.
Lemma xltb_real a b : xltb (X a) (X b) = true <-> a < b.
Proof. cbn. destruct (Rlt_dec a b); split; [tauto|reflexivity|discriminate|contradiction]. Qed.
Lemma xltb_real_false a b : xltb (X a) (X b) = false <-> b <= a.
Proof. cbn. destruct (Rlt_dec a b); split; try discriminate; try reflexivity; lra. Qed.
Lemma xpow_pos a b : 0 < a -> xpow (X a) b = X (Rpower a b).
Proof.
  intros H. unfold xpow. destruct (Rsgn b) eqn:E.
  - unfold Rsgn in E. destruct (Rlt_dec b 0); [discriminate|]. destruct (Rlt_dec 0 b); [discriminate|].
    assert (b = 0) by lra. subst. rewrite Rpower_O by exact H. reflexivity.
  - rewrite Rsgn_pos by exact H. reflexivity.
  - rewrite Rsgn_pos by exact H. reflexivity.
Qed.
Lemma Rpower_pos a b : 0 < Rpower a b.
Proof. apply exp_pos. Qed.
Lemma xpown_real a k : xpown (X a) k = X (a ^ k).
Proof. destruct k; reflexivity. Qed.

(** ** What the constructor leaves *)

Record built (K : constants) (model : dmodel) (v : view) (p : mparams) (s : static) : Prop := MkBuilt {
  b_view : s_view s = v; b_par : s_par s = p; b_const : s_const s = K; b_model : s_model s = model;
  b_ns : s_ns s = List.length (v_names v); b_nr : s_nr s = List.length (v_a v);
  b_mass : s_mass s = map (fun m => m * c_amu K) (v_mass v);
  b_feed : s_feed s = map (fun n => match sget n (p_feeds p) with Some f => f | None => 0 end) (v_names v);
  b_shapes : shapes_ok v = true;
  b_feeds : subsetS (map fst (p_feeds p)) (v_names v) = true;
  b_partner : mapM (partner_mass v (s_mass s)) (seq 0 (List.length (v_a v))) = Ok (s_partner s)
}.

Lemma init_built K model v p e : eq_init K model v p = Ok e -> built K model v p (st e).
Proof.
  unfold eq_init. intros H.
  destruct (shapes_ok v) eqn:Sh; cbn [negb raise_if bind] in H; [|discriminate H].
  repeat (match type of H with bind (raise_if ?x _) _ = _ => destruct x; cbn [raise_if bind] in H; [discriminate H|] end).
  match type of H with bind ?r _ = _ => destruct r; cbn [bind] in H; [|discriminate H] end.
  destruct (mapM _ _) as [ps|] eqn:M; cbn [bind] in H; [|discriminate H].
  destruct (subsetS _ _) eqn:F; cbn [negb raise_if bind] in H; [|discriminate H].
  injection H as <-. constructor; try reflexivity; assumption.
Qed.

Record shaped (v : view) : Prop := MkShaped {
  h_charge : List.length (v_charge v) = List.length (v_names v);
  h_mass : List.length (v_mass v) = List.length (v_names v);
  h_stick : List.length (v_stick v) = List.length (v_names v);
  h_sigma : List.length (v_sigma v) = List.length (v_names v);
  h_ret : List.length (v_ret v) = List.length (v_names v);
  h_b : List.length (v_b v) = List.length (v_a v);
  h_c : List.length (v_c v) = List.length (v_a v);
  h_loss : List.length (v_loss v) = List.length (v_a v);
  h_elastic : List.length (v_elastic v) = List.length (v_a v);
  h_e_lhs : List.length (v_e_lhs v) = List.length (v_a v);
  h_e_net : List.length (v_e_net v) = List.length (v_a v);
  h_m_lhs : List.length (v_m_lhs v) = List.length (v_a v);
  h_net : List.length (v_net v) = List.length (v_a v);
  h_lhs : List.length (v_lhs v) = List.length (v_a v);
  h_net_rows : Forall (fun r => List.length r = List.length (v_names v)) (v_net v);
  h_lhs_rows : Forall (fun r => List.length r = List.length (v_names v)) (v_lhs v);
  h_ret_rows : Forall (fun r => List.length r = List.length (v_names v)) (v_ret v)
}.

Lemma rows_ok {A} n (m : list (list A)) : forallb (fun r => Nat.eqb n (List.length r)) m = true -> Forall (fun r => List.length r = n) m.
Proof.
  intros H. rewrite forallb_forall in H. apply Forall_forall. intros r I. symmetry. apply Nat.eqb_eq. apply H. exact I.
Qed.

Lemma shapes_iff v : shapes_ok v = true -> shaped v.
Proof.
  unfold shapes_ok. cbv zeta. cbn [forallb]. rewrite !Bool.andb_true_iff, !Nat.eqb_eq. intros H.
  constructor; try (symmetry; tauto); apply rows_ok; tauto.
Qed.

(** Answers of a fresh object are values. *)
Lemma fresh_value {A} (m : M A) K model v p e : eq_init K model v p = Ok e -> snd (m e) = value m (st e).
Proof. intros H. rewrite (init_fresh _ _ _ _ _ H) at 1. reflexivity. Qed.

Lemma mapA_answer {A} (f : A -> answer) (m : M A) e : snd (mapA f m e) = f (snd (m e)).
Proof. unfold mapA, bindM. destruct (m e). reflexivity. Qed.
