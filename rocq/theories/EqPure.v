(** The cached arrays never influence a result. *)
From Coq Require Import Reals Qreals.
From Verif Require Import Base BaseLemmas Morris Tables ExtReal Equations EqSpec.
Open Scope R_scope.

Lemma nth_tab {A} (d : A) n f i : (i < n)%nat -> nth i (tab n f) d = f i.
Proof.
  intros L. unfold tab. rewrite (nth_indep _ d (f 0%nat)) by (rewrite map_length, seq_length; exact L).
  rewrite map_nth, seq_nth by exact L. reflexivity.
Qed.

Lemma length_tab {A} n (f : nat -> A) : List.length (tab n f) = n.
Proof. unfold tab. rewrite map_length. apply seq_length. Qed.

Lemma tab_ext {A} n (f g : nat -> A) : (forall i, (i < n)%nat -> f i = g i) -> tab n f = tab n g.
Proof. intros H. apply map_ext_in. intros i I. apply in_seq in I. apply H. lia. Qed.

Lemma xat_tab n f i : (i < n)%nat -> xat (tab n f) i = f i.
Proof. apply nth_tab. Qed.

Lemma mat_tab {A} (d : A) n m f i k : (i < n)%nat -> (k < m)%nat -> mat d (tab n (fun i => tab m (f i))) i k = f i k.
Proof. intros L1 L2. unfold mat. rewrite nth_tab by exact L1. apply nth_tab. exact L2. Qed.

(** The parts of the caches written once. *)
Record good (s : static) (c : cache) : Prop := MkGood {
  g_k : forall j, (j < nr s)%nat -> elc s j = false -> xat (k_r c) j = heavy_coefficient s j;
  g_v : forall i, (i < ns s)%nat -> neutral s i = true -> xat (v_m c) i = neutral_speed s i;
  g_s : forall i k, (i < ns s)%nat -> (k < ns s)%nat -> i <> k -> (negb (neutral s i) && negb (neutral s k) = false)%bool ->
        mat XNaN (sigma_sc c) i k = X ((sigma s i + sigma s k) ^ 2);
  g_l : forall j, (j < nr s)%nat -> (elc s j && els s j = false)%bool -> xat (el_en_loss c) j = xat (map X (v_loss (s_view s))) j
}.

Lemma good_init s : good s (init_cache s).
Proof.
  constructor; cbn [init_cache k_r v_m sigma_sc el_en_loss].
  - intros j L E. rewrite xat_tab by exact L. rewrite E. reflexivity.
  - intros i L E. rewrite xat_tab by exact L. rewrite E. reflexivity.
  - intros i k L1 L2 N E. rewrite mat_tab by assumption. unfold initial_sigma.
    destruct (Nat.eqb_spec i k) as [Q|_]; [contradiction|]. rewrite E. reflexivity.
  - reflexivity.
Qed.

(** The result on a fresh object. *)
Definition value {A} (m : M A) (s : static) : A := snd (m (MkEq s (init_cache s))).

Definition stable {A} (m : M A) : Prop := forall s c, good s c ->
  exists c', m (MkEq s c) = (MkEq s c', value m s) /\ good s c'.

Lemma stable_ret {A} (a : A) : stable (ret_ a).
Proof. intros s c G. exists c. split; [reflexivity|exact G]. Qed.

Lemma stable_asks {A} (f : static -> A) : stable (asks f).
Proof. intros s c G. exists c. split; [reflexivity|exact G]. Qed.

Lemma value_bind {A B} (m : M A) (f : A -> M B) s : stable m -> (forall a, stable (f a)) ->
  value (bindM m f) s = value (f (value m s)) s.
Proof.
  intros S T. destruct (S s _ (good_init s)) as (c & E & G). unfold value at 1. unfold bindM. rewrite E.
  destruct (T (value m s) s c G) as (c' & E' & _). rewrite E'. reflexivity.
Qed.

Lemma stable_bind {A B} (m : M A) (f : A -> M B) : stable m -> (forall a, stable (f a)) -> stable (bindM m f).
Proof.
  intros S T s c G. rewrite (value_bind m f s S T). unfold bindM.
  destruct (S s c G) as (c1 & -> & G1). destruct (T (value m s) s c1 G1) as (c2 & -> & G2).
  exists c2. split; [reflexivity|exact G2].
Qed.

Lemma stable_opt {A} (a : option A) (m : M A) : stable m -> stable (optM a m).
Proof. intros S. destruct a; [apply stable_ret|exact S]. Qed.

(** The four methods that write. *)
Lemma coefs_stable y t : stable (get_reaction_rate_coefficients y t).
Proof.
  intros s c G. unfold value, get_reaction_rate_coefficients. cbn [st ca snd].
  eexists. split.
  - f_equal. apply tab_ext. intros j L. destruct (elc s j) eqn:E; [reflexivity|].
    rewrite (g_k s c G j L E), (g_k s _ (good_init s) j L E). reflexivity.
  - constructor; cbn [k_r v_m sigma_sc el_en_loss]; try apply G.
    intros j L E. rewrite xat_tab by exact L. rewrite E. apply G; assumption.
Qed.

Lemma speeds_stable y t : stable (get_mean_speeds y t).
Proof.
  intros s c G. unfold value, get_mean_speeds. cbn [st ca snd].
  eexists. split.
  - f_equal. apply tab_ext. intros i L. destruct (neutral s i) eqn:E; [|reflexivity].
    rewrite (g_v s c G i L E), (g_v s _ (good_init s) i L E). reflexivity.
  - constructor; cbn [k_r v_m sigma_sc el_en_loss]; try apply G.
    intros i L E. rewrite xat_tab by exact L. rewrite E. apply G; assumption.
Qed.

Lemma sigma_stable y v d : stable (get_sigma_sc y v d).
Proof.
  apply stable_bind; [apply stable_opt, speeds_stable|]. intros v' s c G. unfold value. cbn [st ca snd].
  eexists. split.
  - f_equal. apply tab_ext. intros i Li. apply tab_ext. intros k Lk.
    destruct (Nat.eqb_spec i k) as [_|N]; [reflexivity|].
    destruct (negb (neutral s i) && negb (neutral s k))%bool eqn:E; [reflexivity|].
    rewrite (g_s s c G i k Li Lk N E), (g_s s _ (good_init s) i k Li Lk N E). reflexivity.
  - constructor; cbn [k_r v_m sigma_sc el_en_loss]; try apply G.
    intros i k Li Lk N E. rewrite mat_tab by assumption.
    destruct (Nat.eqb_spec i k) as [Q|_]; [contradiction|]. rewrite E. apply G; assumption.
Qed.

Lemma losses_stable y t : stable (get_el_en_losses y t).
Proof.
  intros s c G. unfold value, get_el_en_losses. cbn [st ca snd].
  eexists. split.
  - f_equal. apply tab_ext. intros j L. destruct (elc s j && els s j)%bool eqn:E; [reflexivity|].
    rewrite (g_l s c G j L E), (g_l s _ (good_init s) j L E). reflexivity.
  - constructor; cbn [k_r v_m sigma_sc el_en_loss]; try apply G.
    intros j L E. rewrite xat_tab by exact L. rewrite E. apply G; assumption.
Qed.

Create HintDb stable.
#[global] Hint Resolve stable_ret stable_asks stable_opt coefs_stable speeds_stable sigma_stable losses_stable : stable.
#[global] Hint Extern 3 (stable (bindM _ _)) => (apply stable_bind; [|intro]) : stable.

Ltac st f := unfold f; auto 20 with stable.

Lemma rates_stable y a b c d : stable (get_reaction_rates y a b c d).
Proof. st get_reaction_rates. Qed.
#[global] Hint Resolve rates_stable : stable.
Lemma volume_stable y a : stable (get_volumetric_source_rates y a).
Proof. st get_volumetric_source_rates. Qed.
Lemma paths_stable y a b : stable (get_mean_free_paths y a b).
Proof. st get_mean_free_paths. Qed.
#[global] Hint Resolve volume_stable paths_stable : stable.
Lemma free_stable y a b : stable (get_free_diffusivities y a b).
Proof. st get_free_diffusivities. Qed.
#[global] Hint Resolve free_stable : stable.
Lemma ambipolar_stable y a b c d f : stable (get_ambipolar_diffusivity_pos y a b c d f).
Proof. st get_ambipolar_diffusivity_pos. Qed.
#[global] Hint Resolve ambipolar_stable : stable.
Lemma diff_stable y a b c : stable (get_diffusivities y a b c).
Proof. st get_diffusivities. Qed.
#[global] Hint Resolve diff_stable : stable.
Lemma fluxes_stable y a b c : stable (get_wall_fluxes y a b c).
Proof. st get_wall_fluxes. Qed.
#[global] Hint Resolve fluxes_stable : stable.
Lemma sinks_stable y a : stable (get_diffusion_sinks y a).
Proof. st get_diffusion_sinks. Qed.
#[global] Hint Resolve sinks_stable : stable.
Lemma sources_stable y a : stable (get_diffusion_sources y a).
Proof. st get_diffusion_sources. Qed.
#[global] Hint Resolve sources_stable : stable.
Lemma surface_stable y a b : stable (get_diffusion_source_rates y a b).
Proof. st get_diffusion_source_rates. Qed.
#[global] Hint Resolve surface_stable : stable.
Lemma dn_stable y a b c d : stable (get_dn_dt y a b c d).
Proof. st get_dn_dt. Qed.
Lemma el_inel_stable y a b : stable (get_drho_dt_el_inel y a b).
Proof. st get_drho_dt_el_inel. Qed.
Lemma gain_stable y a b : stable (get_drho_dt_gain_loss y a b).
Proof. st get_drho_dt_gain_loss. Qed.
Lemma el_walls_stable y a b : stable (get_drho_dt_el_walls y a b).
Proof. st get_drho_dt_el_walls. Qed.
Lemma ions_walls_stable y a b c : stable (get_drho_dt_ions_walls y a b c).
Proof. st get_drho_dt_ions_walls. Qed.
#[global] Hint Resolve dn_stable el_inel_stable gain_stable el_walls_stable ions_walls_stable : stable.

Lemma drho_stable t y x a b c d f : stable (get_drho_dt t y x a b c d f).
Proof.
  intros s h G. unfold value, get_drho_dt. cbn [st].
  destruct (match x with Some x => Ok x | None => get_drho_dt_ext s t None end) as [p|r].
  - match goal with |- exists c', ?m (MkEq s h) = _ /\ _ =>
      cut (stable m); [intros S; exact (S s h G)|] end.
    auto 20 with stable.
  - exists h. split; [reflexivity|exact G].
Qed.
#[global] Hint Resolve drho_stable : stable.

Lemma dy_stable t y a b : stable (get_dy_dt t y a b).
Proof.
  unfold get_dy_dt. apply stable_bind; [auto with stable|]. intros l. apply stable_bind; [|auto with stable].
  destruct b; auto with stable.
Qed.
#[global] Hint Resolve dy_stable : stable.

Lemma obj_stable t y : stable (obj_function t y).
Proof.
  intros s c G. unfold value, obj_function. cbv zeta. cbn [st].
  match goal with |- exists c', ?m (MkEq s c) = _ /\ _ =>
    cut (stable m); [intros S; exact (S s c G)|] end.
  repeat (apply stable_bind; [auto with stable|intro]).
  destruct (get_power_ext s t) as [q|x]; [|auto with stable].
  destruct (get_drho_dt_ext s t _) as [q'|x]; [|auto with stable].
  repeat (apply stable_bind; [auto with stable|intros ?]).
  match goal with |- stable match ?x with _ => _ end => destruct x end; auto with stable.
Qed.
#[global] Hint Resolve obj_stable : stable.

Lemma mapA_stable {A} (f : A -> answer) m : stable m -> stable (mapA f m).
Proof. unfold mapA. auto with stable. Qed.
#[global] Hint Resolve mapA_stable : stable.

Lemma perform_stable c : stable (perform c).
Proof. destruct c; cbn [perform]; auto with stable. Qed.

Lemma after_good calls : forall s c, good s c -> exists c', after calls (MkEq s c) = MkEq s c' /\ good s c'.
Proof.
  unfold after. induction calls as [|a l IH]; intros s c G; [exists c; split; [reflexivity|exact G]|].
  cbn [fold_left]. destruct (perform_stable a s c G) as (c1 & E & G1). rewrite E. cbn [fst]. apply IH. exact G1.
Qed.

Lemma init_fresh K model v p e : eq_init K model v p = Ok e -> e = MkEq (st e) (init_cache (st e)).
Proof.
  unfold eq_init. intros H.
  repeat match type of H with bind ?r _ = _ => destruct r; cbn [bind] in H; [|discriminate H] end.
  injection H as <-. reflexivity.
Qed.

Lemma neutral_fresh K model v p e : neutral_init K model v p = Ok e -> eq_init K model v p = Ok e.
Proof.
  unfold neutral_init. destruct (eq_init K model v p) as [e'|x]; cbn [bind]; [|discriminate].
  destruct (raise_if _ _); cbn [bind]; [|discriminate]. intros [= ->]. reflexivity.
Qed.

(** Every answer is that of a fresh object. *)
Lemma history_free K model v p e calls c : eq_init K model v p = Ok e ->
  snd (perform c (after calls e)) = snd (perform c e) /\ st (after calls e) = st e.
Proof.
  intros H. rewrite (init_fresh _ _ _ _ _ H). set (s := st e).
  destruct (after_good calls s _ (good_init s)) as (c1 & -> & G1).
  destruct (perform_stable c s c1 G1) as (c2 & -> & _). split; reflexivity.
Qed.

Lemma rhs_history_free K model v p e calls t y : eq_init K model v p = Ok e ->
  snd (obj_function t y (after calls e)) = snd (obj_function t y e).
Proof.
  intros H. rewrite (init_fresh _ _ _ _ _ H). set (s := st e).
  destruct (after_good calls s _ (good_init s)) as (c1 & -> & G1).
  destruct (obj_stable t y s c1 G1) as (c2 & -> & _). reflexivity.
Qed.
