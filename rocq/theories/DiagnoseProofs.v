(** Proofs about Diagnose.v. *)
From Coq Require Import Reals Qreals Lra.
From Verif Require Import Base BaseLemmas Chemistry Morris MorrisStats InitialGuess Tables ExtReal Equations Neutral Solution EqSpec EqPure EqReal Diagnose DiagnoseSpec.
Open Scope R_scope.

Lemma dlabel_eqb_spec a b : dlabel_eqb a b = true <-> a = b.
Proof.
  destruct a as [s|x], b as [t|y]; cbn [dlabel_eqb].
  - rewrite String.eqb_eq. split; [intros ->; reflexivity|intros [= ->]; reflexivity].
  - split; discriminate.
  - split; discriminate.
  - rewrite Z.eqb_eq. split; [intros ->; reflexivity|intros [= ->]; reflexivity].
Qed.

(** ** One row *)

Lemma aset_absent (k : dlabel) (x : ext) r : ~ In k (map fst r) -> aset dlabel_eqb k x r = (r ++ [(k, x)])%list.
Proof.
  induction r as [|[a y] r IH]; intros N; [reflexivity|]. cbn [aset app].
  destruct (dlabel_eqb k a) eqn:B.
  - apply dlabel_eqb_spec in B. subst a. exfalso. apply N. left. reflexivity.
  - rewrite IH; [reflexivity|]. intros I. apply N. right. exact I.
Qed.

Lemma pick_all (r : list (dlabel * ext)) : forall full, NoDup (map fst full) -> (forall p, In p r -> In p full) ->
  mapM (fun c => match aget dlabel_eqb c full with Some x => Ok (c, x) | None => Err EKey end) (map fst r) = Ok r.
Proof.
  induction r as [|[a x] r IH]; intros full N S; [reflexivity|]. cbn [map mapM fst].
  rewrite (In_aget dlabel_eqb dlabel_eqb_spec a full x N) by (apply S; left; reflexivity).
  cbn [bind]. rewrite IH; [reflexivity|exact N|]. intros p I. apply S. right. exact I.
Qed.

Lemma finish_plain (t : ext) (r : list (dlabel * ext)) : NoDup (map fst r) -> ~ In (LText "t") (map fst r) ->
  mapM (fun c => match aget dlabel_eqb c (r ++ [(LText "t", t)])%list with Some x => Ok (c, x) | None => Err EKey end)
       (LText "t" :: removelast (map fst (r ++ [(LText "t", t)])))%list = Ok ((LText "t"%string, t) :: r).
Proof.
  intros N T. rewrite map_app. cbn [map fst]. rewrite removelast_last.
  assert (ND : NoDup (map fst (r ++ [(LText "t"%string, t)])%list)).
  { rewrite map_app. cbn [map fst]. apply NoDup_Add with (a := LText "t"%string) (l := map fst r).
    - rewrite <- (app_nil_r (map fst r)) at 1. apply Add_app.
    - split; assumption. }
  change (LText "t" :: map fst r)%list with (map fst ((LText "t"%string, t) :: r)).
  apply pick_all; [exact ND|]. intros p [<-|I]; apply in_or_app; [right; left; reflexivity|left; exact I].
Qed.

Lemma finish_spec totals t r : NoDup (map fst r) -> ~ In (LText "t") (map fst r) -> ~ In (LText "total") (map fst r) ->
  finish_row totals t r = Ok ((LText "t"%string, t) :: r ++ (if totals then [(LText "total"%string, row_total r)] else []))%list.
Proof.
  intros N T O. unfold finish_row. destruct totals.
  - rewrite (aset_absent (LText "total")) by exact O.
    set (r1 := (r ++ [(LText "total"%string, row_total r)])%list).
    assert (N1 : NoDup (map fst r1)).
    { unfold r1. rewrite map_app. cbn [map fst]. apply NoDup_Add with (a := LText "total"%string) (l := map fst r).
      - rewrite <- (app_nil_r (map fst r)) at 1. apply Add_app.
      - split; assumption. }
    assert (T1 : ~ In (LText "t") (map fst r1)).
    { unfold r1. rewrite map_app. intros I. apply in_app_or in I. destruct I as [I|[I|[]]]; [exact (T I)|discriminate I]. }
    rewrite (aset_absent (LText "t") t r1) by exact T1. apply finish_plain; assumption.
  - rewrite (aset_absent (LText "t") t r) by exact T. rewrite app_nil_r. apply finish_plain; assumption.
Qed.

Lemma fst_combine {A B} : forall (a : list A) (b : list B), List.length a = List.length b -> map fst (combine a b) = a.
Proof. induction a as [|x a IH]; intros [|y b] L; cbn in *; try congruence; try discriminate. f_equal. apply IH. lia. Qed.
Lemma snd_combine {A B} : forall (a : list A) (b : list B), List.length a = List.length b -> map snd (combine a b) = b.
Proof. induction a as [|x a IH]; intros [|y b] L; cbn in *; try congruence; try discriminate. f_equal. apply IH. lia. Qed.

Lemma real_numbers rs : filter xnumber (map X rs) = map X rs.
Proof. induction rs as [|x rs IH]; [reflexivity|]. cbn. rewrite IH. reflexivity. Qed.

(** ** The values *)

Definition conv (a : answer) : option dvalue :=
  match a with ANum x => Some (DNum x) | AVec l => Some (DVec l) | _ => None end.

Section Values.
  Variable power_at : static -> ext -> ext.

  Lemma vec_value (m : M (list ext)) e :
    vec_ m e = (fst (mapA AVec m e), Ok (DVec (snd (m e)))) /\ snd (mapA AVec m e) = AVec (snd (m e)).
  Proof. unfold vec_, mapA, bindM, ret_. destruct (m e) as [e' l]. split; reflexivity. Qed.
  Lemma num_value (m : M ext) e :
    num_ m e = (fst (mapA ANum m e), Ok (DNum (snd (m e)))) /\ snd (mapA ANum m e) = ANum (snd (m e)).
  Proof. unfold num_, mapA, bindM, ret_. destruct (m e) as [e' l]. split; reflexivity. Qed.

  (** A quantity of the list is evaluated by its call. *)
  Lemma evaluate_call q sh c y e : In (q, sh, c) quantities ->
    exists v, evaluate power_at q y e = (fst (perform (c y) e), Ok v) /\ conv (snd (perform (c y) e)) = Some v /\
      (forall x, v <> DPlain x).
  Proof.
    intros I. unfold quantities in I. cbn [In] in I.
    repeat (destruct I as [I|I]; [injection I as <- <- <-|]); try contradiction;
      unfold evaluate; cbn [methods aget String.eqb Ascii.eqb Bool.eqb perform];
      first
        [ match goal with |- context [vec_ ?m e] =>
            eexists; split; [rewrite (proj1 (vec_value m e)); reflexivity|split; [reflexivity|intros x E; discriminate E]] end
        | match goal with |- context [num_ ?m e] =>
            eexists; split; [rewrite (proj1 (num_value m e)); reflexivity|split; [reflexivity|intros x E; discriminate E]] end
        | eexists; split; [reflexivity|split; [reflexivity|intros x E; discriminate E]]
        | idtac ].
  Qed.

  (** How many numbers there are. *)
  Definition size (s : static) (sh : shape) : nat :=
    match sh with PerSpecies => ns s | PerReaction => nr s | OneNumber => 1%nat end.

  Lemma perform_st c s h : good s h -> st (fst (perform c (MkEq s h))) = s.
  Proof. intros G. destruct (perform_stable c s h G) as (h' & -> & _). reflexivity. Qed.

  Lemma sized_vec (m : M (list ext)) s n : stable m -> List.length (value m s) = n ->
    exists l, numbers (value (mapA AVec m) s) l /\ List.length l = n.
  Proof.
    intros S L. exists (value m s). split; [|exact L]. left. unfold mapA. rewrite value_bind; [reflexivity|exact S|].
    intros a. apply stable_ret.
  Qed.

  Lemma sized_num (m : M ext) s : stable m -> exists l, numbers (value (mapA ANum m) s) l /\ List.length l = 1%nat.
  Proof.
    intros S. exists [value m s]. split; [|reflexivity]. right. exists (value m s). split; [|reflexivity].
    unfold mapA. rewrite value_bind; [reflexivity|exact S|]. intros a. apply stable_ret.
  Qed.
  Lemma sized_asks f s : exists l, numbers (value (asks (fun s => ANum (f s))) s) l /\ List.length l = 1%nat.
  Proof. exists [f s]. split; [|reflexivity]. right. exists (f s). split; reflexivity. Qed.
  Lemma sized_ret x s : exists l, numbers (value (ret_ (ANum x)) s) l /\ List.length l = 1%nat.
  Proof. exists [x]. split; [|reflexivity]. right. exists x. split; reflexivity. Qed.
  Lemma sized_asks_vec f s n : List.length (f s) = n -> exists l, numbers (value (asks (fun s => AVec (f s))) s) l /\ List.length l = n.
  Proof. intros L. exists (f s). split; [|exact L]. left. reflexivity. Qed.
  Lemma sized_ret_vec x s n : List.length x = n -> exists l, numbers (value (ret_ (AVec x)) s) l /\ List.length l = n.
  Proof. intros L. exists x. split; [|exact L]. left. reflexivity. Qed.

  Lemma len_coefs y t s : List.length (value (get_reaction_rate_coefficients y t) s) = nr s.
  Proof. unfold value, get_reaction_rate_coefficients. cbn [snd st]. apply length_tab. Qed.
  Lemma len_speeds y t s : List.length (value (get_mean_speeds y t) s) = ns s.
  Proof. unfold value, get_mean_speeds. cbn [snd st]. apply length_tab. Qed.
  Lemma len_losses y t s : List.length (value (get_el_en_losses y t) s) = nr s.
  Proof. unfold value, get_el_en_losses. cbn [snd st]. apply length_tab. Qed.
  Lemma len_asks f s n : List.length (f s) = n -> List.length (@value (list ext) (asks f) s) = n.
  Proof. intros L. exact L. Qed.

  Lemma value_size q sh c y s : In (q, sh, c) quantities -> List.length y = S (ns s) ->
    exists l, numbers (value (perform (c y)) s) l /\ List.length l = size s sh.
  Proof.
    intros I L. unfold quantities in I. cbn [In] in I.
    repeat (destruct I as [I|I]; [injection I as <- <- <-|]); try contradiction; cbn [perform size].
    all: lazymatch goal with
         | |- exists l, numbers (value (mapA ANum ?m) _) l /\ _ => apply sized_num; auto with stable
         | |- exists l, numbers (value (mapA AVec ?m) _) l /\ _ => apply sized_vec; [auto with stable|]
         | |- exists l, numbers (value (asks (fun _ => ANum _)) _) l /\ _ => apply sized_asks
         | |- exists l, numbers (value (asks (fun s => AVec (@?f s))) ?t) l /\ _ => apply (sized_asks_vec f t)
         | |- exists l, numbers (value (ret_ (ANum ?x)) ?t) l /\ _ => apply (sized_ret x t)
         | |- exists l, numbers (value (ret_ (AVec ?x)) ?t) l /\ _ => apply (sized_ret_vec x t)
         end.
    all: lazymatch goal with
         | |- List.length (value (get_reaction_rate_coefficients _ _) _) = _ => apply len_coefs
         | |- List.length (value (get_mean_speeds _ _) _) = _ => apply len_speeds
         | |- List.length (value (get_el_en_losses _ _) _) = _ => apply len_losses
         | |- _ => idtac
         end.
    all: try (unfold get_reaction_rates, get_volumetric_source_rates, get_mean_free_paths, get_free_diffusivities, get_diffusivities,
           get_wall_fluxes, get_diffusion_sinks, get_diffusion_sources, get_diffusion_source_rates, get_dn_dt;
         repeat (rewrite value_bind; [|auto 20 with stable|intros; auto 20 with stable]);
         lazymatch goal with |- List.length (value (asks ?f) _) = _ => apply (len_asks f) end; intros; apply length_tab).
    all: try (unfold get_flow_source_rates, get_min_n_correction; apply length_tab).
    - unfold get_density_vector. destruct y as [|x y] using rev_ind; [discriminate L|]. rewrite removelast_last.
      rewrite app_length in L. cbn [List.length] in L. lia.
  Qed.

  Lemma evaluations_spec q sh c s : In (q, sh, c) quantities -> forall ys h, good s h ->
    Forall (fun y => List.length y = S (ns s)) ys ->
    exists h' vs m, evaluations power_at q ys (MkEq s h) = (MkEq s h', Ok vs) /\ good s h' /\ mapM cells vs = Ok m /\
      Forall2 (fun y l => numbers (value (perform (c y)) s) l /\ List.length l = size s sh) ys m.
  Proof.
    intros I. induction ys as [|y ys IH]; intros h G F.
    - exists h, [], []. split; [reflexivity|]. split; [exact G|]. split; [reflexivity|constructor].
    - inversion F as [|? ? L F']; subst.
      destruct (evaluate_call q sh c y (MkEq s h) I) as (v & E & C & P).
      destruct (perform_stable (c y) s h G) as (h1 & E1 & G1). rewrite E1 in E, C. cbn [fst snd] in E, C.
      destruct (IH h1 G1 F') as (h2 & vs & m & E2 & G2 & M2 & F2).
      destruct (value_size q sh c y s I L) as (l & N & Ll).
      assert (CL : cells v = Ok l /\ forall x, v <> DPlain x).
      { split; [|exact P]. destruct N as [N|(x & N & ->)]; rewrite N in C; cbn [conv] in C; injection C as <-; reflexivity. }
      destruct CL as [CL _].
      exists h2, (v :: vs), (l :: m). split; [|split; [exact G2|split]].
      + cbn [evaluations]. unfold bindM at 1. rewrite E.
        destruct v as [x|x|w|w]; [|exfalso; exact (P x eq_refl)| |];
          unfold bindM, ret_; rewrite E2; reflexivity.
      + cbn [mapM]. rewrite CL. cbn [bind]. rewrite M2. reflexivity.
      + constructor; [split; assumption|exact F2].
  Qed.

  (** The labels. *)
  Lemma labels_right s names ids sh : List.length names = ns s -> List.length ids = nr s ->
    match sh with PerSpecies => True | PerReaction => nr s <> ns s | OneNumber => (2 <= ns s)%nat /\ nr s <> 1%nat end ->
    dlabels s names ids (size s sh) = columns sh names ids /\ List.length (columns sh names ids) = size s sh.
  Proof.
    unfold dlabels. change (s_ns s) with (ns s). change (s_nr s) with (nr s). intros Ln Li D. destruct sh; cbn [size columns].
    - rewrite Nat.eqb_refl. split; [reflexivity|rewrite map_length; exact Ln].
    - rewrite (proj2 (Nat.eqb_neq _ _) D), Nat.eqb_refl. split; [reflexivity|rewrite map_length; exact Li].
    - destruct D as [D1 D2]. rewrite (proj2 (Nat.eqb_neq 1 (ns s))) by lia.
      rewrite (proj2 (Nat.eqb_neq 1 (nr s))) by lia. rewrite (proj2 (Nat.eqb_neq 1 (ns s + 1))) by lia. split; reflexivity.
  Qed.

  Lemma columns_own sh names ids : own_names names -> NoDup ids ->
    NoDup (columns sh names ids) /\ ~ In (LText "t") (columns sh names ids) /\ ~ In (LText "total") (columns sh names ids).
  Proof.
    intros (N & T & O) Ni. destruct sh; cbn [columns].
    - split; [apply FinFun.Injective_map_NoDup; [intros a b [= ->]; reflexivity|exact N]|].
      split; intros H; apply in_map_iff in H; destruct H as (x & [= ->] & H); [exact (T H)|exact (O H)].
    - split; [apply FinFun.Injective_map_NoDup; [intros a b [= ->]; reflexivity|exact Ni]|].
      split; intros H; apply in_map_iff in H; destruct H as (x & H & _); discriminate H.
    - split; [repeat constructor; intros []|]. split; intros [H|[]]; discriminate H.
  Qed.
End Values.

Lemma finish_rows e c cols totals s sh : NoDup cols -> ~ In (LText "t") cols -> ~ In (LText "total") cols ->
  List.length cols = size s sh ->
  (forall y a, value (perform (c y)) s = a -> answers e (c y) a) ->
  forall sol m, Forall2 (fun y l => numbers (value (perform (c y)) s) l /\ List.length l = size s sh) (map snd sol) m ->
  exists rows, mapM (fun tr => finish_row totals (fst tr) (combine cols (snd tr))) (combine (map fst sol) m) = Ok rows /\
    Forall2 (row_of e c cols totals) sol rows.
Proof.
  intros N T O Lc A. induction sol as [|[t y] sol IH]; intros m F; cbn [map] in F.
  - inversion F; subst. exists []. split; [reflexivity|constructor].
  - inversion F as [|? l ? m' [Nu Ll] F']; subst. destruct (IH m' F') as (rows & E & R).
    cbn [map combine mapM fst snd].
    assert (LL : List.length cols = List.length l) by congruence.
    rewrite (finish_spec totals t (combine cols l)) by (rewrite fst_combine by exact LL; assumption).
    cbn [bind]. rewrite E. cbn [bind]. eexists. split; [reflexivity|]. constructor; [|exact R].
    exists (value (perform (c y)) s), l, (if totals then [(LText "total"%string, row_total (combine cols l))] else []).
    cbn [fst snd]. split; [apply A; reflexivity|]. split; [exact Nu|]. split; [congruence|]. split; [reflexivity|].
    split; intros ->; [reflexivity|]. eexists. split; [reflexivity|]. intros rs ->. unfold row_total.
    rewrite snd_combine by exact LL. rewrite real_numbers. apply xsum_real.
Qed.

(** The facts about a new object. *)
Lemma init_sizes K model v p e : eq_init K model v p = Ok e ->
  e = MkEq (st e) (init_cache (st e)) /\ ns (st e) = List.length (v_names v) /\ nr (st e) = List.length (v_a v).
Proof.
  intros H. split; [exact (init_fresh K model v p e H)|]. revert H. unfold eq_init. intros H.
  repeat match type of H with bind ?r _ = _ => destruct r; cbn [bind] in H; [|discriminate H] end.
  injection H as <-. split; reflexivity.
Qed.

Lemma forall2_len {A B} (P : A -> B -> Prop) l m : Forall2 P l m -> List.length m = List.length l.
Proof. induction 1; cbn; congruence. Qed.

Section Main.
  Variables (power_at : static -> ext -> ext) (K : constants) (model : dmodel) (v : view) (p : mparams) (e : equations).
  Variables (calls : list call) (ids : list Z) (q : string) (sh : shape) (c : list ext -> call) (totals : bool).

  Lemma diagnose_rows sol given b :
    eq_init K model v p = Ok e -> In (q, sh, c) quantities ->
    bk_eq b = after calls e ->
    List.length ids = List.length (v_a v) -> NoDup ids -> own_names (v_names v) -> distinguishable v sh ->
    Forall (fun ty => List.length (snd ty) = S (List.length (v_names v))) sol -> sol <> [] ->
    (bk_primary b = Some sol /\ given = None) \/
    (given = Some (map snd sol) /\ match bk_primary b with Some s => map fst s = map fst sol | None => Forall (fun ty => fst ty = XNaN) sol end) ->
    exists b' rows, diagnose power_at (v_names v) ids q given totals b = (b', Ok rows) /\
      Forall2 (row_of e c (columns sh (v_names v) ids) totals) sol rows /\
      bk_success b' = bk_success b /\ bk_primary b' = bk_primary b /\ bk_secondary b' = bk_secondary b /\
      forall k, snd (perform k (bk_eq b')) = snd (perform k e).
  Proof.
    intros H I B Li Ni Ow D F NE W. destruct (init_sizes K model v p e H) as (Fr & Sn & Sr). set (s := st e) in *.
    destruct (after_good calls s _ (good_init s)) as (h & EA & G). rewrite <- Fr in EA.
    assert (F' : Forall (fun y => List.length y = S (ns s)) (map snd sol)).
    { rewrite Sn. rewrite Forall_map. exact F. }
    destruct (evaluations_spec power_at q sh c s I (map snd sol) h G F') as (h' & vs & m & E & G' & M & F2).
    destruct (labels_right s (v_names v) ids sh) as [LB LC].
    { congruence. } { congruence. } { unfold distinguishable in D. rewrite Sn, Sr. exact D. }
    destruct (columns_own sh (v_names v) ids Ow Ni) as (N1 & N2 & N3).
    assert (A : forall y a, value (perform (c y)) s = a -> answers e (c y) a).
    { intros y a <-. unfold answers. rewrite Fr. reflexivity. }
    destruct (finish_rows e c (columns sh (v_names v) ids) totals s sh N1 N2 N3 LC A sol m F2) as (rows & ER & R).
    assert (Lm : List.length m = List.length sol).
    { rewrite (forall2_len _ _ _ F2). apply map_length. }
    assert (WD : match m with [] => O | l :: _ => List.length l end = size s sh).
    { inversion F2 as [Q1 Q2|? ? ? ? [_ LL] ? Q1 Q2]; [|exact LL]. destruct sol; [contradiction|discriminate Q1]. }
    exists (MkBackend (MkEq s h') (bk_success b) (bk_primary b) (bk_secondary b)), rows.
    split; [|split; [exact R|split; [reflexivity|split; [reflexivity|split; [reflexivity|]]]]].
    - assert (GY : match given with Some l => Some l | None => option_map (map snd) (bk_primary b) end = Some (map snd sol)).
      { destruct W as [[-> ->]|[-> _]]; reflexivity. }
      unfold diagnose. rewrite GY, B, EA, E. f_equal. cbn [bind]. rewrite M. cbn [bind st]. rewrite WD, LB, LC.
      rewrite Nat.eqb_refl. cbn [negb raise_if bind].
      assert (TS : match bk_primary b with Some s => map fst s | None => map (fun _ => XNaN) m end = map fst sol).
      { destruct W as [[-> _]|[_ W]]; [reflexivity|]. destruct (bk_primary b); [exact W|].
        clear - W Lm. revert m Lm. induction W as [|[t y] sol Q W IH]; intros [|l m] L; try discriminate L; [reflexivity|].
        cbn [map fst] in *. subst t. f_equal. apply IH. injection L as L. exact L. }
      rewrite TS. rewrite map_length, Lm, Nat.eqb_refl. cbn [negb raise_if bind]. exact ER.
    - intros k. cbn [bk_eq]. destruct (perform_stable k s h' G') as (x & -> & _). rewrite Fr. reflexivity.
  Qed.

  (** States of another number than the times of the run. *)
  Lemma diagnose_length ys ts b :
    eq_init K model v p = Ok e -> In (q, sh, c) quantities ->
    bk_eq b = after calls e ->
    List.length ids = List.length (v_a v) -> distinguishable v sh ->
    Forall (fun y => List.length y = S (List.length (v_names v))) ys -> ys <> [] ->
    bk_primary b = Some ts -> List.length ts <> List.length ys ->
    snd (diagnose power_at (v_names v) ids q (Some ys) totals b) = Err EValue.
  Proof.
    intros H I B Li D F NE S L. destruct (init_sizes K model v p e H) as (Fr & Sn & Sr). set (s := st e) in *.
    destruct (after_good calls s _ (good_init s)) as (h & EA & G). rewrite <- Fr in EA.
    assert (F' : Forall (fun y => List.length y = Datatypes.S (ns s)) ys) by (rewrite Sn; exact F).
    destruct (evaluations_spec power_at q sh c s I ys h G F') as (h' & vs & m & E & G' & M & F2).
    destruct (labels_right s (v_names v) ids sh) as [LB LC].
    { congruence. } { congruence. } { unfold distinguishable in D. rewrite Sn, Sr. exact D. }
    pose proof (forall2_len _ _ _ F2) as Lm.
    assert (WD : match m with [] => O | l :: _ => List.length l end = size s sh).
    { inversion F2 as [Q1 Q2|? ? ? ? [_ LL] ? Q1 Q2]; [|exact LL]. subst ys. contradiction. }
    unfold diagnose. rewrite B, EA, E. cbn [snd bind]. rewrite M. cbn [bind st]. rewrite WD, LB, LC, Nat.eqb_refl.
    cbn [negb raise_if bind]. rewrite S, map_length, Lm. rewrite (proj2 (Nat.eqb_neq _ _) L). reflexivity.
  Qed.
End Main.
