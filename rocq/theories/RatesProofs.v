(** Reported process rates add up to the source terms. *)
From Coq Require Import Reals Qreals Lra Permutation Sorted.
From Verif Require Import Base BaseLemmas Species Reactions Chemistry ChemSpec ChemDisable ChemInv ChemHist ChemLoad ChemGetters
  MolSpec ExtReal Equations EqSpec EqPure EqDefaults EqReal EqWall EqMore Views ConserveSpec Conserve Rates.
Open Scope R_scope.

(** ** Sorting *)

Lemma put_perm x l : Permutation (put_desc x l) (x :: l).
Proof.
  induction l as [|y l IH]; [reflexivity|]. cbn [put_desc]. destruct (Rle_dec (snd y) (snd x)); [reflexivity|].
  rewrite IH. apply perm_swap.
Qed.
Lemma sort_perm l : Permutation (sort_desc l) l.
Proof. induction l as [|x l IH]; [reflexivity|]. change (sort_desc (x :: l)) with (put_desc x (sort_desc l)). rewrite put_perm, IH. reflexivity. Qed.

Definition descending (l : list (Z * R)) : Prop := StronglySorted (fun a b => snd b <= snd a) l.
Lemma put_sorted x l : descending l -> descending (put_desc x l).
Proof.
  unfold descending. induction 1 as [|y l S IH F]; [repeat constructor|]. cbn [put_desc].
  destruct (Rle_dec (snd y) (snd x)) as [Le|Gt].
  - constructor; [constructor; assumption|]. constructor; [exact Le|]. eapply Forall_impl; [|exact F]. cbn beta. intros; lra.
  - constructor; [exact IH|]. rewrite put_perm. constructor; [lra|exact F].
Qed.
Lemma sort_sorted l : descending (sort_desc l).
Proof. induction l as [|x l IH]; [constructor|]. apply put_sorted, IH. Qed.

Lemma rsum_perm l m : Permutation l m -> rsum l = rsum m.
Proof. unfold rsum. induction 1; cbn [fold_right]; lra. Qed.

(** ** Rows *)

Lemma row_get_In i row : forall x, NoDup (map fst row) -> In (Some i, x) row -> row_get i row = Ok x.
Proof.
  induction row as [|[[z|] v] row IH]; intros x N I; [destruct I| |]; cbn [map fst] in N; inversion N as [|? ? N1 N2]; subst; cbn [row_get].
  - destruct (Z.eqb_spec z i) as [->|Ne].
    + destruct I as [I|I]; [injection I as ->; reflexivity|]. exfalso. apply N1. apply (in_map fst) in I. exact I.
    + destruct I as [I|I]; [congruence|]. apply IH; assumption.
  - destruct I as [I|I]; [discriminate|]. apply IH; assumption.
Qed.

Lemma row_ids_iff i row : In i (row_ids row) <-> In (Some i) (map fst row).
Proof.
  unfold row_ids. rewrite in_flat_map, in_map_iff. split.
  - intros ([[z|] x] & I & J); cbn [fst] in J; [|destruct J]. destruct J as [<-|[]]. exists (Some z, x). auto.
  - intros ([o x] & Eq & I). cbn [fst] in Eq. subst o. exists (Some i, x). split; [exact I|]. left. reflexivity.
Qed.

Lemma same_setZ_iff l m : same_setZ l m = true <-> (forall i, In i l <-> In i m).
Proof.
  unfold same_setZ. rewrite Bool.andb_true_iff, !forallb_forall. setoid_rewrite memZ_In. split; [intros [A B] i; split; auto|].
  intros A. split; intros; apply A; assumption.
Qed.
Lemma same_setS_iff l m : same_setS l m = true <-> (forall i, In i l <-> In i m).
Proof.
  unfold same_setS. rewrite Bool.andb_true_iff, !subsetS_incl. unfold incl. split; [intros [A B] i; split; auto|].
  intros A. split; intros ? ?; apply A; assumption.
Qed.

(** ** Volumetric processes *)

(** Contributions of reactions with given net coefficients and rates. *)
Definition contributions (net : rx -> Z) (l : list rx) (xs : list R) : list (Z * R) :=
  flat_map (fun rx_x : rx * R => let (r, x) := rx_x in
    if (net r =? 0)%Z then [] else [(rx_id r, IZR (net r) * x)]) (combine l xs).

Section Volume.
  Variables (E : env) (c : chem) (a : ref) (s : sp) (row : rates_row) (rs : list R).
  Hypothesis RE : reachable E c.
  Hypothesis De : denotes c a s.
  Hypothesis En : c_en c (sp_id s) = true.
  Hypothesis Nr : NoDup (map fst row).
  Hypothesis Lb : forall i, In (Some i) (map fst row) <-> In i (map rx_id (get_reactions c false)).
  Hypothesis Rs : Forall2 (fun r x => In (Some (rx_id r), x) row) (get_reactions c false) rs.
  Let A := get_reactions c false.
  Let net (r : rx) : Z := (times s (rx_rhs r) - times s (rx_lhs r))%Z.

  Lemma s_live : In s (live c).
  Proof. destruct De as [Hs _]. apply live_iff. split; assumption. Qed.

  Lemma zget_col (f : Z -> Z) l i : In i l -> zget i (map (fun k => (k, f k)) l) = Some (f i).
  Proof.
    induction l as [|k l IH]; intros I; [destruct I|]. cbn [map]. unfold zget, aget. cbn [find fst].
    fold (zget i (map (fun k => (k, f k)) l)).
    destruct (Z.eqb_spec i k) as [->|Ne]; [reflexivity|]. destruct I as [->|I]; [congruence|]. exact (IH I).
  Qed.

  Lemma column_ok : mapM (fun r : Z * list (Z * Z) => match zget (sp_id s) (snd r) with
                                | Some n => Ok (fst r, n)
                                | None => Err EKey
                                end) (get_stoichiomatrix c false true Net) = Ok (map (fun r => (rx_id r, net r)) A).
  Proof.
    unfold get_stoichiomatrix. fold (live c). fold A. induction A as [|r l IH]; [reflexivity|]. cbn [map mapM fst snd].
    rewrite zget_col by (apply in_map, s_live). cbn [bind]. rewrite IH. cbn [bind]. rewrite stoich_times. reflexivity.
  Qed.

  Notation entries := (contributions net A rs).

  Lemma rates_ok : mapM (fun kv : Z * Z => let* x := row_get (fst kv) row in Ok (fst kv, IZR (snd kv) * x))
    (filter (fun kv => negb (snd kv =? 0)%Z) (map (fun r => (rx_id r, net r)) A)) = Ok entries.
  Proof.
    clear Lb. revert Rs. fold A. revert rs. induction A as [|r l IH]; intros xs F; inversion F; subst; [reflexivity|].
    unfold contributions. cbn [map filter combine flat_map snd]. destruct (net r =? 0)%Z; cbn [negb app]; [apply IH; assumption|].
    fold (contributions net l l').
    cbn [mapM fst snd]. rewrite (row_get_In _ _ _ Nr H1). cbn [bind]. rewrite (IH _ H3). reflexivity.
  Qed.

  Lemma volumetric_ok : get_volumetric_rates c a row = Ok (sort_desc entries).
  Proof.
    unfold get_volumetric_rates. pose proof (i_wf c (reachable_Inv E c RE)) as W.
    rewrite (proj2 (get_rp_denotes c a s W) De). cbn [bind].
    assert (S1 : same_setZ (map rx_id (get_reactions c false)) (row_ids row) = true).
    { apply same_setZ_iff. intros i. rewrite row_ids_iff, Lb. reflexivity. }
    rewrite S1. cbn [negb raise_if bind].
    assert (S2 : memZ (sp_id s) (map sp_id (get_species c false true true)) = true).
    { apply memZ_In, in_map, s_live. }
    rewrite S2. cbn [negb raise_if bind]. rewrite column_ok. cbn [bind]. rewrite rates_ok. reflexivity.
  Qed.

  Lemma entries_sum : rsum (map snd entries) = Sum (List.length rs) (fun j => IZR (net (nth j A no_rx)) * el rs j).
  Proof.
    clear Lb. revert Rs. fold A. revert rs. generalize A. intros l xs F.
    induction F as [|r x l xs HI F IH]; [reflexivity|].
    unfold contributions. cbn [combine flat_map List.length]. fold (contributions net l xs). rewrite map_app, rsum_app, IH.
    rewrite !Sum_rsum. cbn [seq map nth]. change (rsum ?a) with (rsum a).
    replace (rsum (map snd (if (net r =? 0)%Z then [] else [(rx_id r, IZR (net r) * x)]))) with (IZR (net r) * x).
    2:{ destruct (Z.eqb_spec (net r) 0) as [Q|_]; cbn [map snd rsum fold_right]; [rewrite Q|]; unfold rsum; cbn [fold_right]; ring. }
    rewrite <- seq_shift, map_map. unfold rsum at 2. cbn [fold_right]. reflexivity.
  Qed.

  Theorem volumetric_report : exists l, get_volumetric_rates c a row = Ok l /\ descending l /\ NoDup (map fst l) /\
    (forall i x, In (i, x) l <-> exists r z, In r A /\ rx_id r = i /\ In (Some i, z) row /\ net r <> 0%Z /\ x = IZR (net r) * z) /\
    rsum (map snd l) = Sum (List.length rs) (fun j => IZR (net (nth j A no_rx)) * el rs j).
  Proof.
    exists (sort_desc entries). split; [apply volumetric_ok|]. split; [apply sort_sorted|]. split; [|split].
    - apply (Permutation_NoDup (l := map fst entries)); [symmetry; apply Permutation_map, sort_perm|].
      pose proof (wf_rids c (i_wf c (reachable_Inv E c RE))) as ND.
      assert (NDA : NoDup (map rx_id A)) by (unfold A, get_reactions; apply NoDup_map_filter; exact ND).
      clear -NDA Rs. revert Rs NDA. fold A. revert rs. generalize A. intros l xs F.
      induction F as [|r x l xs HI F IH]; intros N; [constructor|]. cbn [map] in N. inversion N as [|? ? N1 N2]; subst.
      unfold contributions. cbn [combine flat_map]. fold (contributions net l xs). destruct (net r =? 0)%Z; [apply IH; exact N2|]. cbn [app map fst]. constructor; [|apply IH; exact N2].
      intros C. apply N1. apply in_map_iff in C. destruct C as ([i z] & <- & C). apply in_flat_map in C. destruct C as ([r' x'] & C & D).
      apply in_combine_l in C. destruct (net r' =? 0)%Z; [destruct D|]. destruct D as [D|[]]. injection D as <- _. cbn [fst]. apply in_map. exact C.
    - intros i x. assert (P : In (i, x) (sort_desc entries) <-> In (i, x) entries).
      { split; apply Permutation_in; [|symmetry]; apply sort_perm. }
      rewrite P. unfold contributions. rewrite in_flat_map. split.
      + intros ([r z] & C & D). destruct (Z.eqb_spec (net r) 0) as [|Ne]; [destruct D|]. destruct D as [D|[]]. injection D as <- <-.
        exists r, z. assert (Z1 : In (Some (rx_id r), z) row).
        { clear -C Rs. revert C. fold A in Rs. induction Rs as [|r0 x0 l0 xs0 HI F IH]; intros C; [destruct C|].
          destruct C as [C|C]; [injection C as -> ->; exact HI|]. exact (IH F C). }
        apply in_combine_l in C. auto.
      + intros (r & z & Ir & <- & Iz & Ne & ->). exists (r, z). split.
        * assert (F : forall l xs, Forall2 (fun r x => In (Some (rx_id r), x) row) l xs -> In r l -> In (r, z) (combine l xs)).
          { clear -Iz Nr. intros l xs F. induction F as [|r0 x0 l0 xs0 HI F IH]; intros Ir; [destruct Ir|]. destruct Ir as [->|Ir].
            - left. f_equal. pose proof (row_get_In _ _ _ Nr HI). pose proof (row_get_In _ _ _ Nr Iz). congruence.
            - right. exact (IH Ir). }
          exact (F _ _ Rs Ir).
        * destruct (Z.eqb_spec (net r) 0); [contradiction|]. left. reflexivity.
    - rewrite <- entries_sum. apply rsum_perm, Permutation_map, sort_perm.
  Qed.
End Volume.

(** A disabled species has no column. *)
Theorem volumetric_disabled E c a s row : reachable E c -> denotes c a s -> c_en c (sp_id s) = false ->
  (forall i, In (Some i) (map fst row) <-> In i (map rx_id (get_reactions c false))) ->
  get_volumetric_rates c a row = Err EKey.
Proof.
  intros RE De En Lb. unfold get_volumetric_rates. pose proof (i_wf c (reachable_Inv E c RE)) as W.
  rewrite (proj2 (get_rp_denotes c a s W) De). cbn [bind].
  assert (S1 : same_setZ (map rx_id (get_reactions c false)) (row_ids row) = true).
  { apply same_setZ_iff. intros i. rewrite row_ids_iff, Lb. reflexivity. }
  rewrite S1. cbn [negb raise_if bind].
  destruct (memZ (sp_id s) (map sp_id (get_species c false true true))) eqn:M; [|reflexivity].
  exfalso. apply memZ_In in M. apply in_map_iff in M. destruct M as (t & Eq & It). apply live_iff in It. destruct It as [_ It]. congruence.
Qed.

(** The sum is the source term of the equations. *)
Theorem volumetric_source E c objs v K model p e y a s k row rs ss :
  reachable E c -> view_of E objs c = Ok v -> eq_init K model v p = Ok e ->
  denotes c a s -> nth_error (get_species c false false true) k = Some s ->
  NoDup (map fst row) -> (forall i, In (Some i) (map fst row) <-> In i (map rx_id (get_reactions c false))) ->
  Forall2 (fun r x => In (Some (rx_id r), x) row) (get_reactions c false) rs ->
  answers e (CVolume y (Some (map X rs))) (AVec (map X ss)) ->
  exists l, get_volumetric_rates c a row = Ok l /\ fold_right Rplus 0 (map snd l) = el ss k.
Proof.
  intros RE VO IN De Nk Nr Lb Rs AN.
  assert (Hs : In s (heavy c)) by (eapply nth_error_In; exact Nk).
  assert (En : c_en c (sp_id s) = true).
  { rewrite heavy_live in Hs. apply filter_In in Hs. destruct Hs as [Hs _]. apply live_iff in Hs. tauto. }
  destruct (volumetric_report E c a s row rs RE De En Nr Lb Rs) as (l & G & _ & _ & _ & Sm). exists l. split; [exact G|].
  assert (LR : List.length rs = List.length (v_a v)).
  { destruct (view_inv E objs c v VO) as (_ & _ & _ & -> & _). clear -Rs. induction Rs; cbn; congruence. }
  assert (Lk : (k < List.length (heavy c))%nat) by (apply nth_error_Some; unfold heavy; rewrite Nk; discriminate).
  rewrite (ss_value K model E objs c v p e y rs ss VO IN LR AN k Lk).
  change (fold_right Rplus 0 (map snd l)) with (rsum (map snd l)). rewrite Sm.
  replace (nth k (heavy c) no_sp) with s; [reflexivity|]. symmetry. apply nth_error_nth. exact Nk.
Qed.

(** For electrons: the net production. *)
Theorem volumetric_electrons E c objs v a s row rs :
  reachable E c -> c_kind c = Plain -> view_of E objs c = Ok v -> denotes c a s -> sp_name s = "e"%string ->
  NoDup (map fst row) -> (forall i, In (Some i) (map fst row) <-> In i (map rx_id (get_reactions c false))) ->
  Forall2 (fun r x => In (Some (rx_id r), x) row) (get_reactions c false) rs ->
  exists l, get_volumetric_rates c a row = Ok l /\
    fold_right Rplus 0 (map snd l) = Sum (List.length rs) (fun j => IZR (nth j (v_e_net v) 0%Z) * el rs j).
Proof.
  intros RE Pl VO De Hn Nr Lb Rs.
  assert (En : c_en c (sp_id s) = true).
  { pose proof (i_charge c (reachable_Inv E c RE)) as Q. unfold charge_ok in Q. rewrite Pl in Q. destruct Q as ((e & He & Ne & On) & _).
    destruct De as [Hs _]. assert (e = s) by (apply (NoDup_map_inj sp_name (c_species c)); auto; [apply (wf_names c (i_wf c (reachable_Inv E c RE)))|congruence]).
    subst e. exact On. }
  destruct (volumetric_report E c a s row rs RE De En Nr Lb Rs) as (l & G & _ & _ & _ & Sm). exists l. split; [exact G|].
  change (fold_right Rplus 0 (map snd l)) with (rsum (map snd l)). rewrite Sm.
  destruct (view_inv E objs c v VO) as (_ & _ & _ & _ & (le & Ge & Ve) & _). rewrite Ve.
  destruct (electron_spec c false Net (reachable_Inv E c RE) Pl) as (e & l' & He & Ne & Ge' & Eq). rewrite Ge in Ge'. injection Ge' as <-. subst le.
  assert (e = s).
  { destruct De as [Hs _]. apply (NoDup_map_inj sp_name (c_species c)); auto; [apply (wf_names c (i_wf c (reachable_Inv E c RE)))|congruence]. }
  subst e. assert (Ls : List.length rs = List.length (get_reactions c false)) by (clear -Rs; induction Rs; cbn; congruence).
  apply Sum_ext. intros j Lj. rewrite Ls in Lj. f_equal. f_equal. unfold by_reaction. rewrite map_map. cbn [snd].
  rewrite (nth_indep _ 0%Z ((fun r => (times s (rx_rhs r) - times s (rx_lhs r))%Z) no_rx)) by (rewrite map_length; exact Lj).
  rewrite (map_nth (fun r => (times s (rx_rhs r) - times s (rx_lhs r))%Z)). reflexivity.
Qed.

(** ** Surface processes *)

Lemma filter_fst {A} (p : string -> bool) (l : list (string * A)) : filter p (map fst l) = map fst (filter (fun kv => p (fst kv)) l).
Proof. induction l as [|[k x] l IH]; [reflexivity|]. cbn [map fst filter]. destruct (p k); cbn [map fst]; rewrite IH; reflexivity. Qed.

Lemma map_fst_combine {A B} (l : list A) : forall (m : list B), List.length l = List.length m -> map fst (combine l m) = l.
Proof. induction l as [|a l IH]; intros [|b m] H; try discriminate; [reflexivity|]. cbn [combine map fst]. f_equal. apply IH. cbn in H. lia. Qed.
Lemma map_snd_combine {A B} (l : list A) : forall (m : list B), List.length l = List.length m -> map snd (combine l m) = m.
Proof. induction l as [|a l IH]; intros [|b m] H; try discriminate; [reflexivity|]. cbn [combine map snd]. f_equal. apply IH. cbn in H. lia. Qed.

Lemma rsum_nonzero (l : list (Z * R)) : rsum (map snd (filter (fun kv => nonzero (snd kv)) l)) = rsum (map snd l).
Proof.
  rewrite rsum_filter. apply rsum_map_ext. intros [i x] _. cbn [snd]. unfold nonzero. destruct (Req_EM_T x 0); [rewrite e|]; reflexivity.
Qed.

Section Surface.
  Variables (E : env) (c : chem) (objs : list rp) (v : view) (m : rmatrix) (a : ref) (s : sp) (k : nat)
            (row : flux_row) (ws : list R) (p : mparams).
  Hypothesis RE : reachable E c.
  Hypothesis VO : view_of E objs c = Ok v.
  Hypothesis De : denotes c a s.
  Hypothesis Nk : nth_error (get_species c false false true) k = Some s.
  Hypothesis GM : get_return_matrix c false = Ok m.
  Hypothesis MR : rm_rows m = map sp_id (get_species c false false true).
  Hypothesis MC : rm_cols m = map sp_id (get_species c false false true).
  Hypothesis LW : List.length ws = List.length (v_names v).
  Hypothesis FR : filter (fun kv => negb (String.eqb (fst kv) "t")) row = combine (v_names v) ws.

  Let H := heavy c.
  Let q := area_of p / volume_of p.

  Lemma names_H : v_names v = map sp_name H.
  Proof. destruct (view_inv E objs c v VO) as (-> & _). reflexivity. Qed.
  Lemma len_H : List.length ws = List.length H.
  Proof. rewrite LW, names_H. apply map_length. Qed.

  Lemma not_special : sp_special s = false.
  Proof.
    assert (Hs : In s (heavy c)) by (eapply nth_error_In; exact Nk). rewrite heavy_live in Hs. apply filter_In in Hs. destruct Hs as [_ Hs].
    destruct (sp_special s); [discriminate|reflexivity].
  Qed.

  Lemma ids_ok : mapM (fun kv : string * R => let* t := get_rp c (RName (fst kv)) in Ok (sp_id t)) (combine (v_names v) ws) = Ok (map sp_id H).
  Proof.
    rewrite names_H. pose proof len_H as L. assert (Sub : incl H (c_species c)).
    { intros t Ht. unfold H, heavy, get_species in Ht. apply filter_In in Ht. tauto. }
    revert L Sub. generalize H. clear LW FR. revert ws. intros xs hs. revert xs.
    induction hs as [|t hs IH]; intros [|x xs] L Sub; try discriminate; [reflexivity|].
    cbn [map combine mapM fst]. rewrite (proj2 (get_rp_denotes c (RName (sp_name t)) t (i_wf c (reachable_Inv E c RE)))).
    2:{ split; [apply Sub; left; reflexivity|reflexivity]. }
    cbn [bind]. rewrite IH; [reflexivity|cbn in L; lia|intros u Hu; apply Sub; right; exact Hu].
  Qed.

  (** Row of the return matrix. *)
  Lemma ret_row t j : (j < List.length H)%nat -> nth_error H j = Some t -> real (rm_get m (sp_id s) (sp_id t)) = Ok (returned v k j).
  Proof.
    intros Lj Nj. destruct (view_inv E objs c v VO) as (_ & _ & _ & _ & _ & (m' & GM' & Rw)). rewrite GM in GM'. injection GM' as <-.
    rewrite MR, MC in Rw. unfold returned, el.
    apply mapM_Ok_inv in Rw.
    assert (G : forall {A B} (f : A -> res B) l r, Forall2 (fun x y => f x = Ok y) l r -> forall i x d, nth_error l i = Some x -> f x = Ok (nth i r d)).
    { clear. intros A B f l r F. induction F as [|x0 y0 l r Fx F IH]; intros i x d Ni; [destruct i; discriminate|].
      destruct i as [|i]; [injection Ni as <-; exact Fx|]. apply IH. exact Ni. }
    assert (R1 := G _ _ _ _ _ Rw k (sp_id s) [] (map_nth_error sp_id _ _ Nk)). cbn beta in R1. apply mapM_Ok_inv in R1.
    exact (G _ _ _ _ _ R1 j (sp_id t) 0 (map_nth_error sp_id _ _ Nj)).
  Qed.

  Let entry (j : nat) : R := (if Nat.eqb j k then el ws j * area_of p / volume_of p else 0) + - (returned v k j * (el ws j * area_of p / volume_of p)).

  Lemma entries_ok : exists es,
    mapM (fun kv : Z * R => let* f := real (rm_get m (sp_id s) (fst kv)) in
          Ok (fst kv, (if (fst kv =? sp_id s)%Z then snd kv else 0) + - (f * snd kv)))
      (combine (map sp_id H) (map (fun kv : string * R => snd kv * area_of p / volume_of p) (combine (v_names v) ws))) = Ok es /\
    map fst es = map sp_id H /\ map snd es = map entry (seq 0 (List.length H)).
  Proof.
    rewrite <- (map_map snd (fun x => x * area_of p / volume_of p)), map_snd_combine by (symmetry; exact LW).
    assert (Gen : forall hs xs o, List.length xs = List.length hs ->
      (forall j t, nth_error hs j = Some t -> real (rm_get m (sp_id s) (sp_id t)) = Ok (returned v k (o + j)) /\ (sp_id t = sp_id s <-> (o + j)%nat = k)) ->
      (forall j, (j < List.length xs)%nat -> el xs j = el ws (o + j)) ->
      exists es, mapM (fun kv : Z * R => let* f := real (rm_get m (sp_id s) (fst kv)) in
          Ok (fst kv, (if (fst kv =? sp_id s)%Z then snd kv else 0) + - (f * snd kv)))
         (combine (map sp_id hs) (map (fun x => x * area_of p / volume_of p) xs)) = Ok es /\
       map fst es = map sp_id hs /\ map snd es = map entry (seq o (List.length hs))).
    { induction hs as [|t hs IH]; intros [|x xs] o L F G; try discriminate; [exists []; auto|].
      destruct (F 0%nat t eq_refl) as [F1 F2]. rewrite Nat.add_0_r in F1, F2.
      destruct (IH xs (S o)) as (es & M & E1 & E2); [cbn in L; lia| | |].
      - intros j u Nj. replace (S o + j)%nat with (o + S j)%nat by lia. apply F. exact Nj.
      - intros j Lj. replace (S o + j)%nat with (o + S j)%nat by lia. rewrite <- (G (S j)); [reflexivity|cbn; lia].
      - exists ((sp_id t, entry o) :: es). cbn [map combine mapM fst snd]. rewrite F1. cbn [bind]. rewrite M. cbn [bind List.length seq].
        split; [|split; cbn [map fst snd]; congruence].
        f_equal. f_equal. f_equal. unfold entry. pose proof (G 0%nat) as G0. rewrite Nat.add_0_r in G0. rewrite <- G0 by (cbn; lia).
        change (el (x :: xs) 0) with x. f_equal.
        destruct (Z.eqb_spec (sp_id t) (sp_id s)) as [Q|Q]; destruct (Nat.eqb_spec o k) as [W|W]; try reflexivity; exfalso; tauto. }
    apply (Gen H ws 0%nat len_H).
    - intros j t Nj. cbn [Nat.add]. assert (Lj : (j < List.length H)%nat) by (apply nth_error_Some; rewrite Nj; discriminate).
      split; [apply ret_row; assumption|]. split.
      + intros Q. pose proof (wf_ids c (i_wf c (reachable_Inv E c RE))) as N.
        assert (ND : NoDup (map sp_id H)) by (unfold H, heavy, get_species; apply NoDup_map_filter; exact N).
        apply (proj1 (NoDup_nth_error _) ND); [rewrite map_length; exact Lj|].
        rewrite (map_nth_error sp_id _ _ Nj). unfold H, heavy. rewrite (map_nth_error sp_id _ _ Nk). congruence.
      + intros ->. unfold H, heavy in Nj. congruence.
    - intros j _. reflexivity.
  Qed.

  Lemma surface_list : get_surface_rates c a (p_radius p) (p_length p) row =
    Ok (filter (fun kv => nonzero (snd kv)) (combine (map sp_id H) (map entry (seq 0 (List.length H))))).
  Proof.
    destruct entries_ok as (es & M & E1 & E2). pose proof (i_wf c (reachable_Inv E c RE)) as W.
    assert (Es : es = combine (map sp_id H) (map entry (seq 0 (List.length H)))).
    { rewrite <- E1, <- E2. clear. induction es as [|[i x] es IH]; [reflexivity|]. cbn [map fst snd combine]. congruence. }
    rewrite <- Es. clear Es.
    unfold get_surface_rates. rewrite (proj2 (get_rp_denotes c a s W) De). cbn [bind].
    assert (S1 : same_setS (map snd (get_species_name c false false true)) (filter (fun n => negb (String.eqb n "t")) (map fst row)) = true).
    { apply same_setS_iff. intros n. rewrite (filter_fst (fun n => negb (String.eqb n "t"))), FR, map_fst_combine by (symmetry; exact LW).
      rewrite names_H. unfold get_species_name, by_species. rewrite map_map. reflexivity. }
    rewrite S1. cbn [negb raise_if bind]. rewrite not_special, GM. cbn [bind]. rewrite FR, ids_ok. cbn [bind].
    rewrite MR, MC. fold (heavy c). fold H.
    assert (Q : listZ_eqb (map sp_id H) (map sp_id H) = true) by (apply listZ_eqb_eq; reflexivity).
    rewrite Q. cbn [andb negb raise_if bind].
    assert (Q2 : memZ (sp_id s) (map sp_id H) = true) by (apply memZ_In, in_map; eapply nth_error_In; exact Nk).
    rewrite Q2. cbn [negb raise_if bind].
    change (2 * PI * p_radius p * (p_radius p + p_length p)) with (area_of p). change (PI * p_radius p ^ 2 * p_length p) with (volume_of p).
    rewrite M. reflexivity.
  Qed.

  Lemma surface_ok : exists l, get_surface_rates c a (p_radius p) (p_length p) row = Ok l /\
    (forall i x, In (i, x) l <-> x <> 0 /\ exists j t, nth_error H j = Some t /\ sp_id t = i /\ x = entry j) /\
    rsum (map snd l) = (el ws k - Sum (List.length ws) (fun j => returned v k j * el ws j)) * area_of p / volume_of p.
  Proof.
    destruct entries_ok as (es & M & E1 & E2). exists (filter (fun kv => nonzero (snd kv)) es).
    pose proof (i_wf c (reachable_Inv E c RE)) as W. split; [|split].
    - rewrite surface_list. f_equal. f_equal. rewrite <- E1, <- E2. clear. induction es as [|[i x] es IH]; [reflexivity|]. cbn [map fst snd combine]. congruence.
    - intros i x. rewrite filter_In. cbn [snd].
      assert (J : In (i, x) es <-> exists j t, nth_error H j = Some t /\ sp_id t = i /\ x = entry j).
      { assert (Gen : forall hs o es, map fst es = map sp_id hs -> map snd es = map entry (seq o (List.length hs)) ->
          (In (i, x) es <-> exists j t, nth_error hs j = Some t /\ sp_id t = i /\ x = entry (o + j))).
        { clear. induction hs as [|t hs IH]; intros o [|[i0 x0] es] A B; try discriminate.
          - split; [intros []|]. intros ([|j] & t & C & _); discriminate.
          - cbn [map fst snd List.length seq] in A, B. injection A as -> A. injection B as -> B. specialize (IH (S o) es A B). split.
            + intros [C|C].
              * injection C as <- <-. exists 0%nat, t. rewrite Nat.add_0_r. auto.
              * apply IH in C. destruct C as (j & u & C1 & C2 & C3). exists (S j), u. replace (o + S j)%nat with (S o + j)%nat by lia. auto.
            + intros ([|j] & u & C1 & C2 & C3).
              * injection C1 as <-. left. rewrite Nat.add_0_r in C3. congruence.
              * right. apply IH. exists j, u. replace (S o + j)%nat with (o + S j)%nat by lia. auto. }
        exact (Gen H 0%nat es E1 E2). }
      rewrite J. unfold nonzero. destruct (Req_EM_T x 0); split; intros A; intuition discriminate.
    - rewrite rsum_nonzero, E2. unfold entry. rewrite rsum_plus.
      assert (Lk : (k < List.length H)%nat) by (apply nth_error_Some; unfold H, heavy; rewrite Nk; discriminate).
      assert (D : rsum (map (fun j => if Nat.eqb j k then el ws j * area_of p / volume_of p else 0) (seq 0 (List.length H))) = el ws k * area_of p / volume_of p).
      { assert (Gen : forall f n o, (o <= k < o + n)%nat -> rsum (map (fun j => if Nat.eqb j k then f j else 0) (seq o n)) = f k).
        { clear. intros f. induction n as [|n IH]; intros o Lo; [lia|]. cbn [seq map].
          change (rsum (?x :: ?l)) with (x + rsum l). destruct (Nat.eqb_spec o k) as [->|Ne].
          - rewrite (rsum_map_ext _ (fun _ => 0)); [rewrite rsum_zero; ring|]. intros j I. apply in_seq in I.
            destruct (Nat.eqb_spec j k); [lia|reflexivity].
          - rewrite IH by lia. ring. }
        apply (Gen (fun j => el ws j * area_of p / volume_of p)). lia. }
      rewrite D. rewrite (rsum_map_ext _ (fun j => (- (area_of p / volume_of p)) * (returned v k j * el ws j))).
      2:{ intros j _. unfold Rdiv. ring. }
      rewrite rsum_scal, len_H, Sum_rsum. unfold Rdiv. ring.
  Qed.
End Surface.

(** When the equations accept the arrays the return matrix has exactly the
    enabled ordinary species as rows and columns. *)
Lemma zset_keys {V} k (x : V) d : exists xs, map fst (zset k x d) = (map fst d ++ xs)%list.
Proof.
  induction d as [|[k' v'] d [xs IH]]; cbn [aset map fst]; [exists [k]; reflexivity|].
  destruct (Z.eqb_spec k k') as [->|]; [exists []; rewrite app_nil_r; reflexivity|]. exists xs. cbn [map fst app]. rewrite IH. reflexivity.
Qed.
Lemma fold_zset_keys {A V} (q : A -> bool) (g : A -> V) (key : A -> Z) l : forall d,
  exists xs, map fst (fold_left (fun acc kv => if q kv then zset (key kv) (g kv) acc else acc) l d) = (map fst d ++ xs)%list.
Proof.
  induction l as [|a l IH]; intros d; cbn [fold_left]; [exists []; rewrite app_nil_r; reflexivity|].
  destruct (q a); [|apply IH]. destruct (zset_keys (key a) (g a) d) as [x1 E1].
  destruct (IH (zset (key a) (g a) d)) as [x2 E2]. exists (x1 ++ x2)%list. rewrite E2, E1, app_assoc. reflexivity.
Qed.
Lemma fill_col_rows c j d : forall m m', rm_fill_col c j d m = Ok m' ->
  rm_cols m' = rm_cols m /\ exists xs, rm_rows m' = (rm_rows m ++ xs)%list.
Proof.
  induction d as [|[n f] d IH]; intros m m' F; cbn [rm_fill_col] in F.
  - injection F as <-. split; [reflexivity|]. exists []. rewrite app_nil_r. reflexivity.
  - destruct (get_rp c (RName n)) as [t|]; cbn [bind] in F; [|discriminate]. apply IH in F. destruct F as (C & xs & R).
    split; [rewrite C; reflexivity|]. rewrite R. cbn [rm_set rm_rows]. destruct (memZ (sp_id t) (rm_rows m)); [exists xs; reflexivity|].
    exists (sp_id t :: xs). rewrite <- app_assoc. reflexivity.
Qed.
Lemma fill_rows c l : forall m m', rm_fill c l m = Ok m' -> rm_cols m' = rm_cols m /\ exists xs, rm_rows m' = (rm_rows m ++ xs)%list.
Proof.
  induction l as [|[j [d|]] l IH]; intros m m' F; cbn [rm_fill] in F.
  - injection F as <-. split; [reflexivity|]. exists []. rewrite app_nil_r. reflexivity.
  - destruct (rm_fill_col c j d m) as [m1|] eqn:G; cbn [bind] in F; [|discriminate]. apply fill_col_rows in G. apply IH in F.
    destruct G as (C1 & x1 & R1), F as (C2 & x2 & R2). split; [congruence|]. exists (x1 ++ x2)%list. rewrite R2, R1, app_assoc. reflexivity.
  - apply IH in F. exact F.
Qed.
Lemma square c m : get_return_matrix c false = Ok m -> List.length (rm_rows m) = List.length (get_species c false false true) ->
  rm_rows m = map sp_id (get_species c false false true) /\ rm_cols m = map sp_id (get_species c false false true).
Proof.
  unfold get_return_matrix. cbv zeta. intros F L. apply fill_rows in F. cbn [rm_rows rm_cols] in F. destruct F as (C & xs & R).
  assert (K : exists ys, map fst (get_species_ret_coefs c false false true) = (map sp_id (get_species c false false true) ++ ys)%list).
  { destruct (ret_coefs_form c false false true) as (g & _ & ->). rewrite map_snd_keys.
    destruct (fold_zset_keys (fun kv : Z * scalar => eq_zero (snd kv)) (fun _ => Some []) fst (by_species (eff_stick c) c false false true)
      (fold_left (fun acc (kv : Z * list (string * flt)) => zset (fst kv) (Some (snd kv)) acc) (c_ret c)
          (by_species sp_ret c false false true))) as [y1 E1].
    destruct (fold_zset_keys (fun _ : Z * list (string * flt) => true) (fun kv => Some (snd kv)) fst (c_ret c) (by_species sp_ret c false false true)) as [y2 E2].
    exists (y2 ++ y1)%list. rewrite E1, E2, (proj1 (by_species_rows _ _ _ _ _)), app_assoc. reflexivity. }
  destruct K as [ys K]. rewrite K in R, C. rewrite R, !app_length, map_length in L.
  destruct ys; [|cbn in L; lia]. destruct xs; [|cbn in L; lia]. rewrite !app_nil_r in *. auto.
Qed.

Theorem surface_source E c objs v K model p e y a s k row ws ss :
  reachable E c -> view_of E objs c = Ok v -> proper_params p -> eq_init K model v p = Ok e ->
  denotes c a s -> nth_error (get_species c false false true) k = Some s ->
  answers e (CFluxes y None None None) (AVec (map X ws)) -> List.length ws = List.length (v_names v) ->
  filter (fun kv => negb (String.eqb (fst kv) "t")) row = combine (v_names v) ws ->
  answers e (CSurface y None None) (AVec (map X ss)) ->
  exists l, get_surface_rates c a (p_radius p) (p_length p) row = Ok l /\ fold_right Rplus 0 (map snd l) = el ss k.
Proof.
  intros RE VO PP IN De Nk AF LW FR AS.
  destruct (view_inv E objs c v VO) as (Vn & _ & _ & _ & _ & (m & GM & Rw)).
  assert (Sq : rm_rows m = map sp_id (get_species c false false true) /\ rm_cols m = map sp_id (get_species c false false true)).
  { apply square; [exact GM|]. apply mapM_length in Rw.
    pose proof (h_ret _ (shapes_iff _ (b_shapes _ _ _ _ _ (init_built K model v p e IN)))) as HR. rewrite Vn, map_length in HR. unfold heavy in HR. congruence. }
  destruct Sq as [MR MC].
  destruct (surface_ok E c objs v m a s k row ws p RE VO De Nk GM MR MC LW FR) as (l & G & _ & Sm). exists l. split; [exact G|].
  change (fold_right Rplus 0 (map snd l)) with (rsum (map snd l)). rewrite Sm.
  destruct (surface_exact K model v p e y ws PP IN LW AF) as (ss' & Ls & As & F). unfold answers in AS, As. rewrite As in AS.
  injection AS as AS. apply map_X_inj in AS. subst ss'. symmetry. apply F. rewrite LW.
  rewrite Vn, map_length. apply nth_error_Some. unfold heavy. rewrite Nk. discriminate.
Qed.

(** Special species have no surface processes. *)
Theorem surface_special E c a s radius len row : reachable E c -> denotes c a s -> In (sp_name s) ["e"; "M"]%string ->
  (forall n, In n (map sp_name (get_species c false false true)) <-> In n (map fst row) /\ n <> "t"%string) ->
  get_surface_rates c a radius len row = Ok [].
Proof.
  intros RE De Sp Lb. unfold get_surface_rates. rewrite (proj2 (get_rp_denotes c a s (i_wf c (reachable_Inv E c RE))) De). cbn [bind].
  assert (S1 : same_setS (map snd (get_species_name c false false true)) (filter (fun n => negb (String.eqb n "t")) (map fst row)) = true).
  { apply same_setS_iff. intros n. unfold get_species_name, by_species. rewrite map_map, filter_In. cbn [snd].
    rewrite (Lb n). destruct (String.eqb_spec n "t"); cbn [negb]; intuition congruence. }
  rewrite S1. cbn [negb raise_if bind]. assert (Q : sp_special s = true) by (unfold sp_special; apply memS_In; exact Sp).
  rewrite Q. reflexivity.
Qed.

(** Nor does a disabled ordinary species have a row. *)
Theorem surface_disabled E c objs v K model p e a s row ws :
  reachable E c -> view_of E objs c = Ok v -> eq_init K model v p = Ok e ->
  denotes c a s -> c_en c (sp_id s) = false -> ~ In (sp_name s) ["e"; "M"]%string ->
  List.length ws = List.length (v_names v) ->
  filter (fun kv => negb (String.eqb (fst kv) "t")) row = combine (v_names v) ws ->
  get_surface_rates c a (p_radius p) (p_length p) row = Err EKey.
Proof.
  intros RE VO IN De En Sp LW FR.
  destruct (view_inv E objs c v VO) as (Vn & _ & _ & _ & _ & (m & GM & Rw)).
  assert (Sq : rm_rows m = map sp_id (get_species c false false true) /\ rm_cols m = map sp_id (get_species c false false true)).
  { apply square; [exact GM|]. apply mapM_length in Rw.
    pose proof (h_ret _ (shapes_iff _ (b_shapes _ _ _ _ _ (init_built K model v p e IN)))) as HR. rewrite Vn, map_length in HR. unfold heavy in HR. congruence. }
  destruct Sq as [MR MC].
  pose proof (i_wf c (reachable_Inv E c RE)) as W.
  unfold get_surface_rates. rewrite (proj2 (get_rp_denotes c a s W) De). cbn [bind].
  assert (S1 : same_setS (map snd (get_species_name c false false true)) (filter (fun n => negb (String.eqb n "t")) (map fst row)) = true).
  { apply same_setS_iff. intros n. rewrite (filter_fst (fun n => negb (String.eqb n "t"))), FR, map_fst_combine by (symmetry; exact LW).
    rewrite Vn. unfold get_species_name, by_species, heavy. rewrite map_map. reflexivity. }
  rewrite S1. cbn [negb raise_if bind].
  assert (Q : sp_special s = false). { destruct (sp_special s) eqn:Q; [|reflexivity]. exfalso. apply Sp. unfold sp_special in Q. apply memS_In in Q. exact Q. }
  rewrite Q, GM. cbn [bind]. rewrite FR, (ids_ok E c objs v ws RE VO LW). cbn [bind]. rewrite MR, MC. unfold heavy.
  assert (Q1 : listZ_eqb (map sp_id (get_species c false false true)) (map sp_id (get_species c false false true)) = true) by (apply listZ_eqb_eq; reflexivity).
  rewrite Q1. cbn [andb negb raise_if bind].
  destruct (memZ (sp_id s) (map sp_id (get_species c false false true))) eqn:M; [|reflexivity].
  exfalso. apply memZ_In, in_map_iff in M. destruct M as (t & Eq & It). apply selected_iff in It. destruct It as (_ & It & _). 
  destruct It; congruence.
Qed.

Theorem volumetric_entries E c a s row rs :
  reachable E c -> denotes c a s -> c_en c (sp_id s) = true -> NoDup (map fst row) ->
  (forall i, In (Some i) (map fst row) <-> In i (map rx_id (get_reactions c false))) ->
  Forall2 (fun r x => In (Some (rx_id r), x) row) (get_reactions c false) rs ->
  exists l, get_volumetric_rates c a row = Ok l /\ StronglySorted (fun x y => snd y <= snd x) l /\ NoDup (map fst l) /\
    forall i x, In (i, x) l <->
      exists r z, In r (get_reactions c false) /\ rx_id r = i /\ In (Some i, z) row /\
        (times s (rx_rhs r) - times s (rx_lhs r))%Z <> 0%Z /\ x = IZR (times s (rx_rhs r) - times s (rx_lhs r)) * z.
Proof.
  intros RE De En Nr Lb Rs. destruct (volumetric_report E c a s row rs RE De En Nr Lb Rs) as (l & G & A & B & C & _).
  exists l. split; [exact G|]. split; [exact A|]. split; [exact B|exact C].
Qed.
