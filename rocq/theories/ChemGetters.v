(** What the getters of a chemistry return (C12-C17), and check_coherence
    (C11). *)
From Verif Require Import Base BaseLemmas Species Reactions Chemistry ChemSpec ChemDisable ChemInv ChemHist ChemLoad.
From Coq Require Import ZifyBool.

(** ** Specification *)

(** The sticking coefficient in force: the ad-hoc value if there is one that
    is not NaN/None, the species' own value otherwise. *)
Definition eff_stick (c : chem) (s : sp) : scalar :=
  match zget (sp_id s) (c_stick c) with
  | Some v => if notna v then v else scalar_of_opt (sp_stick s)
  | None => scalar_of_opt (sp_stick s)
  end.

(** The return coefficients in force. *)
Definition eff_ret (c : chem) (s : sp) : option (list (string * flt)) :=
  if eq_zero (eff_stick c s) then Some []
  else match zget (sp_id s) (c_ret c) with Some d => Some d | None => sp_ret s end.

(** ... without the return species that are disabled (no filtering as long
    as nothing is disabled). *)
Definition shown_ret (c : chem) (s : sp) : option (list (string * flt)) :=
  match eff_ret c s with
  | None => None
  | Some d => Some (if any_disabled c then filter (fun nf => memS (fst nf) (name_pool c)) d else d)
  end.

(** How often [s] occurs on a side of a reaction. *)
Definition times (s : sp) (side : list sp) : Z :=
  Z.of_nat (List.length (filter (fun t => sp_id t =? sp_id s) side)).

(** [l] is obtained from [m] by leaving out elements. *)
Inductive subseq {A} : list A -> list A -> Prop :=
| sub_nil : subseq [] []
| sub_take x l m : subseq l m -> subseq (x :: l) (x :: m)
| sub_skip x l m : subseq l m -> subseq l (x :: m).

Lemma filter_subseq {A} (p : A -> bool) l : subseq (filter p l) l.
Proof. induction l as [|x l IH]; cbn; [constructor|]. destruct (p x); now constructor. Qed.

(** ** Rows *)
Lemma selected_iff c d sp pr s :
  In s (get_species c d sp pr) <->
  In s (c_species c) /\ (d = true \/ c_en c (sp_id s) = true) /\
  (sp = true \/ ~ In (sp_name s) ["e"; "M"]) /\ (pr = true \/ ~ protected c s).
Proof.
  unfold get_species. rewrite filter_In. unfold sp_mask. rewrite !andb_true_iff, !orb_true_iff, !negb_true_iff.
  assert (A : sp_special s = false <-> ~ In (sp_name s) ["e"; "M"]).
  { unfold sp_special. apply memS_false. }
  rewrite A. unfold protected.
  destruct (c_prot c (sp_id s)), (c_adprot c (sp_id s)); cbn; intuition congruence.
Qed.

Lemma by_species_rows {A} (f : sp -> A) c d s p :
  map fst (by_species f c d s p) = map sp_id (get_species c d s p) /\
  map snd (by_species f c d s p) = map f (get_species c d s p).
Proof. unfold by_species. rewrite !map_map. split; reflexivity. Qed.

Lemma stick_rows c d s p : map fst (get_species_stick_coef c d s p) = map sp_id (get_species c d s p).
Proof.
  unfold get_species_stick_coef, series_update, by_species. rewrite !map_map.
  apply map_ext. intros x. cbn. destruct (zget (sp_id x) (c_stick c)) as [v|]; [destruct (notna v)|]; reflexivity.
Qed.

Lemma stick_values c d s p :
  get_species_stick_coef c d s p = by_species (eff_stick c) c d s p.
Proof.
  unfold get_species_stick_coef, series_update, by_species. rewrite !map_map.
  apply map_ext. intros x. unfold eff_stick. cbn.
  destruct (zget (sp_id x) (c_stick c)) as [v|]; [destruct (notna v)|]; reflexivity.
Qed.

Lemma by_species_get {A} (f : sp -> A) c d sp pr s :
  wf c -> In s (get_species c d sp pr) -> zget (sp_id s) (by_species f c d sp pr) = Some (f s).
Proof.
  intros W H. apply (In_aget Z.eqb Zeqb_spec).
  - change (NoDup (map fst (by_species f c d sp pr))). rewrite (proj1 (by_species_rows f c d sp pr)).
    unfold get_species. apply NoDup_map_filter, W.
  - unfold by_species. apply in_map_iff. now exists s.
Qed.

Lemma by_species_none {A} (f : sp -> A) c d sp pr i :
  ~ In i (map sp_id (get_species c d sp pr)) -> zget i (by_species f c d sp pr) = None.
Proof.
  intros H. apply (aget_None Z.eqb Zeqb_spec). unfold akeys.
  now rewrite (proj1 (by_species_rows f c d sp pr)).
Qed.

Lemma map_snd_get {V W} (g : V -> W) (l : list (Z * V)) k :
  zget k (map (fun kv => (fst kv, g (snd kv))) l) = option_map g (zget k l).
Proof. induction l as [|[a b] l IH]; cbn; [reflexivity|]. destruct (k =? a); [reflexivity|exact IH]. Qed.

Lemma map_snd_keys {V W} (g : V -> W) (l : list (Z * V)) :
  map fst (map (fun kv => (fst kv, g (snd kv))) l) = map fst l.
Proof. rewrite map_map. reflexivity. Qed.

(** Writing a list of labelled values into a series. *)
Section Write.
  Context {V W : Type} (p : V -> bool) (g : V -> W).
  Let wr acc (kv : Z * V) := if p (snd kv) then zset (fst kv) (g (snd kv)) acc else acc.

  Lemma write_get l : forall base k,
    NoDup (map fst l) ->
    zget k (fold_left wr l base) =
    match zget k l with Some v => if p v then Some (g v) else zget k base | None => zget k base end.
  Proof using.
    induction l as [|[a v] l IH]; cbn [fold_left aget map]; intros base k ND; [reflexivity|].
    inversion ND as [|? ? Hni ND']; subst. cbn [fst] in *. rewrite IH by exact ND'. unfold wr. cbn [fst snd].
    destruct (Z.eqb_spec k a) as [->|Hne].
    - assert (zget a l = None) as -> by (apply (aget_None Z.eqb Zeqb_spec); exact Hni).
      destruct (p v); [|reflexivity]. now rewrite (aget_aset_same Z.eqb Zeqb_spec).
    - destruct (p v); [|reflexivity]. now rewrite (aget_aset_other Z.eqb Zeqb_spec).
  Qed.

  Lemma write_keys l : forall base,
    (forall kv, In kv l -> p (snd kv) = true -> In (fst kv) (map fst base)) ->
    map fst (fold_left wr l base) = map fst base.
  Proof using.
    induction l as [|kv l IH]; cbn [fold_left]; intros base H; [reflexivity|].
    assert (X : map fst (wr base kv) = map fst base).
    { unfold wr. destruct (p (snd kv)) eqn:E; [|reflexivity].
      apply (akeys_aset_in Z.eqb Zeqb_spec). apply H; [now left|exact E]. }
    rewrite IH; [exact X|]. intros kv' Hin Hp. rewrite X. apply H; auto. now right.
  Qed.

  Lemma write_keys_iff l : forall base k,
    In k (map fst (fold_left wr l base)) <->
    In k (map fst base) \/ exists v, In (k, v) l /\ p v = true.
  Proof using.
    induction l as [|[a v] l IH]; cbn [fold_left]; intros base k.
    - cbn. split; [auto|]. intros [H|(v & [] & _)]. exact H.
    - rewrite IH. unfold wr at 1. cbn [fst snd]. destruct (p v) eqn:E.
      + change (map fst (zset a (g v) base)) with (akeys (zset a (g v) base)).
        rewrite (akeys_aset_iff Z.eqb Zeqb_spec). unfold akeys. cbn. split.
        * intros [[->|H]|(w & H & Hw)]; eauto 6.
        * intros [H|(w & [H|H] & Hw)]; eauto 6. inversion H; subst. auto.
      + cbn. split.
        * intros [H|(w & H & Hw)]; eauto 6.
        * intros [H|(w & [H|H] & Hw)]; eauto 6. inversion H; subst. congruence.
  Qed.
End Write.

Lemma ret_coefs_form c d sp pr :
  exists g : option (list (string * flt)) -> option (list (string * flt)),
  (forall o, g o = match o with None => None
                   | Some x => Some (if any_disabled c then filter (fun nf => memS (fst nf) (name_pool c)) x else x) end) /\
  get_species_ret_coefs c d sp pr =
  map (fun kv => (fst kv, g (snd kv)))
    (fold_left (fun acc (kv : Z * scalar) => if eq_zero (snd kv) then zset (fst kv) (Some []) acc else acc)
       (by_species (eff_stick c) c d sp true)
       (fold_left (fun acc (kv : Z * list (string * flt)) => zset (fst kv) (Some (snd kv)) acc) (c_ret c)
          (by_species sp_ret c d sp pr))).
Proof.
  exists (fun o => match o with None => None
                   | Some x => Some (if any_disabled c then filter (fun nf => memS (fst nf) (name_pool c)) x else x) end).
  split; [reflexivity|]. unfold get_species_ret_coefs. rewrite stick_values. cbv zeta.
  destruct (any_disabled c).
  - apply map_ext. intros [k [x|]]; reflexivity.
  - rewrite <- (map_id (fold_left _ _ _)) at 1. apply map_ext. intros [k [x|]]; reflexivity.
Qed.

(** The value the getter shows for a selected species. *)
Lemma ret_value c d sp pr s :
  Inv c -> In s (get_species c d sp pr) ->
  zget (sp_id s) (get_species_ret_coefs c d sp pr) = Some (shown_ret c s).
Proof.
  intros I H. destruct (ret_coefs_form c d sp pr) as (g & Hg & ->). rewrite map_snd_get.
  assert (H1 : In s (get_species c d sp true)).
  { apply selected_iff in H. apply selected_iff. tauto. }
  rewrite (write_get eq_zero (fun _ => Some [])).
  2: { rewrite (proj1 (by_species_rows _ _ _ _ _)). unfold get_species. apply NoDup_map_filter, (i_wf c I). }
  rewrite (by_species_get (eff_stick c) c d sp true s (i_wf c I) H1).
  rewrite (write_get (fun _ => true) (fun x => Some x)) by apply (i_ret c I).
  rewrite (by_species_get sp_ret c d sp pr s (i_wf c I) H).
  unfold shown_ret, eff_ret. destruct (eq_zero (eff_stick c s)); cbn [option_map].
  - now rewrite Hg.
  - destruct (zget (sp_id s) (c_ret c)); cbn [option_map]; now rewrite Hg.
Qed.

Definition ret_index_ok (c : chem) (d sp pr : bool) : Prop :=
  (forall i, In i (map fst (c_ret c)) -> In i (map sp_id (get_species c d sp pr))) /\
  (forall s, In s (get_species c d sp true) -> eq_zero (eff_stick c s) = true ->
     In s (get_species c d sp pr)).

Lemma ret_rows c d sp pr :
  Inv c -> ret_index_ok c d sp pr ->
  map fst (get_species_ret_coefs c d sp pr) = map sp_id (get_species c d sp pr).
Proof.
  intros I [H1 H2]. destruct (ret_coefs_form c d sp pr) as (g & _ & ->). rewrite map_snd_keys.
  assert (X : map fst (fold_left (fun acc (kv : Z * list (string * flt)) => zset (fst kv) (Some (snd kv)) acc) (c_ret c)
          (by_species sp_ret c d sp pr)) = map sp_id (get_species c d sp pr)).
  { rewrite (write_keys (fun _ => true) (fun x => Some x)).
    - apply by_species_rows.
    - intros kv Hin _. rewrite (proj1 (by_species_rows _ _ _ _ _)). apply H1. now apply in_map. }
  rewrite (write_keys eq_zero (fun _ => Some [])); [exact X|].
  intros kv Hin Hz. rewrite X. unfold by_species in Hin. apply in_map_iff in Hin. destruct Hin as (s & <- & Hs).
  cbn in *. apply in_map. now apply H2.
Qed.

Lemma ret_rows_only c d sp pr :
  Inv c -> map fst (get_species_ret_coefs c d sp pr) = map sp_id (get_species c d sp pr) ->
  ret_index_ok c d sp pr.
Proof.
  intros I. destruct (ret_coefs_form c d sp pr) as (g & _ & ->). rewrite map_snd_keys. intros X.
  assert (K : forall i, In i (map sp_id (get_species c d sp pr)) <->
    (In i (map sp_id (get_species c d sp pr)) \/ exists v, In (i, v) (c_ret c) /\ true = true) \/
    exists v, In (i, v) (by_species (eff_stick c) c d sp true) /\ eq_zero v = true).
  { intros i. rewrite <- X at 1. rewrite (write_keys_iff eq_zero (fun _ => Some [])).
    rewrite (write_keys_iff (fun _ => true) (fun x => Some x)).
    now rewrite (proj1 (by_species_rows _ _ _ _ _)). }
  split.
  - intros i Hi. apply K. left. right. apply in_map_iff in Hi. destruct Hi as ([k v] & <- & Hin). exists v. auto.
  - intros s Hs Hz. assert (In (sp_id s) (map sp_id (get_species c d sp pr))) as Y.
    { apply K. right. exists (eff_stick c s). split; [|exact Hz]. unfold by_species. apply in_map_iff. now exists s. }
    apply in_map_iff in Y. destruct Y as (t & E & Ht). replace s with t; [exact Ht|].
    apply (NoDup_map_inj sp_id (c_species c)); auto.
    + apply (i_wf c I).
    + apply selected_iff in Ht. tauto.
    + apply selected_iff in Hs. tauto.
Qed.

Lemma reaction_rows {A} (f : rx -> A) c d :
  map fst (by_reaction f c d) = map rx_id (get_reactions c d) /\
  map snd (by_reaction f c d) = map f (get_reactions c d).
Proof. unfold by_reaction. rewrite !map_map. split; reflexivity. Qed.

Lemma selected_r_iff c d r :
  In r (get_reactions c d) <-> In r (c_reactions c) /\ (d = true \/ c_enr c (rx_id r) = true).
Proof. unfold get_reactions. rewrite filter_In, orb_true_iff. tauto. Qed.

(** ** Ad-hoc values *)

Lemma zget_zset {V} k k' (v : V) d : zget k (zset k' v d) = if k =? k' then Some v else zget k d.
Proof.
  destruct (Z.eqb_spec k k') as [->|H].
  - apply (aget_aset_same Z.eqb Zeqb_spec).
  - now apply (aget_aset_other Z.eqb Zeqb_spec).
Qed.

Definition others_same (c c' : chem) : Prop :=
  c_kind c' = c_kind c /\ c_species c' = c_species c /\ c_reactions c' = c_reactions c /\ c_xml c' = c_xml c /\
  c_en c' = c_en c /\ c_prot c' = c_prot c /\ c_adprot c' = c_adprot c /\ c_enr c' = c_enr c.

Lemma adhoc_stick E c a x c' :
  Inv c -> set_adhoc_species E c "stick_coef" a (VSc x) = (c', Ok tt) ->
  exists s, denotes c a s /\
    eff_stick c' s = (if notna x then np_to_float x else scalar_of_opt (sp_stick s)) /\
    (forall t, In t (c_species c) -> t <> s -> eff_stick c' t = eff_stick c t /\ shown_ret c' t = shown_ret c t) /\
    others_same c c' /\ c_ret c' = c_ret c /\ c_arrh c' = c_arrh c.
Proof.
  intros I H. unfold set_adhoc_species in H. destruct (get_rp c a) as [s|e] eqn:G; [|discriminate].
  change (negb (memS "stick_coef" ["stick_coef"; "ret_coefs"])) with false in H. cbn [String.eqb] in H.
  destruct (negb (type_in (VSc x) (rp_attr_types "stick_coef"))); [discriminate|].
  change (String.eqb "stick_coef" "ret_coefs") with false in H. cbv iota zeta in H.
  inversion H; subst c'. exists s. apply get_rp_denotes in G; [|apply (i_wf c I)].
  split; [exact G|]. split; [|split; [|split; [|split]]].
  - unfold eff_stick. cbn [with_stick c_stick]. rewrite zget_zset, Z.eqb_refl. destruct x; reflexivity.
  - intros t Ht Hne.
    assert (S : eff_stick (with_stick c (zset (sp_id s) (np_to_float x) (c_stick c))) t = eff_stick c t).
    { unfold eff_stick. cbn [with_stick c_stick]. rewrite zget_zset.
      destruct (Z.eqb_spec (sp_id t) (sp_id s)) as [E'|_]; [|reflexivity].
      exfalso. apply Hne. apply (NoDup_map_inj sp_id (c_species c)); auto; [apply (i_wf c I)|apply G]. }
    split; [exact S|]. unfold shown_ret, eff_ret. rewrite S. reflexivity.
  - repeat split.
  - reflexivity.
  - reflexivity.
Qed.

Lemma adhoc_ret E c a v c' :
  Inv c -> set_adhoc_species E c "ret_coefs" a v = (c', Ok tt) ->
  exists s d d', denotes c a s /\ v = VDict d /\
    mapM (fun kv : string * scalar => let* f := py_float E (snd kv) in Ok (fst kv, f)) d = Ok d' /\
    (forall n, In n (map fst d) -> exists t, In t (c_species c) /\ c_en c (sp_id t) = true /\ sp_name t = n) /\
    eff_ret c' s = Some (if eq_zero (eff_stick c s) then [] else d') /\
    (forall t, In t (c_species c) -> t <> s -> eff_ret c' t = eff_ret c t /\ shown_ret c' t = shown_ret c t) /\
    others_same c c' /\ c_stick c' = c_stick c /\ c_arrh c' = c_arrh c.
Proof.
  intros I H. unfold set_adhoc_species in H. destruct (get_rp c a) as [s|e] eqn:G; [|discriminate].
  change (negb (memS "ret_coefs" ["stick_coef"; "ret_coefs"])) with false in H. cbn [String.eqb] in H.
  destruct (negb (type_in v (rp_attr_types "ret_coefs"))); [discriminate|].
  change (String.eqb "ret_coefs" "ret_coefs") with true in H. cbv iota zeta in H.
  destruct v as [x|d|]; try discriminate.
  destruct (negb (subsetS (akeys d) (name_pool c))) eqn:Sb; [discriminate|].
  destruct (mapM _ d) as [d'|e] eqn:M; [|discriminate].
  inversion H; subst c'. exists s, d, d'. apply get_rp_denotes in G; [|apply (i_wf c I)].
  split; [exact G|]. split; [reflexivity|]. split; [exact M|]. split; [|split; [|split; [|split; [|split]]]].
  - intros n Hn. apply negb_false_iff, subsetS_incl in Sb. apply Sb, In_name_pool in Hn.
    destruct Hn as (t & T). exists t. tauto.
  - unfold eff_ret, eff_stick. cbn [with_ret c_stick c_ret]. rewrite zget_zset, Z.eqb_refl.
    fold (eff_stick c s). destruct (eq_zero (eff_stick c s)); reflexivity.
  - intros t Ht Hne.
    assert (S : eff_ret (with_ret c (zset (sp_id s) d' (c_ret c))) t = eff_ret c t).
    { unfold eff_ret. cbn [with_ret c_ret]. rewrite zget_zset.
      destruct (Z.eqb_spec (sp_id t) (sp_id s)) as [E'|_]; [|reflexivity].
      exfalso. apply Hne. apply (NoDup_map_inj sp_id (c_species c)); auto; [apply (i_wf c I)|apply G]. }
    split; [exact S|]. unfold shown_ret. rewrite S. reflexivity.
  - repeat split.
  - reflexivity.
  - reflexivity.
Qed.

(** The rate coefficient in force, in the reaction's own units. *)
Definition eff_arrh (c : chem) (r : rx) : scalar :=
  match zget (rx_id r) (c_arrh c) with
  | Some v => if notna v then v else scalar_of_opt (rx_arrh_a r)
  | None => scalar_of_opt (rx_arrh_a r)
  end.

Lemma arrh_values c d : get_reactions_arrh_a c d false = Ok (by_reaction (eff_arrh c) c d).
Proof.
  unfold get_reactions_arrh_a.
  rewrite (mapM_total _ (fun r => (rx_id r, scalar_of_opt (rx_arrh_a r)))).
  2: { intros r _. unfold rx_get_arrh_a. destruct (rx_arrh_a r); reflexivity. }
  cbn [bind]. f_equal. unfold series_update, by_reaction. rewrite map_map. apply map_ext.
  intros r. unfold eff_arrh. cbn [fst]. destruct (zget (rx_id r) (c_arrh c)) as [v|]; [destruct (notna v)|]; reflexivity.
Qed.

Lemma adhoc_arrh E c i x c' :
  Inv c -> step E c (OSetRx "arrh_a" i (VSc x)) = (c', Ok tt) ->
  exists r, denotes_r c i r /\
    eff_arrh c' r = (if notna x then np_to_float x else scalar_of_opt (rx_arrh_a r)) /\
    (forall t, In t (c_reactions c) -> t <> r -> eff_arrh c' t = eff_arrh c t) /\
    others_same c c' /\ c_stick c' = c_stick c /\ c_ret c' = c_ret c.
Proof.
  intros I H. cbn [step] in H. unfold set_adhoc_reactions in H.
  destruct (memZ i (r_ids c)) eqn:M; [|discriminate]. cbn [negb] in H.
  change (String.eqb "arrh_a" "arrh_a") with true in H. cbn [negb] in H.
  destruct (type_in (VSc x) (rx_attr_types "arrh_a")); [|discriminate].
  inversion H; subst c'. apply memZ_In, in_map_iff in M. destruct M as (r & E1 & Hr). exists r.
  split; [split; auto|]. split; [|split; [|split; [|split]]].
  - unfold eff_arrh. cbn [with_arrh c_arrh]. rewrite zget_zset, E1, Z.eqb_refl. destruct x; reflexivity.
  - intros t Ht Hne. unfold eff_arrh. cbn [with_arrh c_arrh]. rewrite zget_zset.
    destruct (Z.eqb_spec (rx_id t) i) as [E'|_]; [|reflexivity].
    exfalso. apply Hne. apply (NoDup_map_inj rx_id (c_reactions c)); auto; [apply (i_wf c I)|congruence].
  - repeat split.
  - reflexivity.
  - reflexivity.
Qed.

(** ** Stoichiometric matrix *)
Lemma cnt_times s l : cnt (sp_id s) (map sp_id l) = times s l.
Proof.
  unfold times. induction l as [|t l IH]; cbn [map filter]; [reflexivity|].
  rewrite cnt_cons, IH. rewrite Z.eqb_sym. destruct (sp_id t =? sp_id s); cbn [List.length]; lia.
Qed.

Lemma stoich_times m r s :
  stoich_entry m r (sp_id s) =
  match m with
  | Lhs => times s (rx_lhs r)
  | Rhs => times s (rx_rhs r)
  | Net => times s (rx_rhs r) - times s (rx_lhs r)
  end.
Proof.
  destruct m; rewrite ?stoich_entry_lhs, ?stoich_entry_rhs, ?stoich_entry_net;
    unfold lhs_ids, rhs_ids; now rewrite ?cnt_times.
Qed.

Lemma stoichiomatrix_spec c d sp m :
  wf c ->
  map fst (get_stoichiomatrix c d sp m) = map rx_id (get_reactions c d) /\
  (forall i row, In (i, row) (get_stoichiomatrix c d sp m) -> map fst row = map sp_id (get_species c d sp true)) /\
  (forall r s, In r (get_reactions c d) -> In s (get_species c d sp true) ->
     exists row, zget (rx_id r) (get_stoichiomatrix c d sp m) = Some row /\
       zget (sp_id s) row = Some match m with
                                 | Lhs => times s (rx_lhs r)
                                 | Rhs => times s (rx_rhs r)
                                 | Net => times s (rx_rhs r) - times s (rx_lhs r)
                                 end).
Proof.
  intros W.
  assert (K : map fst (get_stoichiomatrix c d sp m) = map rx_id (get_reactions c d)).
  { unfold get_stoichiomatrix. rewrite map_map. reflexivity. }
  split; [exact K|]. split.
  - intros i row H. unfold get_stoichiomatrix in H. apply in_map_iff in H. destruct H as (r & E & _).
    inversion E; subst. rewrite map_map. cbn. apply map_id.
  - intros r s Hr Hs.
    set (row := map (fun sid => (sid, stoich_entry m r sid)) (map sp_id (get_species c d sp true))).
    exists row. split.
    + apply (In_aget Z.eqb Zeqb_spec).
      * unfold akeys. rewrite K. unfold get_reactions. apply NoDup_map_filter, W.
      * unfold get_stoichiomatrix. apply in_map_iff. exists r. auto.
    + rewrite <- stoich_times. apply (In_aget Z.eqb Zeqb_spec).
      * unfold akeys, row. rewrite map_map. cbn. rewrite map_id. unfold get_species. apply NoDup_map_filter, W.
      * unfold row. rewrite map_map. apply in_map_iff. exists s. auto.
Qed.

Lemma electron_spec c d m :
  Inv c -> c_kind c = Plain ->
  exists e l, In e (c_species c) /\ sp_name e = "e" /\ get_stoich_electron c d m = Ok l /\
    l = by_reaction (fun r => match m with
                              | Lhs => times e (rx_lhs r)
                              | Rhs => times e (rx_rhs r)
                              | Net => times e (rx_rhs r) - times e (rx_lhs r)
                              end) c d.
Proof.
  intros I K. destruct (i_eprot c I K) as (e & He & Hn & _).
  exists e, (by_reaction (fun r => stoich_entry m r (sp_id e)) c d). split; [exact He|]. split; [exact Hn|].
  assert (G : get_rp c (RName "e") = Ok e) by (apply get_rp_denotes; [apply (i_wf c I)|split; auto]).
  unfold get_stoich_electron. rewrite K, G. cbn [bind]. split; [reflexivity|].
  unfold by_reaction. apply map_ext. intros r. now rewrite stoich_times.
Qed.

Lemma arbitrary_spec c d m :
  Inv c ->
  (forall s, In s (c_species c) -> sp_name s = "M" ->
     get_stoich_arbitrary c d m =
     by_reaction (fun r => match m with
                           | Lhs => times s (rx_lhs r)
                           | Rhs => times s (rx_rhs r)
                           | Net => times s (rx_rhs r) - times s (rx_lhs r)
                           end) c d) /\
  ((forall s, In s (c_species c) -> sp_name s <> "M") ->
     get_stoich_arbitrary c d m = by_reaction (fun _ => 0) c d).
Proof.
  intros I. unfold get_stoich_arbitrary. split.
  - intros s Hs Hn.
    assert (G : get_rp c (RName "M") = Ok s) by (apply get_rp_denotes; [apply (i_wf c I)|split; auto]).
    rewrite G. unfold by_reaction. apply map_ext. intros r. now rewrite stoich_times.
  - intros H. destruct (get_rp c (RName "M")) as [s|e] eqn:G; [|reflexivity].
    apply get_rp_denotes in G; [|apply (i_wf c I)]. destruct G as [G1 G2]. exfalso. now apply (H s).
Qed.

(** ** Return matrix *)
Lemma zz_spec a b : zz_eqb a b = true <-> a = b.
Proof.
  unfold zz_eqb. destruct a, b. cbn. rewrite andb_true_iff, !Z.eqb_eq. split; [intros [-> ->]; reflexivity|].
  intros E; inversion E; auto.
Qed.

Lemma rm_get_set m i j f i' j' :
  rm_get (rm_set m i j f) i' j' = if zz_eqb (i', j') (i, j) then f else rm_get m i' j'.
Proof.
  unfold rm_get, rm_set. cbn [rm_entries]. destruct (zz_eqb (i', j') (i, j)) eqn:E.
  - apply zz_spec in E. rewrite E. now rewrite (aget_aset_same zz_eqb zz_spec).
  - rewrite (aget_aset_other zz_eqb zz_spec); [reflexivity|]. intros X. apply zz_spec in X. congruence.
Qed.

Lemma rm_fill_col_spec c j d : forall m,
  wf c -> NoDup (map fst d) ->
  (forall n, In n (map fst d) -> exists s, In s (c_species c) /\ sp_name s = n /\ In (sp_id s) (rm_rows m)) ->
  exists m', rm_fill_col c j d m = Ok m' /\ rm_rows m' = rm_rows m /\ rm_cols m' = rm_cols m /\
    (forall s j', In s (c_species c) ->
       rm_get m' (sp_id s) j' =
       if j' =? j then match sget (sp_name s) d with Some f => f | None => rm_get m (sp_id s) j' end
       else rm_get m (sp_id s) j').
Proof.
  induction d as [|[n f] d IH]; cbn [rm_fill_col map]; intros m W ND H.
  - exists m. repeat (split; [reflexivity|]). intros s j' _. cbn. now destruct (j' =? j).
  - inversion ND as [|? ? Hni ND']; subst. destruct (H n (or_introl eq_refl)) as (s & Hs & Hn & Hrow).
    assert (G : get_rp c (RName n) = Ok s) by (apply get_rp_denotes; [exact W|split; auto]).
    rewrite G. cbn [bind].
    assert (Hr : rm_rows (rm_set m (sp_id s) j f) = rm_rows m).
    { unfold rm_set. cbn. apply memZ_In in Hrow. now rewrite Hrow. }
    destruct (IH (rm_set m (sp_id s) j f) W ND') as (m' & E & R1 & R2 & R3).
    { rewrite Hr. intros n' Hn'. apply H. now right. }
    exists m'. split; [exact E|]. split; [congruence|]. split; [exact R2|].
    intros t j' Ht. rewrite (R3 t j' Ht), !rm_get_set. unfold zz_eqb. cbn [fst snd aget].
    destruct (Z.eqb_spec j' j) as [->|Hj]; [|now rewrite andb_false_r].
    rewrite andb_true_r. destruct (String.eqb_spec (sp_name t) n) as [Et|Et].
    + assert (t = s) as ->.
      { apply (NoDup_map_inj sp_name (c_species c)); auto; [apply W|congruence]. }
      assert (sget (sp_name s) d = None) as ->.
      { apply (aget_None String.eqb Seqb_spec). now rewrite Hn. }
      now rewrite Z.eqb_refl.
    + destruct (sget (sp_name t) d); [reflexivity|].
      destruct (Z.eqb_spec (sp_id t) (sp_id s)) as [Ei|Ei]; [|reflexivity].
      exfalso. apply Et. assert (t = s) as ->; [|exact Hn].
      apply (NoDup_map_inj sp_id (c_species c)); auto; apply W.
Qed.

Lemma rm_fill_spec c l : forall m,
  wf c -> NoDup (map fst l) ->
  (forall j d, In (j, Some d) l -> NoDup (map fst d)) ->
  (forall j d n, In (j, Some d) l -> In n (map fst d) ->
     exists s, In s (c_species c) /\ sp_name s = n /\ In (sp_id s) (rm_rows m)) ->
  exists m', rm_fill c l m = Ok m' /\ rm_rows m' = rm_rows m /\ rm_cols m' = rm_cols m /\
    (forall s j, In s (c_species c) ->
       rm_get m' (sp_id s) j =
       match zget j l with
       | Some (Some d) => match sget (sp_name s) d with Some f => f | None => rm_get m (sp_id s) j end
       | _ => rm_get m (sp_id s) j
       end).
Proof.
  induction l as [|[j o] l IH]; intros m W ND HD H.
  - exists m. cbn. auto.
  - inversion ND as [|? ? Hni ND']; subst. cbn [fst] in Hni. destruct o as [d|]; cbn [rm_fill].
    + destruct (rm_fill_col_spec c j d m W) as (m1 & E1 & A1 & A2 & A3).
      { apply (HD j). now left. }
      { intros n Hn. apply (H j d n); [now left|exact Hn]. }
      rewrite E1. cbn [bind].
      destruct (IH m1 W ND') as (m' & E & R1 & R2 & R3).
      { intros j' d' Hin. apply (HD j'). now right. }
      { intros j' d' n Hin Hn. rewrite A1. apply (H j' d' n); [now right|exact Hn]. }
      exists m'. split; [exact E|]. split; [congruence|]. split; [congruence|].
      intros s j' Hs. rewrite (R3 s j' Hs), (A3 s j' Hs). cbn [aget].
      destruct (Z.eqb_spec j' j) as [->|Hj].
      * assert (zget j l = None) as -> by (apply (aget_None Z.eqb Zeqb_spec); exact Hni). reflexivity.
      * destruct (zget j' l) as [[d'|]|]; reflexivity.
    + destruct (IH m W ND') as (m' & E & R1 & R2 & R3).
      { intros j' d' Hin. apply (HD j'). now right. }
      { intros j' d' n Hin Hn. apply (H j' d' n); [now right|exact Hn]. }
      exists m'. split; [exact E|]. split; [exact R1|]. split; [exact R2|].
      intros s j' Hs. rewrite (R3 s j' Hs). cbn [aget].
      destruct (Z.eqb_spec j' j) as [->|Hj]; [|reflexivity].
      assert (zget j l = None) as -> by (apply (aget_None Z.eqb Zeqb_spec); exact Hni). reflexivity.
Qed.

Definition coef_of (n : string) (o : option (list (string * flt))) : flt :=
  match o with
  | Some d => match sget n d with Some f => f | None => fzero end
  | None => fzero
  end.

Lemma return_matrix_spec c :
  Inv c -> assert_consistency c = Ok tt ->
  (forall i, In i (map fst (c_ret c)) -> In i (map sp_id (get_species c false false true))) ->
  (forall s d, In s (get_species c false false true) -> shown_ret c s = Some d ->
     NoDup (map fst d) /\ ~ In "e" (map fst d) /\ ~ In "M" (map fst d)) ->
  exists m, get_return_matrix c false = Ok m /\
    rm_rows m = map sp_id (get_species c false false true) /\
    rm_cols m = map sp_id (get_species c false false true) /\
    forall s t, In s (get_species c false false true) -> In t (get_species c false false true) ->
      rm_get m (sp_id s) (sp_id t) = coef_of (sp_name s) (shown_ret c t).
Proof.
  intros I A H1 H2. pose proof (i_wf c I) as W.
  assert (K : map fst (get_species_ret_coefs c false false true) = map sp_id (get_species c false false true)).
  { apply ret_rows; [exact I|]. split; [exact H1|]. auto. }
  assert (ND : NoDup (map sp_id (get_species c false false true))).
  { unfold get_species. apply NoDup_map_filter, W. }
  assert (Val : forall j o, In (j, o) (get_species_ret_coefs c false false true) ->
            exists s, In s (get_species c false false true) /\ sp_id s = j /\ shown_ret c s = o).
  { intros j o Hin. assert (Hj : In j (map sp_id (get_species c false false true))).
    { rewrite <- K. apply in_map_iff. now exists (j, o). }
    apply in_map_iff in Hj. destruct Hj as (s & E & Hs). exists s. split; [exact Hs|]. split; [exact E|].
    pose proof (ret_value c false false true s I Hs) as V.
    apply (In_aget Z.eqb Zeqb_spec) in Hin; [|unfold akeys; now rewrite K]. rewrite <- E in Hin. congruence. }
  unfold get_return_matrix.
  destruct (rm_fill_spec c (get_species_ret_coefs c false false true)
              {| rm_rows := map fst (get_species_ret_coefs c false false true);
                 rm_cols := map fst (get_species_ret_coefs c false false true); rm_entries := [] |} W)
    as (m & E & R1 & R2 & R3).
  - now rewrite K.
  - intros j d Hin. destruct (Val j _ Hin) as (s & Hs & _ & Hr). now apply (H2 s d).
  - cbn [rm_rows]. rewrite K. intros j d n Hin Hn. destruct (Val j _ Hin) as (s & Hs & Hj & Hr).
    apply (assert_ok_iff c W) in A. destruct A as (_ & _ & A).
    assert (V : In (sp_id s, Some d) (get_species_ret_coefs c false true true)).
    { assert (Hall : In s (get_species c false true true)).
      { apply selected_iff in Hs. apply selected_iff. tauto. }
      pose proof (ret_value c false true true s I Hall) as V. rewrite Hr in V.
      now apply (aget_In Z.eqb Zeqb_spec) in V. }
    destruct (A _ _ _ V Hn) as (t & T1 & T2 & T3).
    exists t. split; [exact T1|]. split; [exact T3|]. apply in_map. apply selected_iff.
    destruct (H2 s d Hs Hr) as (_ & X1 & X2).
    split; [exact T1|]. split; [now right|]. split; [right|now left]. rewrite T3. intros [<-|[<-|[]]]; auto.
  - exists m. split; [exact E|]. cbn [rm_rows rm_cols] in *. rewrite K in R1, R2. split; [exact R1|]. split; [exact R2|].
    intros s t Hs Ht. rewrite (R3 s (sp_id t)) by (apply selected_iff in Hs; tauto).
    rewrite (ret_value c false false true t I Ht). unfold coef_of, rm_get. cbn.
    destruct (shown_ret c t) as [d|]; reflexivity.
Qed.

(** ** check_coherence *)

Definition no_nan (E : env) (l : list (Z * scalar)) : Prop :=
  forall i x, In (i, x) l -> exists f, py_float E x = Ok f /\ f <> NaN.

Definition same_floats (E : env) (l m : list (Z * scalar)) : Prop :=
  Forall2 (fun a b => fst a = fst b /\
             exists f g, py_float E (snd a) = Ok f /\ py_float E (snd b) = Ok g /\ feqb f g = true) l m.

Definition same_dicts (d e : list (string * flt)) : Prop :=
  List.length d = List.length e /\
  forall n f, In (n, f) d -> exists g, sget n e = Some g /\ feqb f g = true.

Definition same_rets (l m : list (Z * list (string * flt))) : Prop :=
  Forall2 (fun a b => fst a = fst b /\ same_dicts (snd a) (snd b)) l m.

Lemma feqb_refl f : f <> NaN -> feqb f f = true.
Proof. destruct f as [q| | |]; cbn; intros H; [apply Qeq_bool_iff; reflexivity|reflexivity|reflexivity|congruence]. Qed.

Lemma listZ_eqb_eq l m : listZ_eqb l m = true <-> l = m.
Proof.
  revert m. induction l as [|x l IH]; intros [|y m]; cbn; try (split; congruence).
  rewrite andb_true_iff, Z.eqb_eq, IH. split; [intros [-> ->]; reflexivity|]. intros E; inversion E; auto.
Qed.

Lemma opt_str_eqb_eq a b : opt_str_eqb a b = true <-> a = b.
Proof.
  destruct a, b; cbn; try (split; congruence). rewrite String.eqb_eq. split; congruence.
Qed.

Lemma filter_eq_iff (p q : Z -> bool) l :
  filter p l = filter q l <-> forall i, In i l -> p i = q i.
Proof.
  split.
  - intros H i Hi. apply Bool.eq_iff_eq_true. split; intros X.
    + assert (In i (filter q l)) as Y by (rewrite <- H; apply filter_In; auto). apply filter_In in Y. tauto.
    + assert (In i (filter p l)) as Y by (rewrite H; apply filter_In; auto). apply filter_In in Y. tauto.
  - intros H. now apply filter_ext_in.
Qed.

Lemma triples_app_label (a b : string) l l' m m' :
  a <> b ->
  (forall t, In t l \/ In t m -> fst (fst t) = a) -> (forall t, In t l' \/ In t m' -> fst (fst t) = b) ->
  triples_eqb (l ++ l') (m ++ m') = true -> triples_eqb l m = true /\ triples_eqb l' m' = true.
Proof.
  intros Hab. revert m. induction l as [|[[x i] v] l IH]; intros [|[[y j] w] m] H1 H2; cbn [app triples_eqb]; auto.
  - intros H. exfalso. destruct l' as [|[[x' i'] v'] l']; [discriminate|]. cbn in H.
    assert (y = a) as -> by (apply (H1 (y, j, w)); right; now left).
    assert (x' = b) as -> by (apply (H2 (x', i', v')); left; now left).
    rewrite !andb_true_iff in H. destruct H as (((H & _) & _) & _). apply String.eqb_eq in H. congruence.
  - intros H. exfalso. destruct m' as [|[[y' j'] w'] m']; [discriminate|]. cbn in H.
    assert (x = a) as -> by (apply (H1 (x, i, v)); left; now left).
    assert (y' = b) as -> by (apply (H2 (y', j', w')); right; now left).
    rewrite !andb_true_iff in H. destruct H as (((H & _) & _) & _). apply String.eqb_eq in H. congruence.
  - rewrite !andb_true_iff. intros [H H']. apply IH in H'.
    + tauto.
    + intros t [X|X]; apply H1; [left|right]; now right.
    + exact H2.
Qed.

Lemma triples_app l l' m m' :
  triples_eqb l m = true -> triples_eqb l' m' = true -> triples_eqb (l ++ l') (m ++ m') = true.
Proof.
  revert m. induction l as [|[[x i] v] l IH]; intros [|[[y j] w] m]; cbn [app triples_eqb]; try discriminate; auto.
  rewrite !andb_true_iff. intros [H H'] H2. split; [tauto|]. now apply IH.
Qed.

Definition lbl (s : string) (kv : Z * flt) : string * Z * pyval := (s, fst kv, VFlt (snd kv)).
Definition lblr (kv : Z * list (string * flt)) : string * Z * pyval :=
  ("ret_coefs", fst kv, VDict (map (fun nf => (fst nf, SFlt (snd nf))) (snd kv))).

Lemma triples_lbl s (l m : list (Z * flt)) :
  triples_eqb (map (lbl s) l) (map (lbl s) m) = true <->
  Forall2 (fun a b => fst a = fst b /\ feqb (snd a) (snd b) = true) l m.
Proof.
  revert m. induction l as [|[i f] l IH]; intros [|[j g] m]; cbn; split; intros H; try discriminate; auto;
    try (inversion H; fail).
  - rewrite !andb_true_iff in H. destruct H as (((_ & H1) & H2) & H3). apply Z.eqb_eq in H1.
    constructor; [auto|]. now apply IH.
  - inversion H as [|? ? ? ? [H1 H2] H3]; subst. cbn in *. apply IH in H3.
    rewrite H3, H2, H1, Z.eqb_refl, String.eqb_refl. reflexivity.
Qed.

Lemma sget_map n (d : list (string * flt)) :
  sget n (map (fun nf => (fst nf, SFlt (snd nf))) d) = option_map SFlt (sget n d).
Proof. induction d as [|[k v] d IH]; cbn; [reflexivity|]. destruct (String.eqb n k); [reflexivity|exact IH]. Qed.

Lemma sdict_same (d e : list (string * flt)) :
  sdict_eqb (map (fun nf => (fst nf, SFlt (snd nf))) d) (map (fun nf => (fst nf, SFlt (snd nf))) e) = true <->
  same_dicts d e.
Proof.
  unfold sdict_eqb, same_dicts. rewrite andb_true_iff, Nat.eqb_eq, !map_length, forallb_forall.
  split; intros [H1 H2]; (split; [exact H1|]).
  - intros n f Hin. specialize (H2 (n, SFlt f)). cbn in H2.
    assert (In (n, SFlt f) (map (fun nf => (fst nf, SFlt (snd nf))) d)) as X by (apply in_map_iff; exists (n, f); auto).
    apply H2 in X. rewrite sget_map in X. destruct (sget n e) as [g|]; cbn in X; [|discriminate]. eauto.
  - intros x Hx. apply in_map_iff in Hx. destruct Hx as ([n f] & <- & Hin). cbn [fst snd]. rewrite sget_map.
    destruct (H2 n f Hin) as (g & -> & Hg). exact Hg.
Qed.

Lemma triples_lblr l m : triples_eqb (map lblr l) (map lblr m) = true <-> same_rets l m.
Proof.
  unfold same_rets.
  revert m. induction l as [|[i f] l IH]; intros [|[j g] m]; cbn [map triples_eqb lblr]; split; intros H;
    try discriminate; auto; try (inversion H; fail).
  - rewrite !andb_true_iff in H. destruct H as (((_ & H1) & H2) & H3). apply Z.eqb_eq in H1.
    constructor; [|now apply IH]. split; [exact H1|]. now apply sdict_same.
  - inversion H as [|? ? ? ? [H1 H2] H3]; subst. cbn [fst snd pyval_eqb] in *. apply IH in H3. apply sdict_same in H2.
    rewrite H3, H2, H1, Z.eqb_refl, String.eqb_refl. reflexivity.
Qed.

Lemma same_floats_iff E l m l' m' :
  mapM (to_float E) l = Ok l' -> mapM (to_float E) m = Ok m' ->
  (Forall2 (fun a b => fst a = fst b /\ feqb (snd a) (snd b) = true) l' m' <-> same_floats E l m).
Proof.
  intros H1 H2. apply mapM_Ok_inv in H1. apply mapM_Ok_inv in H2. unfold same_floats.
  assert (T : forall kv nf, to_float E kv = Ok nf -> fst nf = fst kv /\ py_float E (snd kv) = Ok (snd nf)).
  { intros kv nf H. unfold to_float in H. destruct (py_float E (snd kv)); cbn in H; inversion H; auto. }
  revert m m' H2. induction H1 as [|kv nf l l' Hk H1 IH]; intros m m' H2.
  - destruct H2; split; intros X; auto; inversion X.
  - destruct H2 as [|kv2 nf2 m m' Hk2 H2]; split; intros X; try (inversion X; fail).
    + inversion X as [|? ? ? ? [X1 X2] X3]; subst. apply T in Hk, Hk2. destruct Hk, Hk2.
      constructor; [|now apply (IH m m')]. split; [congruence|]. exists (snd nf), (snd nf2). auto.
    + inversion X as [|? ? ? ? [X1 (f & g & X2 & X4 & X5)] X3]; subst. apply T in Hk, Hk2. destruct Hk, Hk2.
      constructor; [|now apply (IH m m')]. split; [congruence|]. congruence.
Qed.

(** [check_coherence] decides exactly: same path, same file hash, masks equal
    on every id, and the same ad-hoc values in the same order. *)
Lemma check_coherence_spec E fh fh' c d f :
  same_input c d -> chemistry_attributes E fh d = Ok f ->
  (check_coherence E fh' c f = Ok true <->
   masks_agree c d /\ same_floats E (c_stick d) (c_stick c) /\ same_rets (c_ret d) (c_ret c) /\
   same_floats E (c_arrh d) (c_arrh c) /\
   path_or_none (c_xml d) = path_or_none (c_xml c) /\
   xml_hash fh' (path_or_none (c_xml c)) = Ok (a_hash f)).
Proof.
  intros (Hk & Hs & Hr) Hd.
  pose proof (dump_masks E fh d f Hd) as (D1 & D2 & D3 & D4 & D5 & D6 & D7 & D8 & st & rxs & D9 & D10 & D11 & D12).
  assert (Is : sp_ids d = sp_ids c) by (unfold sp_ids; now rewrite Hs).
  assert (Ir : r_ids d = r_ids c) by (unfold r_ids; now rewrite Hr).
  rewrite Is in *. rewrite Ir in *.
  assert (NI : forall p q : Z -> bool, forall l, (forall i, In i l -> p i = q i) ->
             filter (fun i => negb (p i)) l = filter (fun i => negb (q i)) l).
  { intros p q l H. apply filter_eq_iff. intros i Hi. now rewrite (H i Hi). }
  unfold check_coherence. split.
  - intros H. apply bind_Ok in H. destruct H as (g & Hg & H).
    pose proof (dump_masks E fh' c g Hg) as (G1 & G2 & G3 & G4 & G5 & G6 & G7 & G8 & st' & rxs' & G9 & G10 & G11 & G12).
    inversion H as [H']. clear H. rename H' into H. unfold cattrs_eqb in H. rewrite !andb_true_iff in H.
    destruct H as (((((((((E1 & E2) & E3) & E4) & E5) & E6) & E7) & E8) & E9) & E10).
    rewrite D4, G4 in E4. apply listZ_eqb_eq in E1, E3, E4, E5. apply opt_str_eqb_eq in E9, E10.
    rewrite D1, G1 in E1. rewrite D3, G3 in E3. rewrite D5, G5 in E5. rewrite filter_eq_iff in E1, E3, E4, E5.
    rewrite D11, G11 in E7. rewrite D12, G12 in E8.
    change (fun kv : Z * flt => ("stick_coef", fst kv, VFlt (snd kv))) with (lbl "stick_coef") in E7.
    change (fun kv : Z * flt => ("arrh_a", fst kv, VFlt (snd kv))) with (lbl "arrh_a") in E8.
    change (fun kv : Z * list (string * flt) => ("ret_coefs", fst kv, VDict (map (fun nf => (fst nf, SFlt (snd nf))) (snd kv))))
      with lblr in E7.
    apply (triples_app_label "stick_coef" "ret_coefs") in E7.
    + destruct E7 as [E7 E7']. apply triples_lbl in E7, E8. apply triples_lblr in E7'.
      apply (same_floats_iff E _ _ _ _ D9 G9) in E7. apply (same_floats_iff E _ _ _ _ D10 G10) in E8.
      split; [|split; [exact E7|split; [exact E7'|split; [exact E8|split]]]].
      * split; intros i Hi; [split; [|split]|]; symmetry; auto.
      * congruence.
      * congruence.
    + discriminate.
    + intros t [X|X]; apply in_map_iff in X; destruct X as (y & <- & _); reflexivity.
    + intros t [X|X]; apply in_map_iff in X; destruct X as (y & <- & _); reflexivity.
  - intros ((M1 & M2) & S1 & S2 & S3 & P & X).
    assert (Tot : forall l m l0, same_floats E l m -> mapM (to_float E) l = Ok l0 ->
              exists m', mapM (to_float E) m = Ok m').
    { intros l m l0 F _. induction F as [|a b l m [_ (f1 & g1 & _ & Hg1 & _)] F IH]; [exists []; reflexivity|].
      destruct IH as (m' & Hm). cbn [mapM]. unfold to_float at 1. rewrite Hg1. cbn [bind]. rewrite Hm. cbn. eauto. }
    destruct (Tot _ _ _ S1 D9) as (st' & G9). destruct (Tot _ _ _ S3 D10) as (rxs' & G10).
    assert (M : forall (s : string) (l : list (Z * scalar)) l', mapM (to_float E) l = Ok l' ->
       mapM (fun kv : Z * scalar => let* x := py_float E (snd kv) in Ok (s, fst kv, VFlt x)) l = Ok (map (lbl s) l')).
    { intros s l. induction l as [|kv l IH]; cbn [mapM]; intros l' H; [now inversion H|].
      unfold to_float at 1 in H. destruct (py_float E (snd kv)); cbn [bind] in *; [|discriminate].
      destruct (mapM (to_float E) l) as [o|]; cbn [bind] in *; [|discriminate].
      inversion H; subst. rewrite (IH o eq_refl). reflexivity. }
    unfold chemistry_attributes.
    rewrite (M "stick_coef" _ _ G9), (M "arrh_a" _ _ G10). cbn [bind]. rewrite X. cbn [bind].
    f_equal. unfold cattrs_eqb. cbn [a_en a_dis a_prot a_adprot a_enr a_disr a_sp a_rx a_path a_hash].
    rewrite D1, D2, D3, D4, D5, D6, D7, D11, D12.
    assert (L : forall l, listZ_eqb l l = true) by (intros; now apply listZ_eqb_eq).
    assert (F1 : forall i, In i (sp_ids c) -> c_en d i = c_en c i) by (intros i Hi; symmetry; apply M1; exact Hi).
    assert (F2 : forall i, In i (sp_ids c) -> c_prot d i = c_prot c i) by (intros i Hi; symmetry; apply M1; exact Hi).
    assert (F3 : forall i, In i (sp_ids c) -> c_adprot d i = c_adprot c i) by (intros i Hi; symmetry; apply M1; exact Hi).
    assert (F4 : forall i, In i (r_ids c) -> c_enr d i = c_enr c i) by (intros i Hi; symmetry; apply M2; exact Hi).
    rewrite (proj2 (filter_eq_iff _ _ _) F1), (proj2 (filter_eq_iff _ _ _) F2), (proj2 (filter_eq_iff _ _ _) F3),
      (proj2 (filter_eq_iff _ _ _) F4), (NI _ _ _ F1), (NI _ _ _ F4), !L. cbn [andb].
    rewrite P. assert (R : forall o, opt_str_eqb o o = true) by (intros; now apply opt_str_eqb_eq). rewrite !R, !andb_true_r.
    apply andb_true_iff. split.
    + apply triples_app.
      * apply (triples_lbl "stick_coef"). now apply (same_floats_iff E _ _ _ _ D9 G9).
      * now apply triples_lblr.
    + apply (triples_lbl "arrh_a"). now apply (same_floats_iff E _ _ _ _ D10 G10).
Qed.
