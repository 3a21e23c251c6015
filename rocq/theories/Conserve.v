(** Volumetric source terms conserve charge and atoms. *)
From Coq Require Import Reals Qreals Lra.
From Verif Require Import Base BaseLemmas Species Reactions Chemistry ChemSpec ChemDisable ChemInv ChemHist ChemLoad ChemGetters
  MolSpec ReactionProofs ExtReal Equations EqSpec EqPure EqDefaults EqReal EqMore Views ConserveSpec.
Open Scope Z_scope.

(** ** Weighted sums over one reaction *)

Definition zsum {A} (f : A -> Z) (l : list A) : Z := fold_right Z.add 0 (map f l).

Lemma zsum_cons {A} (f : A -> Z) a l : zsum f (a :: l) = f a + zsum f l.
Proof. reflexivity. Qed.
Lemma zsum_ext {A} (f g : A -> Z) l : (forall x, In x l -> f x = g x) -> zsum f l = zsum g l.
Proof. intros H. unfold zsum. f_equal. apply map_ext_in. exact H. Qed.
Lemma zsum_zero {A} (l : list A) : zsum (fun _ => 0) l = 0.
Proof. induction l as [|a l IH]; [reflexivity|]. rewrite zsum_cons, IH. reflexivity. Qed.
Lemma zsum_plus {A} (f g : A -> Z) l : zsum (fun x => f x + g x) l = zsum f l + zsum g l.
Proof. induction l as [|a l IH]; [reflexivity|]. rewrite !zsum_cons, IH. lia. Qed.
Lemma zsum_minus {A} (f g : A -> Z) l : zsum (fun x => f x - g x) l = zsum f l - zsum g l.
Proof. induction l as [|a l IH]; [reflexivity|]. rewrite !zsum_cons, IH. lia. Qed.
Lemma zsum_filter {A} (p : A -> bool) f l : zsum f (filter p l) = zsum (fun x => if p x then f x else 0) l.
Proof. induction l as [|a l IH]; [reflexivity|]. cbn [filter]. rewrite zsum_cons. destruct (p a); rewrite ?zsum_cons, IH; lia. Qed.

Lemma zsum_one (W : sp -> Z) l t : NoDup (map sp_id l) -> In t l ->
  zsum (fun s => if sp_id t =? sp_id s then W s else 0) l = W t.
Proof.
  induction l as [|a l IH]; intros N I; [destruct I|]. cbn [map] in N. inversion N as [|? ? N1 N2]; subst. rewrite zsum_cons.
  destruct I as [->|I].
  - rewrite Z.eqb_refl. rewrite (zsum_ext _ (fun _ => 0)); [rewrite zsum_zero; lia|].
    intros x Ix. destruct (Z.eqb_spec (sp_id t) (sp_id x)) as [Eq|]; [|reflexivity].
    exfalso. apply N1. rewrite Eq. apply in_map. exact Ix.
  - destruct (Z.eqb_spec (sp_id t) (sp_id a)) as [Eq|].
    + exfalso. apply N1. rewrite <- Eq. apply in_map. exact I.
    + rewrite (IH N2 I). lia.
Qed.

Lemma times_cons s t side : times s (t :: side) = (if sp_id t =? sp_id s then 1 else 0) + times s side.
Proof. unfold times. cbn [filter]. destruct (sp_id t =? sp_id s); cbn [List.length]; lia. Qed.

Lemma zsum_times (W : sp -> Z) l side : NoDup (map sp_id l) -> (forall t, In t side -> In t l) ->
  zsum (fun s => W s * times s side) l = zsum W side.
Proof.
  intros N. induction side as [|t side IH]; intros I.
  - rewrite (zsum_ext _ (fun _ => 0)); [apply zsum_zero|]. intros s _. unfold times. cbn. lia.
  - rewrite zsum_cons, <- (IH (fun t' It => I t' (or_intror It))).
    rewrite <- (zsum_one W l t N (I t (or_introl eq_refl))), <- zsum_plus. apply zsum_ext. intros s _. rewrite times_cons.
    destruct (sp_id t =? sp_id s); lia.
Qed.

(** The enabled species of a reachable chemistry, special ones included. *)
Section Chem.
  Variables (E : env) (c : chem).
  Hypothesis RE : reachable E c.
  Let I : Inv c := reachable_Inv E c RE.

  Definition live : list sp := get_species c false true true.
  Definition heavy : list sp := get_species c false false true.

  Lemma live_ids : NoDup (map sp_id live).
  Proof. unfold live, get_species. apply NoDup_map_filter, (i_wf c I). Qed.

  Lemma heavy_live : heavy = filter (fun s => negb (sp_special s)) live.
  Proof.
    unfold heavy, live, get_species. induction (c_species c) as [|s l IH]; [reflexivity|]. cbn [filter].
    unfold sp_mask in *. cbn [orb andb] in *. rewrite !Bool.andb_true_r in *.
    destruct (c_en c (sp_id s)); cbn [andb filter].
    - rewrite <- IH. destruct (sp_special s); reflexivity.
    - exact IH.
  Qed.

  Lemma live_iff s : In s live <-> In s (c_species c) /\ c_en c (sp_id s) = true.
  Proof.
    unfold live, get_species. rewrite filter_In. unfold sp_mask. cbn [orb]. rewrite !Bool.andb_true_r. tauto.
  Qed.

  Lemma sides_live r t : In r (get_reactions c false) -> takes_part t r -> In t live.
  Proof.
    intros Ir Tp. unfold get_reactions in Ir. apply filter_In in Ir as [Ir En]. cbn [orb] in En. apply live_iff. split.
    - exact (wf_inst c (i_wf c I) r t Ir Tp).
    - destruct (i_closed c I) as [Cl _]. exact (Cl r t Ir En Tp).
  Qed.

  (** A weight that every reaction conserves. *)
  Lemma weight_balance (W : sp -> Z) r : In r (get_reactions c false) ->
    zsum W (rx_lhs r) = zsum W (rx_rhs r) ->
    zsum (fun s => W s * (times s (rx_rhs r) - times s (rx_lhs r))) heavy =
    - zsum (fun s => if sp_special s then W s * (times s (rx_rhs r) - times s (rx_lhs r)) else 0) live.
  Proof.
    intros Ir Eq.
    assert (T : zsum (fun s => W s * (times s (rx_rhs r) - times s (rx_lhs r))) live = 0).
    { rewrite (zsum_ext _ (fun s => W s * times s (rx_rhs r) - W s * times s (rx_lhs r))) by (intros; lia).
      rewrite zsum_minus, !zsum_times; try apply live_ids; [lia| |]; intros t It; apply (sides_live r t Ir); [left|right]; exact It. }
    rewrite heavy_live, zsum_filter.
    enough (zsum (fun s => if negb (sp_special s) then W s * (times s (rx_rhs r) - times s (rx_lhs r)) else 0) live +
            zsum (fun s => if sp_special s then W s * (times s (rx_rhs r) - times s (rx_lhs r)) else 0) live = 0) by lia.
    rewrite <- zsum_plus, <- T. apply zsum_ext. intros s _. destruct (sp_special s); cbn [negb]; lia.
  Qed.
End Chem.

(** ** The objects behind a chemistry *)

Lemma view_rp_inv E p s : view_rp E p = Ok s ->
  get_name p = Ok (sp_name s) /\ get_charge E p = Ok (sp_charge s) /\ sp_uid s = rp_uid p /\ sp_id s = rp_id p.
Proof.
  unfold view_rp. destruct (get_name p) as [n|x]; [cbn [bind]|discriminate].
  destruct (get_charge E p) as [q|x]; [cbn [bind]|discriminate].
  destruct (get_mass E p) as [m|x]; [cbn [bind]|discriminate].
  destruct (get_stick_coef E p) as [k|x]; [cbn [bind]|discriminate].
  destruct (get_ret_coefs E p) as [d|x]; [cbn [bind]|discriminate].
  intros H. injection H as <-. auto.
Qed.

Lemma view_reaction_inv E r x : view_reaction E r = Ok x ->
  mapM (view_rp E) (r_lhs r) = Ok (rx_lhs x) /\ mapM (view_rp E) (r_rhs r) = Ok (rx_rhs x) /\ rx_id x = r_id r.
Proof.
  unfold view_reaction.
  destruct (mapM (view_rp E) (r_lhs r)) as [ls|z]; [cbn [bind]|discriminate].
  destruct (mapM (view_rp E) (r_rhs r)) as [rs|z]; [cbn [bind]|discriminate].
  repeat match goal with
  | |- bind ?m _ = _ -> _ => destruct m; [cbn [bind]|discriminate]
  end.
  intros H. injection H as <-. auto.
Qed.

Definition charge_weight (s : sp) : Z := match sp_charge s with Some q => q | None => 0 end.

Lemma side_charges E l : forall ss z, mapM (view_rp E) l = Ok ss -> total_charge E l z -> z = zsum charge_weight ss.
Proof.
  induction l as [|p l IH]; intros ss z H T.
  - cbn in H, T. injection H as <-. exact T.
  - cbn [mapM] in H. destruct (view_rp E p) as [s|x] eqn:V; [cbn [bind] in H|discriminate].
    destruct (mapM (view_rp E) l) as [ss'|x]; [cbn [bind] in H|discriminate]. injection H as <-.
    cbn [total_charge] in T. destruct T as (q & Hq & T). apply view_rp_inv in V as (_ & V & _). rewrite V in Hq. injection Hq as <-.
    specialize (IH ss' _ eq_refl T). rewrite zsum_cons. unfold charge_weight at 1. lia.
Qed.

Definition count_in (X : string) (a : list (string * Z)) : Z := match sget X a with Some m => m | None => 0 end.
Definition atom_weight (E : env) (objs : list rp) (X : string) (s : sp) : Z :=
  match find (fun p => Nat.eqb (rp_uid p) (sp_uid s)) objs with
  | Some p => match get_atoms E p with Ok a => count_in X a | Err _ => 0 end
  | None => 0
  end.

Section Objects.
  Variables (E : env) (objs : list rp) (rxs : list reaction) (c : chem).
  Hypothesis GF : good_formulas E.
  Hypothesis RE : reachable E c.
  Hypothesis OB : objects E objs rxs c.
  Hypothesis HI : Forall (rx_history E) rxs.

  Lemma reaction_of x : In x (c_reactions c) -> exists r, In r rxs /\ view_reaction E r = Ok x.
  Proof.
    intros Hx. destruct OB as (_ & O2 & _). apply mapM_Ok_inv in O2.
    clear -O2 Hx. induction O2 as [|r x' rxs' l V F IH]; [destruct Hx|].
    destruct Hx as [->|Hx]; [exists r; split; [left; reflexivity|exact V]|].
    destruct (IH Hx) as (r' & I' & V'). exists r'. split; [right; exact I'|exact V'].
  Qed.
  Lemma species_of s : In s (c_species c) -> exists p, In p objs /\ view_rp E p = Ok s.
  Proof.
    intros Hs. destruct OB as (O1 & _ & _). apply mapM_Ok_inv in O1.
    clear -O1 Hs. induction O1 as [|p s' objs' l V F IH]; [destruct Hs|].
    destruct Hs as [->|Hs]; [exists p; split; [left; reflexivity|exact V]|].
    destruct (IH Hs) as (p' & I' & V'). exists p'. split; [right; exact I'|exact V'].
  Qed.

  Lemma charge_kept_by x : In x (c_reactions c) -> zsum charge_weight (rx_lhs x) = zsum charge_weight (rx_rhs x).
  Proof.
    intros Hx. destruct (reaction_of x Hx) as (r & Hr & V). apply view_reaction_inv in V as (VL & VR & _).
    pose proof (proj1 (Forall_forall _ _) HI r Hr) as HH.
    destruct (history_conserves E r GF HH) as ((z & T1 & T2) & _).
    rewrite <- (side_charges E _ _ _ VL T1), <- (side_charges E _ _ _ VR T2). reflexivity.
  Qed.

  (** The object of a species is found by its identity. *)
  Lemma object_found p s :
    (In p objs \/ exists r, In r rxs /\ In p (r_lhs r ++ r_rhs r)) -> In s (c_species c) -> view_rp E p = Ok s ->
    find (fun q => Nat.eqb (rp_uid q) (sp_uid s)) objs = Some p.
  Proof.
    intros Hp Hs V. destruct (species_of s Hs) as (p' & Hp' & V').
    destruct (find (fun q => Nat.eqb (rp_uid q) (sp_uid s)) objs) as [q|] eqn:Fd.
    - apply find_some in Fd as [Hq Eq]. apply Nat.eqb_eq in Eq. destruct OB as (_ & _ & Co).
      rewrite (Co q p (or_introl Hq) Hp); [reflexivity|]. apply view_rp_inv in V as (_ & _ & V & _). congruence.
    - exfalso. pose proof (find_none _ _ Fd p' Hp') as N. cbn beta in N. apply view_rp_inv in V' as (_ & _ & V' & _).
      rewrite V', Nat.eqb_refl in N. discriminate.
  Qed.

  Lemma side_atom_counts X (l : list rp) : forall ss n,
    (forall p, In p l -> exists r, In r rxs /\ In p (r_lhs r ++ r_rhs r)) -> (forall s, In s ss -> In s (c_species c)) ->
    mapM (view_rp E) l = Ok ss -> total_atoms E X l n -> n = zsum (atom_weight E objs X) ss.
  Proof.
    induction l as [|p l IH]; intros ss n Hl Hs H T.
    - cbn in H, T. injection H as <-. exact T.
    - cbn [mapM] in H. destruct (view_rp E p) as [s|x] eqn:V; [cbn [bind] in H|discriminate].
      destruct (mapM (view_rp E) l) as [ss'|x] eqn:M; [cbn [bind] in H|discriminate]. injection H as <-.
      cbn [total_atoms] in T. destruct T as (a & Ha & T).
      assert (P : exists r, In r rxs /\ In p (r_lhs r ++ r_rhs r)) by (apply Hl; left; reflexivity).
      assert (S : In s (c_species c)) by (apply Hs; left; reflexivity).
      specialize (IH ss' _ (fun q Hq => Hl q (or_intror Hq)) (fun q Hq => Hs q (or_intror Hq)) eq_refl T).
      rewrite zsum_cons. unfold atom_weight at 1. rewrite (object_found p s (or_intror P) S V), Ha. unfold count_in. lia.
  Qed.

  Lemma atoms_kept_by X x : In x (c_reactions c) ->
    zsum (atom_weight E objs X) (rx_lhs x) = zsum (atom_weight E objs X) (rx_rhs x).
  Proof.
    intros Hx. destruct (reaction_of x Hx) as (r & Hr & V). apply view_reaction_inv in V as (VL & VR & _).
    pose proof (proj1 (Forall_forall _ _) HI r Hr) as HH.
    destruct (history_conserves E r GF HH) as (_ & At). destruct (At X) as (n & T1 & T2).
    pose proof (i_wf c (reachable_Inv E c RE)) as W.
    rewrite <- (side_atom_counts X (r_lhs r) (rx_lhs x) n), <- (side_atom_counts X (r_rhs r) (rx_rhs x) n); auto.
    - intros p Hp. exists r. split; [exact Hr|]. apply in_or_app. right. exact Hp.
    - intros s Hs. apply (wf_inst c W x s Hx). right. exact Hs.
    - intros p Hp. exists r. split; [exact Hr|]. apply in_or_app. left. exact Hp.
    - intros s Hs. apply (wf_inst c W x s Hx). left. exact Hs.
  Qed.

  Lemma atom_weight_special X s : X <> "M"%string -> In s (c_species c) -> sp_special s = true -> atom_weight E objs X s = 0.
  Proof.
    intros NM Hs Sp. destruct (species_of s Hs) as (p & Hp & V). unfold atom_weight.
    rewrite (object_found p s (or_introl Hp) Hs V). apply view_rp_inv in V as (Vn & _).
    unfold sp_special in Sp. apply memS_In in Sp. unfold special_names in Sp. unfold get_atoms. rewrite Vn. cbn [bind].
    destruct Sp as [<-|[<-|[]]]; cbn [String.eqb]; [reflexivity|].
    change ("M" =? "e")%string with false. change ("M" =? "M")%string with true. cbn iota. unfold count_in, sget, aget.
    cbn. destruct (String.eqb_spec X "M") as [->|]; [congruence|reflexivity].
  Qed.

  (** Atoms: a reaction produces as many as it consumes. *)
  Lemma atom_balance X r : X <> "M"%string -> In r (get_reactions c false) ->
    zsum (fun s => atom_weight E objs X s * (times s (rx_rhs r) - times s (rx_lhs r))) (heavy c) = 0.
  Proof.
    intros NM Ir. assert (Ic : In r (c_reactions c)) by (unfold get_reactions in Ir; apply filter_In in Ir; tauto).
    rewrite (weight_balance E c RE _ r Ir (atoms_kept_by X r Ic)).
    rewrite (zsum_ext _ (fun _ => 0)); [rewrite zsum_zero; reflexivity|].
    intros s Hs. destruct (sp_special s) eqn:Sp; [|reflexivity]. apply live_iff in Hs as [Hs _].
    rewrite (atom_weight_special X s NM Hs Sp). lia.
  Qed.

  (** Charge: what the ordinary species gain is what the electrons take. *)
  Lemma charge_balance e r : c_kind c = Plain -> electron_charged c -> In e (c_species c) -> sp_name e = "e"%string ->
    In r (get_reactions c false) ->
    zsum (fun s => charge_weight s * (times s (rx_rhs r) - times s (rx_lhs r))) (heavy c) = times e (rx_rhs r) - times e (rx_lhs r).
  Proof.
    intros Pl Ec He En Ir. assert (Ic : In r (c_reactions c)) by (unfold get_reactions in Ir; apply filter_In in Ir; tauto).
    rewrite (weight_balance E c RE _ r Ir (charge_kept_by r Ic)).
    assert (M : forall s, In s (c_species c) -> sp_name s = "M"%string -> charge_weight s = 0).
    { intros s Hs Hn. destruct (species_of s Hs) as (p & _ & V). apply view_rp_inv in V as (V1 & V2 & _).
      unfold get_charge in V2. rewrite V1, Hn in V2. cbn in V2. injection V2 as V2. unfold charge_weight. rewrite <- V2. reflexivity. }
    destruct (in_dec Z.eq_dec (sp_id e) (map sp_id (live c))) as [In_|Out].
    - apply in_map_iff in In_ as (e' & Eq & He'). assert (e' = e).
      { apply live_iff in He' as [He' _]. pose proof (wf_ids c (i_wf c (reachable_Inv E c RE))) as N.
        apply (NoDup_map_inj sp_id (c_species c)); auto. }
      subst e'. transitivity (- zsum (fun s => if sp_id e =? sp_id s then -1 * (times e (rx_rhs r) - times e (rx_lhs r)) else 0) (live c)).
      + f_equal. apply zsum_ext. intros s Hs. apply live_iff in Hs as [Hs _]. destruct (sp_special s) eqn:Sp.
        * unfold sp_special in Sp. apply memS_In in Sp. unfold special_names in Sp. destruct Sp as [Sp|[Sp|[]]].
          -- assert (s = e). { pose proof (wf_names c (i_wf c (reachable_Inv E c RE))) as N. apply (NoDup_map_inj sp_name (c_species c)); auto. congruence. }
             subst s. rewrite Z.eqb_refl. unfold charge_weight. rewrite (Ec e He En). reflexivity.
          -- rewrite (M s Hs (eq_sym Sp)). destruct (Z.eqb_spec (sp_id e) (sp_id s)) as [Q|]; [|lia].
             assert (s = e). { pose proof (wf_ids c (i_wf c (reachable_Inv E c RE))) as N. apply (NoDup_map_inj sp_id (c_species c)); auto. }
             subst s. congruence.
        * destruct (Z.eqb_spec (sp_id e) (sp_id s)) as [Q|]; [|reflexivity].
          assert (s = e). { pose proof (wf_ids c (i_wf c (reachable_Inv E c RE))) as N. apply (NoDup_map_inj sp_id (c_species c)); auto. }
          subst s. unfold sp_special in Sp. rewrite En in Sp. discriminate.
      + rewrite (zsum_one (fun _ => -1 * (times e (rx_rhs r) - times e (rx_lhs r))) (live c) e (live_ids E c RE) He'). lia.
    - exfalso. apply Out. apply in_map. apply live_iff. split; [exact He|].
      pose proof (i_charge c (reachable_Inv E c RE)) as Q. unfold charge_ok in Q. rewrite Pl in Q.
      destruct Q as ((e' & He' & En' & On) & _).
      assert (e' = e). { pose proof (wf_names c (i_wf c (reachable_Inv E c RE))) as N. apply (NoDup_map_inj sp_name (c_species c)); auto. congruence. }
      subst e'. exact On.
  Qed.
End Objects.

(** ** The arrays of the rate equations *)

Lemma mapM_length {A B} (f : A -> res B) l m : mapM f l = Ok m -> List.length m = List.length l.
Proof. intros H. apply mapM_Ok_inv in H. induction H; cbn; congruence. Qed.

Lemma view_inv E objs c v : view_of E objs c = Ok v ->
  v_names v = map sp_name (heavy c) /\
  v_net v = map (fun r => map (fun s => stoich_entry Net r (sp_id s)) (heavy c)) (get_reactions c false) /\
  Forall2 (fun s q => sp_charge s = Some q) (heavy c) (v_charge v) /\
  List.length (v_a v) = List.length (get_reactions c false) /\
  (exists l, get_stoich_electron c false Net = Ok l /\ v_e_net v = map snd l) /\
  (exists m, get_return_matrix c false = Ok m /\
     mapM (fun i => mapM (fun j => real (rm_get m i j)) (rm_cols m)) (rm_rows m) = Ok (v_ret v)).
Proof.
  unfold view_of. intros H.
  repeat match type of H with
  | bind ?m _ = _ => let Q := fresh "Q" in destruct m eqn:Q; [cbn [bind] in H|discriminate]
  end.
  injection H as <-. cbn [v_names v_net v_charge v_a v_e_net v_ret].
  repeat split.
  - unfold get_species_name, by_species. rewrite map_map. reflexivity.
  - unfold get_stoichiomatrix. rewrite map_map. apply map_ext. intros r. cbn [snd]. rewrite map_map, map_map. reflexivity.
  - unfold get_species_charge, by_species in Q. apply mapM_Ok_inv in Q. fold (heavy c) in Q.
    revert Q. generalize (heavy c). intros hs. revert a. induction hs as [|s hs IH]; intros l F; inversion F; subst; constructor.
    + cbn [snd] in H1. unfold int_opt in H1. destruct (sp_charge s); [congruence|discriminate].
    + apply IH. assumption.
  - match goal with Q4 : get_reactions_arrh_a _ _ _ = Ok ?l, Q5 : mapM _ ?l = Ok ?a |- List.length ?a = _ =>
      rewrite (mapM_length _ _ _ Q5); unfold get_reactions_arrh_a in Q4 end.
    match goal with Q4 : bind ?m _ = Ok _ |- _ => destruct m as [nat_|] eqn:Qn; [cbn [bind] in Q4|discriminate] end.
    match goal with Q4 : bind ?m _ = Ok _ |- _ => destruct m as [ad|] eqn:Qa; [cbn [bind] in Q4|discriminate]; injection Q4 as <- end.
    unfold series_update. rewrite map_length. exact (mapM_length _ _ _ Qn).
  - eauto.
  - eauto.
Qed.

Definition no_sp : sp := MkSp 0 0 "" None None None None.
Definition no_rx : rx := MkRx 0 [] [] None None None None fzero fzero false.

Open Scope R_scope.

Lemma Sum_list {A} (d : A) (f : A -> R) l : Sum (List.length l) (fun i => f (nth i l d)) = rsum (map f l).
Proof.
  rewrite Sum_rsum. f_equal. induction l as [|a l IH]; [reflexivity|]. cbn [List.length seq map nth]. f_equal.
  rewrite <- seq_shift, map_map. exact IH.
Qed.

Lemma rsum_zsum {A} (f : A -> Z) l : rsum (map (fun x => IZR (f x)) l) = IZR (zsum f l).
Proof.
  induction l as [|a l IH]; [reflexivity|]. cbn [map]. change (rsum (IZR (f a) :: map (fun x => IZR (f x)) l)) with (IZR (f a) + rsum (map (fun x => IZR (f x)) l)).
  rewrite IH, zsum_cons, plus_IZR. reflexivity.
Qed.

Lemma map_X_inj l : forall m, map X l = map X m -> l = m.
Proof. induction l as [|a l IH]; intros [|b m] H; try discriminate; [reflexivity|]. injection H as -> H. f_equal. apply IH, H. Qed.

Section Balance.
  Variables (K : constants) (model : dmodel) (E : env) (objs : list rp) (rxs : list reaction) (c : chem)
            (v : view) (p : mparams) (e : equations) (y : list ext) (rs ss : list R).
  Hypothesis RE : reachable E c.
  Hypothesis VO : view_of E objs c = Ok v.
  Hypothesis IN : eq_init K model v p = Ok e.
  Hypothesis LR : List.length rs = List.length (v_a v).
  Hypothesis AN : answers e (CVolume y (Some (map X rs))) (AVec (map X ss)).

  Let H := heavy c.
  Let A := get_reactions c false.
  Let net (s : sp) (r : rx) : Z := (times s (rx_rhs r) - times s (rx_lhs r))%Z.

  Lemma ss_length : List.length ss = List.length H.
  Proof.
    destruct (volume_exact K model v p e y rs IN LR) as (ss' & L & A' & _). pose proof AN as AN2. unfold answers in A', AN2. rewrite A' in AN2.
    injection AN2 as AN'. apply map_X_inj in AN'. subst ss'. rewrite L. destruct (view_inv E objs c v VO) as (-> & _). apply map_length.
  Qed.
  Lemma rs_length : List.length rs = List.length A.
  Proof. rewrite LR. destruct (view_inv E objs c v VO) as (_ & _ & _ & -> & _). reflexivity. Qed.

  Lemma ss_value i : (i < List.length H)%nat ->
    el ss i = Sum (List.length rs) (fun j => IZR (net (nth i H no_sp) (nth j A no_rx)) * el rs j).
  Proof.
    intros Li. destruct (volume_exact K model v p e y rs IN LR) as (ss' & L & A' & F). pose proof AN as AN2. unfold answers in A', AN2. rewrite A' in AN2.
    injection AN2 as AN'. apply map_X_inj in AN'. subst ss'. rewrite F by (rewrite ss_length; exact Li).
    apply Sum_ext. intros j Lj. f_equal. f_equal. destruct (view_inv E objs c v VO) as (_ & -> & _). fold H A.
    rewrite rs_length in Lj. rewrite (nth_indep _ [] (map (fun s => stoich_entry Net no_rx (sp_id s)) H)) by (rewrite map_length; exact Lj).
    rewrite (map_nth (fun r => map (fun s => stoich_entry Net r (sp_id s)) H)).
    rewrite (nth_indep _ 0%Z (stoich_entry Net (nth j A no_rx) (sp_id no_sp))) by (rewrite map_length; exact Li).
    rewrite (map_nth (fun s => stoich_entry Net (nth j A no_rx) (sp_id s))). apply stoich_times.
  Qed.

  (** A weighted sum of the source terms. *)
  Lemma weighted (W : sp -> Z) (N : rx -> Z) : (forall r, In r A -> zsum (fun s => (W s * net s r)%Z) H = N r) ->
    Sum (List.length H) (fun i => IZR (W (nth i H no_sp)) * el ss i) =
    Sum (List.length rs) (fun j => IZR (N (nth j A no_rx)) * el rs j).
  Proof.
    intros B. transitivity (Sum (List.length H) (fun i => Sum (List.length rs) (fun j => IZR (W (nth i H no_sp)) * (IZR (net (nth i H no_sp) (nth j A no_rx)) * el rs j)))).
    - apply Sum_ext. intros i Li. rewrite (ss_value i Li), <- Sum_scal. reflexivity.
    - rewrite Sum_swap. apply Sum_ext. intros j Lj. rewrite rs_length in Lj.
      rewrite (Sum_list no_sp (fun s => IZR (W s) * (IZR (net s (nth j A no_rx)) * el rs j))).
      rewrite <- (B (nth j A no_rx) (nth_In _ _ Lj)), <- rsum_zsum.
      rewrite (rsum_map_ext _ (fun s => el rs j * IZR (W s * net s (nth j A no_rx)))) by (intros; rewrite mult_IZR; ring).
      rewrite rsum_scal. ring.
  Qed.

  Hypothesis GF : good_formulas E.
  Hypothesis OB : objects E objs rxs c.
  Hypothesis HI : Forall (rx_history E) rxs.

  Lemma charges_at i : (i < List.length H)%nat -> charge_of v i = charge_weight (nth i H no_sp).
  Proof.
    intros Li. destruct (view_inv E objs c v VO) as (_ & _ & F & _). fold H in F. unfold charge_of.
    revert i Li. induction F as [|s q l m Hs F IH]; intros i Li; [cbn in Li; lia|]. destruct i as [|i]; cbn [nth].
    - unfold charge_weight. rewrite Hs. reflexivity.
    - apply IH. cbn in Li. lia.
  Qed.

  Theorem charge_conserved : electron_charged c ->
    Sum (List.length ss) (fun i => IZR (charge_of v i) * el ss i) =
    Sum (List.length rs) (fun j => IZR (nth j (v_e_net v) 0%Z) * el rs j).
  Proof.
    intros EC. rewrite ss_length.
    rewrite (Sum_ext _ _ (fun i => IZR (charge_weight (nth i H no_sp)) * el ss i)) by (intros i Li; rewrite (charges_at i Li); reflexivity).
    destruct (view_inv E objs c v VO) as (_ & _ & _ & _ & (l & Ge & Ve) & _). rewrite Ve.
    destruct (c_kind c) eqn:Kd.
    - destruct (electron_spec c false Net (reachable_Inv E c RE) Kd) as (el_ & l' & He & En & Ge' & Eq). rewrite Ge in Ge'. injection Ge' as <-. subst l.
      rewrite (weighted charge_weight (net el_)).
      + apply Sum_ext. intros j Lj. rewrite rs_length in Lj. f_equal. f_equal. unfold by_reaction. rewrite map_map. cbn [snd].
        fold A. rewrite (nth_indep _ 0%Z (net el_ no_rx)) by (rewrite map_length; exact Lj). rewrite (map_nth (net el_)). reflexivity.
      + intros r Ir. apply (charge_balance E objs rxs c GF RE OB HI el_ r Kd EC He En Ir).
    - unfold get_stoich_electron in Ge. rewrite Kd in Ge. injection Ge as <-. rewrite map_map. cbn [snd].
      rewrite (Sum_ext _ _ (fun _ => 0)).
      2:{ intros i Li. assert (Hs : In (nth i H no_sp) H) by (apply nth_In; exact Li).
          assert (Q : sp_charge (nth i H no_sp) = Some 0%Z).
          { unfold H, heavy in Hs. apply selected_iff in Hs. destruct Hs as (Hs & _ & Sp & _).
            apply (i_neutral c (reachable_Inv E c RE) Kd _ Hs). intros Q. destruct Sp as [Sp|Sp]; [discriminate|]. apply Sp. exact Q. }
          unfold charge_weight. rewrite Q. ring. }
      rewrite Sum_zero. symmetry. rewrite (Sum_ext _ _ (fun _ => 0)); [apply Sum_zero|]. intros j Lj. rewrite rs_length in Lj.
      rewrite (map_nth (fun _ : rx => 0%Z) _ no_rx). ring.
  Qed.

  Theorem atoms_conserved X0 ks : X0 <> "M"%string -> Forall2 (atoms_of E objs X0) (v_names v) ks ->
    Sum (List.length ss) (fun i => IZR (nth i ks 0%Z) * el ss i) = 0.
  Proof.
    intros NM F. rewrite ss_length.
    assert (W : forall i, (i < List.length H)%nat -> nth i ks 0%Z = atom_weight E objs X0 (nth i H no_sp)).
    { destruct (view_inv E objs c v VO) as (Vn & _). fold H in Vn. rewrite Vn in F.
      assert (Sub : forall s, In s H -> In s (c_species c)) by (intros s Hs; unfold H, heavy, get_species in Hs; apply filter_In in Hs; tauto).
      revert Sub F. generalize H. clear Vn. intros hs Sub F. remember (map sp_name hs) as ns eqn:En. revert hs En Sub.
      induction F as [|n k ns' ks' At F IH]; intros hs En Sub i Li; destruct hs as [|s hs]; try discriminate; [cbn in Li; lia|].
      injection En as -> En. destruct i as [|i]; cbn [nth].
      - destruct At as (q & a & Hq & Nq & Aq & ->). unfold atom_weight.
        assert (Hs : In s (c_species c)) by (apply Sub; left; reflexivity).
        assert (V : view_rp E q = Ok s).
        { destruct OB as (O1 & _ & _). apply mapM_Ok_inv in O1.
          assert (exists t, In t (c_species c) /\ view_rp E q = Ok t) as (t & Ht & Vt).
          { clear -O1 Hq. induction O1 as [|a b l m V F IH]; [destruct Hq|]. destruct Hq as [->|Hq]; [exists b; split; [left; reflexivity|exact V]|].
            destruct (IH Hq) as (t & It & Vt). exists t. split; [right; exact It|exact Vt]. }
          rewrite Vt. f_equal. apply view_rp_inv in Vt as (Vt & _). rewrite Nq in Vt. injection Vt as Vt.
          apply (NoDup_map_inj sp_name (c_species c)); auto. apply (wf_names c (i_wf c (reachable_Inv E c RE))). }
        rewrite (object_found E objs rxs c OB q s (or_introl Hq) Hs V), Aq. reflexivity.
      - apply IH; [exact En|intros; apply Sub; right; assumption|cbn in Li; lia]. }
    rewrite (Sum_ext _ _ (fun i => IZR (atom_weight E objs X0 (nth i H no_sp)) * el ss i)) by (intros i Li; rewrite (W i Li); reflexivity).
    rewrite (weighted (atom_weight E objs X0) (fun _ => 0%Z)).
    - rewrite (Sum_ext _ _ (fun _ => 0)) by (intros; ring). apply Sum_zero.
    - intros r Ir. apply (atom_balance E objs rxs c GF RE OB HI X0 r NM Ir).
  Qed.
End Balance.
