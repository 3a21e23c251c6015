(** Proofs about single reactions: conservation, units, keys, elasticity. *)
From Coq Require Import Permutation Sorted.
From Verif Require Import Base BaseLemmas Species Reactions MolSpec SpeciesProofs SortLemmas.

(** ** Conservation *)

Lemma get_charge_name E s c : get_charge E s = Ok c -> exists n, get_name s = Ok n.
Proof. unfold get_charge. destruct (get_name s); cbn; [eauto|discriminate]. Qed.

Lemma side_charge_spec E l z : side_charge E l = Ok z <-> total_charge E l z.
Proof.
  revert z. induction l as [|s l IH]; cbn [side_charge total_charge]; intros z.
  - split; [intros H; inversion H; reflexivity|intros ->; reflexivity].
  - split.
    + intros H. destruct (get_name s) as [n|] eqn:En; cbn [bind] in H; [|discriminate].
      destruct (String.eqb n "M") eqn:Em.
      * exists None. split; [unfold get_charge; rewrite En; cbn; now rewrite Em|].
        apply IH. now replace (z - 0) with z by lia.
      * destruct (get_charge E s) as [c|] eqn:Ec; cbn [bind] in H; [|discriminate].
        destruct (side_charge E l) as [t|] eqn:Et; cbn [bind] in H; [|discriminate].
        inversion H; subst. exists c. split; [reflexivity|]. apply IH. f_equal. lia.
    + intros (c & Hc & Ht). destruct (get_charge_name _ _ _ Hc) as [n En].
      rewrite En. cbn [bind]. apply IH in Ht. unfold get_charge in Hc. rewrite En in Hc. cbn [bind] in Hc.
      destruct (String.eqb n "M") eqn:Em.
      * inversion Hc; subst. rewrite Ht. f_equal. lia.
      * unfold get_charge. rewrite En. cbn [bind]. rewrite Em, Hc. cbn [bind]. rewrite Ht. cbn [bind]. f_equal. lia.
Qed.

Definition aval (X : string) (a : list (string * Z)) : Z :=
  match sget X a with Some k => k | None => 0 end.

Lemma add_atom_val X d kv : aval X (add_atom d kv) = aval X d + (if String.eqb X (fst kv) then snd kv else 0).
Proof.
  destruct kv as [k n]. unfold add_atom, aval. cbn [fst snd].
  destruct (String.eqb_spec X k) as [->|Hne].
  - destruct (sget k d); rewrite (aget_aset_same _ Seqb_spec); lia.
  - destruct (sget k d); rewrite (aget_aset_other _ Seqb_spec) by assumption; lia.
Qed.

Lemma fold_add_val X a : NoDup (akeys a) ->
  forall d, aval X (fold_left add_atom a d) = aval X d + aval X a.
Proof.
  induction a as [|[k n] a IH]; cbn [fold_left]; intros Hnd d.
  - unfold aval at 3. cbn. lia.
  - inversion Hnd as [|? ? Hni Hnd']; subst. rewrite IH by assumption. rewrite add_atom_val. cbn [fst snd].
    unfold aval at 2 4. cbn [aget]. destruct (String.eqb_spec X k) as [->|Hne]; [|lia].
    assert (sget k a = None) as -> by now apply (aget_None _ Seqb_spec). lia.
Qed.

Definition dict_ok (d : list (string * Z)) : Prop := NoDup (akeys d) /\ forall X n, In (X, n) d -> 0 < n.

Lemma add_atom_ok d kv : dict_ok d -> 0 < snd kv -> dict_ok (add_atom d kv).
Proof.
  intros [Hnd Hpos] Hn. destruct kv as [k n]. unfold add_atom. cbn [fst snd] in *. split.
  - destruct (sget k d); apply (NoDup_aset _ Seqb_spec); assumption.
  - intros X m Hin. destruct (sget k d) as [v|] eqn:Ek; apply (aset_In _ Seqb_spec) in Hin;
      (destruct Hin as [He|Hin]; [inversion He; subst|eauto]); [|assumption].
    apply (aget_In _ Seqb_spec) in Ek. specialize (Hpos _ _ Ek). lia.
Qed.

Lemma fold_add_ok a d : dict_ok d -> (forall X n, In (X, n) a -> 0 < n) -> dict_ok (fold_left add_atom a d).
Proof.
  revert d. induction a as [|[k n] a IH]; cbn [fold_left]; intros d Hd Ha; [assumption|].
  apply IH; [|intros X m H; apply (Ha X m); now right].
  apply add_atom_ok; [assumption|]. cbn. apply (Ha k n). now left.
Qed.

Lemma get_atoms_ok E s a : good_formulas E -> get_atoms E s = Ok a -> dict_ok a.
Proof.
  intros HE. unfold get_atoms. destruct (get_name s) as [n|]; cbn [bind]; [|discriminate].
  destruct (String.eqb n "e").
  - intros H. inversion H; subst. split; [constructor|]. intros ? ? [].
  - destruct (String.eqb n "M").
    + intros H. inversion H; subst. split.
      * constructor; [intros []|constructor].
      * intros X m [He|[]]. inversion He. lia.
    + destruct (get_stateless s) as [t|]; cbn [bind]; [|discriminate]. apply HE.
Qed.

Lemma side_atoms_spec E (HE : good_formulas E) l : forall d a,
  dict_ok d -> side_atoms E d l = Ok a ->
  dict_ok a /\ forall X, total_atoms E X l (aval X a - aval X d).
Proof.
  induction l as [|s l IH]; cbn [side_atoms total_atoms]; intros d a Hd H.
  - inversion H; subst. split; [assumption|]. intros X. lia.
  - destruct (get_atoms E s) as [b|] eqn:Eb; cbn [bind] in H; [|discriminate].
    destruct (get_atoms_ok _ _ _ HE Eb) as [Hnb Hpb].
    destruct (IH _ _ (fold_add_ok b d Hd Hpb) H) as [Ha Ht].
    split; [assumption|]. intros X. exists b. split; [reflexivity|].
    specialize (Ht X). rewrite fold_add_val in Ht by assumption. fold (aval X b).
    now replace (aval X a - aval X d - aval X b) with (aval X a - (aval X d + aval X b)) by lia.
Qed.

Lemma side_atoms_total E l X n : forall d,
  total_atoms E X l n -> exists a, side_atoms E d l = Ok a.
Proof.
  revert n. induction l as [|s l IH]; cbn [side_atoms total_atoms]; intros n d H; [eauto|].
  destruct H as (a & Ha & Ht). rewrite Ha. cbn [bind]. eapply IH, Ht.
Qed.

Lemma total_atoms_fun E X l : forall n m, total_atoms E X l n -> total_atoms E X l m -> n = m.
Proof.
  induction l as [|s l IH]; cbn [total_atoms]; intros n m H1 H2; [congruence|].
  destruct H1 as (a & Ha & H1), H2 as (b & Hb & H2). rewrite Ha in Hb. inversion Hb; subst.
  specialize (IH _ _ H1 H2). lia.
Qed.

Lemma aval_pos d X : dict_ok d -> In X (akeys d) -> 0 < aval X d.
Proof.
  intros [_ Hp] Hin. destruct (aget_key _ Seqb_spec _ _ Hin) as [v Hv]. unfold aval. rewrite Hv.
  apply (aget_In _ Seqb_spec) in Hv. eauto.
Qed.

Lemma dict_eqb_spec d e : dict_ok d -> dict_ok e -> dict_eqb d e = true <-> forall X, aval X d = aval X e.
Proof.
  intros Hd He. unfold dict_eqb. rewrite Bool.andb_true_iff, Nat.eqb_eq, forallb_forall. split.
  - intros [Hl Hf] X.
    assert (incl (akeys d) (akeys e)) as Hi.
    { intros k Hk. unfold akeys in Hk. apply in_map_iff in Hk. destruct Hk as ([k' n] & <- & Hin).
      specialize (Hf _ Hin). cbn in *. destruct (sget k' e) eqn:Ek; [|discriminate].
      now apply (aget_Some_key _ Seqb_spec) in Ek. }
    assert (incl (akeys e) (akeys d)) as Hi'.
    { apply NoDup_length_incl; [apply Hd| |exact Hi]. unfold akeys. rewrite !map_length. lia. }
    unfold aval. destruct (sget X d) as [n|] eqn:EX.
    + apply (aget_In _ Seqb_spec) in EX. specialize (Hf _ EX). cbn in Hf.
      destruct (sget X e); [|discriminate]. apply Z.eqb_eq in Hf. congruence.
    + apply (aget_None _ Seqb_spec) in EX.
      destruct (sget X e) eqn:EX'; [|reflexivity]. apply (aget_Some_key _ Seqb_spec) in EX'. now apply Hi' in EX'.
  - intros Hv. split.
    + assert (forall d e, dict_ok d -> dict_ok e -> (forall X, aval X d = aval X e) -> incl (akeys d) (akeys e)) as Hi.
      { intros a b Ha Hb H X HX. pose proof (aval_pos _ _ Ha HX) as Hp. rewrite H in Hp.
        unfold aval in Hp. destruct (sget X b) eqn:EX; [|lia]. now apply (aget_Some_key _ Seqb_spec) in EX. }
      rewrite <- (map_length fst d), <- (map_length fst e). apply Nat.le_antisymm; apply NoDup_incl_length.
      * apply Hd.
      * now apply Hi.
      * apply He.
      * apply Hi; auto.
    + intros [X n] Hin. cbn. specialize (Hv X). unfold aval in Hv.
      rewrite (In_aget _ Seqb_spec _ _ _ (proj1 Hd) Hin) in Hv.
      destruct (sget X e); [now apply Z.eqb_eq|]. destruct Hd as [_ Hp]. specialize (Hp _ _ Hin). lia.
Qed.

Lemma consistency_spec E r : good_formulas E ->
  reaction_consistency E r = Ok tt <-> conserves E (r_lhs r) (r_rhs r).
Proof.
  intros HE. unfold reaction_consistency, conserves.
  assert (dict_ok []) as H0 by (split; [constructor|intros ? ? []]).
  split.
  - intros H.
    destruct (side_charge E (r_lhs r)) as [cl|] eqn:E1; cbn [bind] in H; [|discriminate].
    destruct (side_charge E (r_rhs r)) as [cr|] eqn:E2; cbn [bind] in H; [|discriminate].
    destruct (Z.eqb_spec cl cr) as [->|]; cbn in H; [|discriminate].
    destruct (side_atoms E [] (r_lhs r)) as [al|] eqn:E3; cbn [bind] in H; [|discriminate].
    destruct (side_atoms E [] (r_rhs r)) as [ar|] eqn:E4; cbn [bind] in H; [|discriminate].
    destruct (dict_eqb al ar) eqn:E5; [|discriminate].
    destruct (side_atoms_spec E HE _ _ _ H0 E3) as [Ha Hta], (side_atoms_spec E HE _ _ _ H0 E4) as [Hb Htb].
    split; [exists cr; split; now apply side_charge_spec|].
    intros X. exists (aval X al). specialize (Hta X). specialize (Htb X). unfold aval at 2 in Hta. unfold aval at 2 in Htb.
    cbn in Hta, Htb. rewrite Z.sub_0_r in *. split; [assumption|].
    pose proof (proj1 (dict_eqb_spec al ar Ha Hb) E5 X) as ->. assumption.
  - intros [(z & Hz1 & Hz2) Hat].
    apply side_charge_spec in Hz1. apply side_charge_spec in Hz2. rewrite Hz1, Hz2. cbn [bind].
    rewrite Z.eqb_refl. cbn [negb raise_if bind].
    destruct (Hat "") as (n & Hn1 & Hn2).
    destruct (side_atoms_total _ _ _ _ [] Hn1) as [al E3], (side_atoms_total _ _ _ _ [] Hn2) as [ar E4].
    rewrite E3, E4. cbn [bind].
    destruct (side_atoms_spec E HE _ _ _ H0 E3) as [Ha Hta], (side_atoms_spec E HE _ _ _ H0 E4) as [Hb Htb].
    assert (dict_eqb al ar = true) as ->; [|reflexivity].
    apply dict_eqb_spec; [assumption..|]. intros X. destruct (Hat X) as (m & Hm1 & Hm2).
    specialize (Hta X). specialize (Htb X). unfold aval at 2 in Hta. unfold aval at 2 in Htb.
    cbn in Hta, Htb. rewrite Z.sub_0_r in *.
    rewrite (total_atoms_fun _ _ _ _ _ Hta Hm1), (total_atoms_fun _ _ _ _ _ Htb Hm2). reflexivity.
Qed.

(** ** Attribute assignment *)

Ltac step_binds H :=
  repeat match type of H with
         | bind ?a _ = Ok _ => let E := fresh "E" in destruct a eqn:E; cbn [bind] in H; [|discriminate H]
         end.

Lemma set_rx_shape E r k v u r' :
  set_reaction_attribute E r k v u = Ok r' ->
  r_id r' = r_id r /\ r_lhs r' = r_lhs r /\ r_rhs r' = r_rhs r /\
  xattr r' k = v /\ sget k (r_units r') = Some u /\
  (forall k', k' <> k -> xattr r' k' = xattr r k' /\ sget k' (r_units r') = sget k' (r_units r)).
Proof.
  unfold set_reaction_attribute. intros H. step_binds H. inversion H; subst. cbn.
  split; [reflexivity|]. split; [reflexivity|]. split; [reflexivity|].
  unfold xattr. cbn. rewrite !(aget_aset_same _ Seqb_spec).
  split; [reflexivity|]. split; [reflexivity|].
  intros k' Hne. rewrite !(aget_aset_other _ Seqb_spec) by assumption. auto.
Qed.

Lemma endswith_app s t : endswith s t = true -> exists b, s = (b ++ t)%string.
Proof.
  unfold endswith. intros H.
  assert (forall p l, prefixb p l = true -> exists m, l = p ++ m) as Hp.
  { induction p as [|c p IH]; intros l Hl; [now exists l|].
    destruct l as [|d l]; cbn in Hl; [discriminate|]. apply Bool.andb_true_iff in Hl. destruct Hl as [Hc Hl].
    apply Ascii.eqb_eq in Hc. subst d. destruct (IH _ Hl) as [m ->]. now exists m. }
  destruct (Hp _ _ H) as [m Hm]. exists (str_of (rev m)).
  apply chars_inj. rewrite chars_app, chars_str_of.
  rewrite <- (rev_involutive (chars s)), Hm, rev_app_distr, rev_involutive. reflexivity.
Qed.

(** An accepted assignment of a prefactor. *)
Lemma set_arrh_a E r v u r' :
  set_reaction_attribute E r "arrh_a" v u = Ok r' -> v <> VNone ->
  (1 <= List.length (r_lhs r) <= 3)%nat ->
  exists w f, u = Some w /\ prefactor_unit (List.length (r_lhs r)) w /\
    py_float_v E v = Ok f /\ fltb f fzero = false.
Proof.
  intros H Hv Hl.
  assert (is_none v = false) as Hn by (destruct v as [[]| |]; try reflexivity; now destruct Hv).
  unfold set_reaction_attribute in H. rewrite Hn in H. cbn [negb andb] in H.
  change (String.eqb "arrh_a" "arrh_c") with false in H.
  change (String.eqb "arrh_a" "arrh_a") with true in H. cbn [andb] in H.
  change (shas "arrh_a" rx_default_units) with true in H.
  change (memS "arrh_a" ["arrh_a"; "arrh_c"]) with true in H.
  change (String.eqb "arrh_a" "elastic") with false in H.
  destruct u as [w|]; [|cbn in H; discriminate].
  cbn [negb andb] in H.
  destruct (memS w (rx_units_allowed "arrh_a")) eqn:Ew; cbn [raise_if bind negb] in H; [|discriminate].
  destruct (py_float_v E v) as [f|] eqn:Ef.
  2:{ step_binds H. discriminate. }
  assert (fltb f fzero = false) as Hf.
  { destruct (fltb f fzero) eqn:Ef'; [|reflexivity]. exfalso.
    step_binds H. rewrite Ef' in *. discriminate. }
  exists w, f. repeat split; auto.
  apply memS_In in Ew. cbn in Ew.
  destruct (List.length (r_lhs r)) as [|[|[|[|m]]]] eqn:El; try lia; unfold prefactor_unit.
  - left. split; [reflexivity|]. destruct (String.eqb_spec w "s-1"); [assumption|].
    cbn in H. discriminate.
  - right. left. split; [reflexivity|].
    destruct Ew as [<-|[<-|[<-|[<-|[<-|[]]]]]]; auto; cbn in H; discriminate.
  - right. right. split; [reflexivity|].
    destruct Ew as [<-|[<-|[<-|[<-|[<-|[]]]]]]; auto; cbn in H; discriminate.
Qed.

Lemma set_arrh_c E r v u r' :
  set_reaction_attribute E r "arrh_c" v u = Ok r' -> v <> VNone ->
  exists b, is_electron_process r = Ok b /\ u = Some (if b then "eV" else "K").
Proof.
  intros H Hv.
  assert (is_none v = false) as Hn by (destruct v as [[]| |]; try reflexivity; now destruct Hv).
  unfold set_reaction_attribute in H. rewrite Hn in H. cbn [negb andb] in H.
  change (String.eqb "arrh_c" "arrh_c") with true in H. cbn [andb] in H.
  destruct u as [w|].
  2:{ cbn in H. discriminate. }
  step_binds H. clear H. destruct (is_electron_process r) as [b|] eqn:Eb; cbn [bind] in *; [|discriminate].
  exists b. split; [reflexivity|]. f_equal. unfold raise_if in *.
  match goal with H : (if negb (String.eqb w ?x) then _ else _) = Ok _ |- _ =>
    destruct (String.eqb_spec w x); [assumption|discriminate] end.
Qed.

(** The invariant of C20. *)
Definition unit_inv (E : env) (r : reaction) : Prop :=
  (1 <= List.length (r_lhs r) <= 3)%nat /\
  (xattr r "arrh_a" <> VNone ->
     exists w f, sget "arrh_a" (r_units r) = Some (Some w) /\ prefactor_unit (List.length (r_lhs r)) w /\
       py_float_v E (xattr r "arrh_a") = Ok f /\ fltb f fzero = false) /\
  (xattr r "arrh_c" <> VNone ->
     exists b, is_electron_process r = Ok b /\
       sget "arrh_c" (r_units r) = Some (Some (if b then "eV" else "K"))).

Lemma set_rx_inv E r k v u r' :
  unit_inv E r -> set_reaction_attribute E r k v u = Ok r' -> unit_inv E r'.
Proof.
  intros (Hl & Ha & Hc) H. pose proof (set_rx_shape _ _ _ _ _ _ H) as (_ & Hlhs & _ & Hk & Hu & Ho).
  assert (is_electron_process r' = is_electron_process r) as Hel by (unfold is_electron_process; now rewrite Hlhs).
  unfold unit_inv. rewrite Hlhs, Hel. split; [assumption|]. split.
  - destruct (string_dec "arrh_a" k) as [<-|Hne].
    + rewrite Hk, Hu. intros Hv. destruct (set_arrh_a _ _ _ _ _ H Hv Hl) as (w & f & -> & Hw). exists w, f. auto.
    + destruct (Ho _ Hne) as [-> ->]. assumption.
  - destruct (string_dec "arrh_c" k) as [<-|Hne].
    + rewrite Hk, Hu. intros Hv. destruct (set_arrh_c _ _ _ _ _ H Hv) as (b & Hb & ->). exists b. auto.
    + destruct (Ho _ Hne) as [-> ->]. assumption.
Qed.

Lemma set_all_rx_inv E keys attrs units r r' :
  unit_inv E r -> set_all_rattributes E keys attrs units r = Ok r' -> unit_inv E r'.
Proof.
  revert r. induction keys as [|k ks IH]; cbn [set_all_rattributes]; intros r Hr H.
  - now inversion H; subst.
  - destruct (set_reaction_attribute E r k _ _) as [r1|] eqn:E1; cbn [bind] in H; [|discriminate].
    eapply IH; [|exact H]. eapply set_rx_inv; eauto.
Qed.

Lemma set_all_rx_shape E keys attrs units r r' :
  NoDup keys -> set_all_rattributes E keys attrs units r = Ok r' ->
  r_id r' = r_id r /\ r_lhs r' = r_lhs r /\ r_rhs r' = r_rhs r /\
  (forall k, In k keys ->
     xattr r' k = match sget k attrs with Some v => v | None => VNone end /\
     sget k (r_units r') = Some match sget k units with Some u => u | None => None end) /\
  (forall k, ~ In k keys -> xattr r' k = xattr r k).
Proof.
  revert r. induction keys as [|k ks IH]; cbn [set_all_rattributes]; intros r Hnd H.
  - inversion H; subst. split; [reflexivity|]. split; [reflexivity|]. split; [reflexivity|].
    split; [intros ? []|reflexivity].
  - destruct (set_reaction_attribute E r k _ _) as [r1|] eqn:E1; cbn [bind] in H; [|discriminate].
    pose proof (set_rx_shape _ _ _ _ _ _ E1) as (H1 & H2 & H3 & Hk & Hu & Ho).
    inversion Hnd as [|? ? Hni Hnd']; subst.
    assert (Hunits : forall k', ~ In k' ks -> sget k' (r_units r') = sget k' (r_units r1)).
    { clear - H. revert r1 H. induction ks as [|k2 ks IH]; cbn; intros r1 H k' Hk'.
      - now inversion H.
      - destruct (set_reaction_attribute E r1 k2 _ _) as [r2|] eqn:E2; cbn [bind] in H; [|discriminate].
        rewrite (IH _ H) by tauto. pose proof (set_rx_shape _ _ _ _ _ _ E2) as (_ & _ & _ & _ & _ & Ho2).
        apply Ho2. intros ->. tauto. }
    destruct (IH _ Hnd' H) as (H1' & H2' & H3' & Hin & Hout).
    split; [congruence|]. split; [congruence|]. split; [congruence|]. split.
    + intros k' [<-|Hk']; [|now apply Hin]. rewrite Hout, Hunits by assumption. rewrite Hk, Hu. auto.
    + intros k' Hk'. cbn in Hk'. rewrite Hout by tauto. apply Ho. intros ->. tauto.
Qed.

Lemma rx_keys_nodup : NoDup rx_attr_keys.
Proof. apply nodupSb_NoDup. reflexivity. Qed.

Lemma reaction_init_parts E id lhs rhs attributes more units r :
  reaction_init E id lhs rhs attributes more units = Ok r ->
  id = VInt (r_id r) /\ 0 < r_id r /\ r_lhs r = lhs /\ r_rhs r = rhs /\
  (1 <= List.length lhs <= 3)%nat /\ (1 <= List.length rhs)%nat /\
  unit_inv E r /\ reaction_consistency E r = Ok tt /\
  (forall k, In k rx_attr_keys ->
     xattr r k = match sget k (supdate attributes more) with Some v => v | None => VNone end /\
     sget k (r_units r) = Some match sget k units with Some u => u | None => None end).
Proof.
  unfold reaction_init. set (attrs := supdate attributes more). intros H.
  destruct (match id with VSc (SInt z) => if z <=? 0 then Err EReactionInit else Ok z | _ => Err EReactionInit end)
    as [z|] eqn:Ez; cbn [bind] in H; [|discriminate].
  destruct (raise_if (Nat.ltb (List.length lhs) 1 || Nat.ltb (List.length rhs) 1) EReactionInit) eqn:E1;
    cbn [bind] in H; [|discriminate].
  destruct (raise_if (Nat.ltb 3 (List.length lhs)) EReactionInit) eqn:E2; cbn [bind] in H; [|discriminate].
  do 4 (match type of H with bind ?a _ = Ok _ => let E := fresh "E" in destruct a eqn:E; cbn [bind] in H; [|discriminate H] end).
  destruct (set_all_rattributes E rx_attr_keys attrs units _) as [r1|] eqn:Es; cbn [bind] in H; [|discriminate].
  destruct (reaction_consistency E r1) as [[]|] eqn:Ec; cbn [bind] in H; [|discriminate].
  inversion H; subst r1. clear H.
  assert (id = VInt z /\ 0 < z) as [-> Hz].
  { destruct id as [[]| |]; try discriminate. destruct (Z.leb_spec z0 0); [discriminate|].
    inversion Ez; subst. auto. }
  unfold raise_if in E1, E2.
  destruct (Nat.ltb_spec (List.length lhs) 1); [discriminate|].
  destruct (Nat.ltb_spec (List.length rhs) 1); [discriminate|].
  destruct (Nat.ltb_spec 3 (List.length lhs)); [discriminate|].
  pose proof (set_all_rx_shape _ _ _ _ _ _ rx_keys_nodup Es) as (Hid & Hlhs & Hrhs & Hin & _).
  cbn in Hid, Hlhs, Hrhs. subst.
  split; [reflexivity|]. split; [assumption|]. split; [reflexivity|]. split; [reflexivity|].
  split; [lia|]. split; [lia|]. split.
  - eapply set_all_rx_inv; [|exact Es]. split; [cbn; lia|]. unfold xattr. cbn. split; intros Hc; now destruct Hc.
  - split; [assumption|]. intros k Hk. now apply Hin.
Qed.

Lemma assign_keeps E r a :
  r_id (assign E r a) = r_id r /\ r_lhs (assign E r a) = r_lhs r /\ r_rhs (assign E r a) = r_rhs r.
Proof.
  destruct a as [[k v] u]. unfold assign. destruct (set_reaction_attribute E r k v u) eqn:H; [|auto].
  pose proof (set_rx_shape _ _ _ _ _ _ H) as (H1 & H2 & H3 & _). auto.
Qed.

Lemma assigns_keeps E l : forall r,
  r_id (assigns E r l) = r_id r /\ r_lhs (assigns E r l) = r_lhs r /\ r_rhs (assigns E r l) = r_rhs r.
Proof.
  induction l as [|a l IH]; intros r; [now repeat split|].
  unfold assigns. cbn [fold_left]. fold (assigns E (assign E r a) l).
  destruct (IH (assign E r a)) as (-> & -> & ->). apply assign_keeps.
Qed.

Lemma assigns_inv E l : forall r, unit_inv E r -> unit_inv E (assigns E r l).
Proof.
  induction l as [|a l IH]; intros r Hr; [assumption|].
  unfold assigns. cbn [fold_left]. apply IH. destruct a as [[k v] u]. unfold assign.
  destruct (set_reaction_attribute E r k v u) eqn:H; [|assumption]. eapply set_rx_inv; eauto.
Qed.

Lemma history_inv E r : rx_history E r -> unit_inv E r.
Proof.
  intros [id lhs rhs attributes more units r0 l H]. apply assigns_inv.
  now apply (reaction_init_parts _ _ _ _ _ _ _ _ H).
Qed.

Lemma history_conserves E r : good_formulas E -> rx_history E r -> conserves E (r_lhs r) (r_rhs r).
Proof.
  intros HE [id lhs rhs attributes more units r0 l H].
  destruct (assigns_keeps E l r0) as (_ & -> & ->). apply consistency_spec; [assumption|].
  now apply (reaction_init_parts _ _ _ _ _ _ _ _ H).
Qed.

Lemma prefactor_unit_si n w : prefactor_unit n w ->
  exists q, si_value w q /\ sget w si_factors = Some q /\ (0 < q)%Q.
Proof.
  unfold prefactor_unit, si_value. cbn.
  intros [[_ ->]|[[_ [->| ->]]|[_ [->| ->]]]];
    (eexists; split; [|split; [reflexivity|reflexivity]]); auto 10.
Qed.

(** SI prefactors can always be read. *)
Lemma history_arrh_a E r :
  rx_history E r -> xattr r "arrh_a" <> VNone ->
  exists f w q, rx_get_unit r "arrh_a" = Ok (Some w) /\ prefactor_unit (List.length (r_lhs r)) w /\
    si_value w q /\ get_arrh_a E false r = Ok (Some f) /\ get_arrh_a E true r = Ok (Some (fmul f (Fin q))) /\
    fltb f fzero = false.
Proof.
  intros Hh Hv. destruct (history_inv E r Hh) as (_ & Ha & _).
  destruct (Ha Hv) as (w & f & Hu & Hw & Hf & Hneg).
  destruct (prefactor_unit_si _ _ Hw) as (q & Hq & Hs & _).
  assert (is_none (xattr r "arrh_a") = false) as Hn
    by (destruct (xattr r "arrh_a") as [[]| |]; try reflexivity; now destruct Hv).
  assert (rx_get_unit r "arrh_a" = Ok (Some w)) as Hg by (unfold rx_get_unit; cbn; now rewrite Hu).
  exists f, w, q. split; [assumption|]. split; [assumption|]. split; [assumption|].
  unfold get_arrh_a. rewrite Hn, Hf. cbn [bind]. rewrite Hg. cbn [bind si_factor]. rewrite Hs. auto.
Qed.

Lemma history_arrh_c E r :
  rx_history E r -> xattr r "arrh_c" <> VNone ->
  exists b, is_electron_process r = Ok b /\ rx_get_unit r "arrh_c" = Ok (Some (if b then "eV" else "K")).
Proof.
  intros Hh Hv. destruct (history_inv E r Hh) as (_ & _ & Hc).
  destruct (Hc Hv) as (b & Hb & Hu). exists b. split; [assumption|]. unfold rx_get_unit. cbn. now rewrite Hu.
Qed.

(** Construction never reports a consistency error for attribute reasons. *)
Definition nv {A} (x : res A) : Prop := x <> Err EReactionValue.
Lemma nv_bind {A B} (x : res A) (f : A -> res B) : nv x -> (forall a, nv (f a)) -> nv (bind x f).
Proof. unfold nv. destruct x; cbn; [auto|]. intros H _. congruence. Qed.
Lemma nv_raise b e : e <> EReactionValue -> nv (raise_if b e).
Proof. unfold nv, raise_if. destruct b; congruence. Qed.
Lemma nv_names l : nv (names_of l).
Proof.
  intros H. apply mapM_Err_In in H. destruct H as (s & _ & H). unfold get_name in H.
  destruct (rstr s "name"); discriminate.
Qed.
Lemma nv_float E v : nv (py_float_v E v).
Proof.
  destruct v as [[]| |]; cbn; unfold nv; try discriminate. destruct (fparse E s); discriminate.
Qed.

Lemma set_rx_no_value_error E r k v u : nv (set_reaction_attribute E r k v u).
Proof.
  unfold set_reaction_attribute.
  repeat (apply nv_bind; [|intros _]).
  - destruct u; [|discriminate]. destruct (negb (is_none v)); [|discriminate].
    destruct (negb (shas k rx_default_units)); [discriminate|]. now apply nv_raise.
  - now apply nv_raise.
  - destruct (_ && _); [|discriminate]. apply nv_bind; [apply nv_bind; [apply nv_names|discriminate]|].
    intros b. now apply nv_raise.
  - destruct (_ && _); [|discriminate].
    destruct (List.length (r_lhs r)) as [|[|[|[|m]]]]; destruct u; try discriminate; now apply nv_raise.
  - now apply nv_raise.
  - destruct (String.eqb k "elastic"); [|discriminate]. apply nv_bind; [|intros b; now apply nv_raise].
    destruct v as [[]| |]; discriminate.
  - now apply nv_raise.
  - destruct (_ && _); [|discriminate]. apply nv_bind; [apply nv_float|]. intros f. now apply nv_raise.
  - discriminate.
Qed.

Lemma set_all_no_value_error E keys attrs units r : nv (set_all_rattributes E keys attrs units r).
Proof.
  revert r. induction keys as [|k ks IH]; cbn [set_all_rattributes]; intros r; [discriminate|].
  apply nv_bind; [apply set_rx_no_value_error|]. intros r'. apply IH.
Qed.

Lemma raise_if_cases b e : raise_if b e = Ok tt \/ raise_if b e = Err e.
Proof. destruct b; cbn; auto. Qed.

Lemma init_value_error E id lhs rhs attributes more units :
  good_formulas E ->
  reaction_init E id lhs rhs attributes more units = Err EReactionValue -> ~ conserves E lhs rhs.
Proof.
  intros HE H Hc. unfold reaction_init in H.
  destruct (match id with VSc (SInt z) => if z <=? 0 then Err EReactionInit else Ok z | _ => Err EReactionInit end)
    as [z|e] eqn:Ez; cbn [bind] in H.
  2:{ inversion H; subst e. destruct id as [[]| |]; try discriminate. destruct (z <=? 0); discriminate. }
  do 6 (match type of H with
        | bind (raise_if ?b ?e) _ = Err _ =>
            let Hr := fresh in destruct (raise_if_cases b e) as [Hr|Hr]; rewrite Hr in H; clear Hr; cbn [bind] in H; [|discriminate]
        end).
  destruct (set_all_rattributes E rx_attr_keys _ units _) as [r|e] eqn:Es; cbn [bind] in H.
  2:{ inversion H; subst e. now apply set_all_no_value_error in Es. }
  pose proof (set_all_rx_shape _ _ _ _ _ _ rx_keys_nodup Es) as (_ & Hl & Hr' & _). cbn in Hl, Hr'.
  assert (reaction_consistency E r = Ok tt) as Hok.
  { apply consistency_spec; [assumption|]. now rewrite Hl, Hr'. }
  rewrite Hok in H. discriminate.
Qed.

(** ** Splitting and joining *)

Lemma split_skip sep s cur l : split_l sep (List.length s) cur (s ++ l) = split_l sep 0 cur l.
Proof. induction s as [|c s IH]; [reflexivity|]. cbn [List.length app split_l]. exact IH. Qed.

(** [p] is read as one piece when followed by [tail]. *)
Definition piece (sep tail p : list ascii) : Prop :=
  forall a b, p = a ++ b -> b <> [] -> prefixb sep (b ++ tail) = false.

Lemma piece_tl sep tail c p : piece sep tail (c :: p) -> piece sep tail p.
Proof. intros H a b He. apply (H (c :: a) b). now subst. Qed.

Lemma prefixb_app p l : prefixb p (p ++ l) = true.
Proof. induction p as [|c p IH]; cbn; [reflexivity|]. now rewrite Ascii.eqb_refl. Qed.

Lemma split_piece sep rest p : forall cur,
  sep <> [] -> piece sep (sep ++ rest) p ->
  split_l sep 0 cur (p ++ sep ++ rest) = (rev cur ++ p) :: split_l sep 0 [] rest.
Proof.
  induction p as [|c p IH]; intros cur Hs Hp.
  - destruct sep as [|x sep]; [congruence|]. cbn [app split_l]. rewrite app_nil_r.
    change (x :: sep ++ rest) with ((x :: sep) ++ rest). rewrite prefixb_app. cbn [List.length pred].
    now rewrite split_skip.
  - cbn [app split_l]. change (c :: p ++ sep ++ rest) with ((c :: p) ++ sep ++ rest).
    rewrite (Hp [] (c :: p) eq_refl) by discriminate.
    rewrite IH; [|assumption|now apply piece_tl in Hp]. cbn [rev]. now rewrite <- app_assoc.
Qed.

Lemma split_last sep p : forall cur, piece sep [] p -> split_l sep 0 cur p = [rev cur ++ p].
Proof.
  induction p as [|c p IH]; intros cur Hp.
  - cbn. now rewrite app_nil_r.
  - cbn [split_l]. specialize (Hp [] (c :: p) eq_refl) as H. rewrite app_nil_r in H.
    rewrite H by discriminate. rewrite IH by now apply piece_tl in Hp. cbn [rev]. now rewrite <- app_assoc.
Qed.

Fixpoint join_l (sep : list ascii) (l : list (list ascii)) : list ascii :=
  match l with
  | [] => []
  | [x] => x
  | x :: l' => x ++ sep ++ join_l sep l'
  end.

Lemma join_chars sep l : chars (str_join sep l) = join_l (chars sep) (map chars l).
Proof.
  induction l as [|x l IH]; [reflexivity|]. destruct l as [|y l]; [reflexivity|].
  change (str_join sep (x :: y :: l)) with (x ++ sep ++ str_join sep (y :: l))%string.
  rewrite !chars_app, IH. reflexivity.
Qed.

Lemma split_join sep l :
  sep <> [] -> l <> [] ->
  (forall p rest, In p l -> piece sep (sep ++ rest) p) ->
  (forall p, In p l -> piece sep [] p) ->
  split_l sep 0 [] (join_l sep l) = l.
Proof.
  intros Hs. induction l as [|x l IH]; intros Hne H1 H2; [congruence|]. clear Hne.
  destruct l as [|y l].
  - cbn [join_l]. rewrite split_last; [reflexivity|]. apply H2. now left.
  - cbn [join_l]. rewrite split_piece; [|assumption|apply H1; now left]. cbn [rev app]. f_equal.
    apply IH; [discriminate|intros; apply H1; now right|intros; apply H2; now right].
Qed.

Lemma prefixb_app_inv p l : prefixb p l = true -> exists m, l = p ++ m.
Proof.
  revert l. induction p as [|c p IH]; intros l Hl; [now exists l|].
  destruct l as [|d l]; cbn in Hl; [discriminate|]. apply Bool.andb_true_iff in Hl. destruct Hl as [Hc Hl].
  apply Ascii.eqb_eq in Hc. subst d. destruct (IH _ Hl) as [m ->]. now exists m.
Qed.

Definition has_sub (t l : list ascii) : Prop := exists a b, l = a ++ t ++ b.

Lemma contains_chars s t : contains s t <-> has_sub (chars t) (chars s).
Proof.
  split.
  - intros (a & b & ->). exists (chars a), (chars b). now rewrite !chars_app.
  - intros (a & b & H). exists (str_of a), (str_of b). apply chars_inj. now rewrite !chars_app, !chars_str_of.
Qed.

Lemma piece_plus p tail :
  ~ has_sub (chars " + ") p -> ~ (exists b, p = b ++ chars " +") ->
  (tail = [] \/ exists rest, tail = chars " + " ++ rest) ->
  piece (chars " + ") tail p.
Proof.
  intros H1 H2 Ht a b -> Hb. destruct (prefixb (chars " + ") (b ++ tail)) eqn:E; [|reflexivity]. exfalso.
  apply prefixb_app_inv in E. destruct E as [m E]. cbn [chars app] in E.
  destruct b as [|c1 b]; [congruence|]. cbn in E. injection E as -> E.
  destruct b as [|c2 b].
  - cbn in E. destruct Ht as [->|[rest ->]]; cbn in E; discriminate.
  - cbn in E. injection E as -> E. destruct b as [|c3 b].
    + apply H2. now exists a.
    + cbn in E. injection E as -> E. apply H1. now exists a, b.
Qed.

(** A side without [>] is one piece for the separator [" > "]. *)
Lemma piece_gt p tail :
  ~ In ">"%char p -> (tail = [] \/ exists rest, tail = chars " > " ++ rest) ->
  piece (chars " > ") tail p.
Proof.
  intros H1 Ht a b -> Hb. destruct (prefixb (chars " > ") (b ++ tail)) eqn:E; [|reflexivity]. exfalso.
  apply prefixb_app_inv in E. destruct E as [m E]. cbn [chars app] in E.
  destruct b as [|c1 b]; [congruence|]. cbn in E. injection E as -> E.
  destruct b as [|c2 b].
  - cbn in E. destruct Ht as [->|[rest ->]]; cbn in E; discriminate.
  - cbn in E. injection E as -> E. apply H1. apply in_or_app. right. right. now left.
Qed.

Lemma join_no_gt l : (forall p, In p l -> ~ In ">"%char p) -> ~ In ">"%char (join_l (chars " + ") l).
Proof.
  induction l as [|x l IH]; intros H; [intros []|]. destruct l as [|y l].
  - apply H. now left.
  - cbn [join_l]. intros Hin. apply in_app_or in Hin. destruct Hin as [Hin|Hin].
    + apply (H x); [now left|assumption].
    + apply in_app_or in Hin. destruct Hin as [Hin|Hin].
      * cbn in Hin. repeat (destruct Hin as [Hin|Hin]; [discriminate|]). contradiction.
      * apply IH; [|assumption]. intros p Hp. apply H. now right.
Qed.

Lemma no_gt_char s : ~ contains s ">" -> ~ In ">"%char (chars s).
Proof.
  intros H Hin. apply H. apply contains_chars. apply in_split in Hin. destruct Hin as (a & b & Hab).
  exists a, b. assumption.
Qed.

Lemma split_side l :
  l <> [] -> (forall n, In n l -> clean_name n) -> map str_strip (str_split " + " (str_join " + " l)) = l.
Proof.
  intros Hne Hc. unfold str_split. rewrite join_chars.
  assert (forall p tail, In p (map chars l) -> (tail = [] \/ exists rest, tail = chars " + " ++ rest) ->
            piece (chars " + ") tail p) as Hp.
  { intros p tail Hin Ht. apply in_map_iff in Hin. destruct Hin as (n & <- & Hn).
    destruct (Hc n Hn) as (_ & _ & H1 & H2). apply piece_plus; [now rewrite <- contains_chars| |assumption].
    intros (b & Hb). apply H2. exists (str_of b). apply chars_inj. now rewrite chars_app, chars_str_of. }
  rewrite split_join.
  - rewrite !map_map. rewrite <- (map_id l) at 2. apply map_ext_in. intros n Hn. rewrite str_of_chars.
    now apply Hc.
  - discriminate.
  - destruct l; [congruence|discriminate].
  - intros p rest Hin. apply Hp; eauto.
  - intros p Hin. apply Hp; auto.
Qed.

Lemma ssort_isort l : ssort l = SortLemmas.isort String.leb l.
Proof. induction l as [|x l IH]; cbn; [reflexivity|]. rewrite IH. generalize (SortLemmas.isort String.leb l).
  intros m. induction m as [|y m IHm]; cbn; [reflexivity|]. now rewrite IHm.
Qed.

Lemma ssort_perm l m : ssort l = ssort m <-> Permutation l m.
Proof.
  rewrite !ssort_isort. apply SortLemmas.isort_eq_perm.
  - apply String.leb_total.
  - apply SortLemmas.string_leb_trans.
  - apply String.leb_antisym.
Qed.

Lemma unique_key_str ls rs :
  ls <> [] -> rs <> [] -> (forall n, In n (ls ++ rs) -> clean_name n) ->
  unique_key (str_join " + " ls ++ " > " ++ str_join " + " rs)%string = Ok (ssort ls, ssort rs).
Proof.
  intros Hl Hr Hc. unfold unique_key.
  assert (forall l, (forall n, In n l -> In n (ls ++ rs)) -> ~ In ">"%char (chars (str_join " + " l))) as Hgt.
  { intros l Hin. rewrite join_chars. apply join_no_gt. intros p Hp. apply in_map_iff in Hp.
    destruct Hp as (n & <- & Hn). apply no_gt_char. now apply Hc, Hin. }
  assert (str_split " > " (str_join " + " ls ++ " > " ++ str_join " + " rs) =
          [str_join " + " ls; str_join " + " rs]) as ->.
  { unfold str_split. rewrite !chars_app. rewrite split_piece.
    - cbn [rev app]. rewrite split_last.
      + cbn [rev app map]. now rewrite !str_of_chars.
      + apply piece_gt; [apply Hgt; intros; apply in_or_app; auto|now left].
    - discriminate.
    - apply piece_gt; [apply Hgt; intros; apply in_or_app; auto|eauto]. }
  rewrite !split_side; auto; intros n Hn; apply Hc, in_or_app; auto.
Qed.

Lemma reaction_str_names r ls rs :
  names_of (r_lhs r) = Ok ls -> names_of (r_rhs r) = Ok rs ->
  reaction_str r = Ok (str_join " + " ls ++ " > " ++ str_join " + " rs)%string.
Proof. intros H1 H2. unfold reaction_str. rewrite H1, H2. reflexivity. Qed.

Lemma names_length l ns : names_of l = Ok ns -> List.length ns = List.length l.
Proof. intros H. apply mapM_Ok_inv in H. induction H; cbn; congruence. Qed.

Lemma Ok_inj {A} (a b : A) : Ok a = Ok b -> a = b.
Proof. congruence. Qed.

Lemma unique_key_iff E r1 r2 l1 l2 p1 p2 s1 s2 :
  rx_history E r1 -> rx_history E r2 ->
  names_of (r_lhs r1) = Ok l1 -> names_of (r_rhs r1) = Ok p1 ->
  names_of (r_lhs r2) = Ok l2 -> names_of (r_rhs r2) = Ok p2 ->
  (forall n, In n (l1 ++ p1 ++ l2 ++ p2) -> clean_name n) ->
  reaction_str r1 = Ok s1 -> reaction_str r2 = Ok s2 ->
  (exists k, unique_key s1 = Ok k) /\ (exists k, unique_key s2 = Ok k) /\
  (unique_key s1 = unique_key s2 <-> Permutation l1 l2 /\ Permutation p1 p2).
Proof.
  intros [i1 lh1 rh1 a1 m1 u1 r01 as1 H1] [i2 lh2 rh2 a2 m2 u2 r02 as2 H2] Hl1 Hp1 Hl2 Hp2 Hc Hs1 Hs2.
  rewrite (reaction_str_names _ _ _ Hl1 Hp1) in Hs1. rewrite (reaction_str_names _ _ _ Hl2 Hp2) in Hs2.
  apply Ok_inj in Hs1. apply Ok_inj in Hs2. rewrite <- Hs1, <- Hs2. clear s1 s2 Hs1 Hs2.
  pose proof (reaction_init_parts _ _ _ _ _ _ _ _ H1) as (_ & _ & He1 & Hf1 & Hn1 & Hn1' & _).
  pose proof (reaction_init_parts _ _ _ _ _ _ _ _ H2) as (_ & _ & He2 & Hf2 & Hn2 & Hn2' & _).
  destruct (assigns_keeps E as1 r01) as (_ & Hk1 & Hk1'). destruct (assigns_keeps E as2 r02) as (_ & Hk2 & Hk2').
  assert (l1 <> []) by (intros ->; apply names_length in Hl1; rewrite Hk1, He1 in Hl1; cbn in Hl1; lia).
  assert (p1 <> []) by (intros ->; apply names_length in Hp1; rewrite Hk1', Hf1 in Hp1; cbn in Hp1; lia).
  assert (l2 <> []) by (intros ->; apply names_length in Hl2; rewrite Hk2, He2 in Hl2; cbn in Hl2; lia).
  assert (p2 <> []) by (intros ->; apply names_length in Hp2; rewrite Hk2', Hf2 in Hp2; cbn in Hp2; lia).
  rewrite (unique_key_str l1 p1), (unique_key_str l2 p2); auto;
    try (intros n Hn; apply Hc; rewrite !in_app_iff in *; tauto).
  split; [eauto|]. split; [eauto|]. rewrite <- !ssort_perm. split.
  - intros He. inversion He. auto.
  - intros [-> ->]. reflexivity.
Qed.

(** ** Elasticity *)

Lemma set_eqb_spec l m : set_eqb l m = true <-> (forall n, In n l <-> In n m).
Proof.
  unfold set_eqb. rewrite Bool.andb_true_iff, !subsetS_incl. split.
  - intros [H1 H2] n. split; auto.
  - intros H. split; intros n; apply H.
Qed.

Lemma default_elastic r ls rs :
  xattr r "elastic" = VNone -> names_of (r_lhs r) = Ok ls -> names_of (r_rhs r) = Ok rs ->
  exists b, get_elastic r = Ok b /\ (b = true <-> (forall n, In n ls <-> In n rs)).
Proof.
  intros Hv Hl Hr. unfold get_elastic. rewrite Hv. cbn [VNone]. rewrite Hl, Hr. cbn [bind].
  eexists. split; [reflexivity|]. apply set_eqb_spec.
Qed.

Lemma default_elastic_two r ls rs :
  xattr r "elastic" = VNone -> names_of (r_lhs r) = Ok ls -> names_of (r_rhs r) = Ok rs ->
  (List.length ls <= 2)%nat -> List.length ls = List.length rs ->
  exists b, get_elastic r = Ok b /\ (b = true <-> Permutation ls rs).
Proof.
  intros Hv Hl Hr Hn He. destruct (default_elastic r ls rs Hv Hl Hr) as (b & Hb & Hi). exists b.
  split; [assumption|]. rewrite Hi. split.
  - intros H. destruct ls as [|x [|y [|z ls]]]; cbn in Hn; try lia;
      destruct rs as [|x' [|y' [|z' rs]]]; cbn in He; try lia.
    + constructor.
    + assert (In x' [x]) as [->|[]] by (apply H; now left). reflexivity.
    + assert (In x [x'; y']) as Hx by (apply H; now left).
      assert (In y [x'; y']) as Hy by (apply H; right; now left).
      assert (In x' [x; y]) as Hx' by (apply H; now left).
      assert (In y' [x; y]) as Hy' by (apply H; right; now left).
      cbn in *.
      destruct Hx as [<-|[<-|[]]].
      * destruct Hy' as [Hy'|[->|[]]]; [subst y'|reflexivity].
        destruct Hy as [<-|[<-|[]]]; reflexivity.
      * destruct Hx' as [->|[->|[]]]; [|apply perm_swap].
        destruct Hy as [<-|[<-|[]]]; reflexivity.
  - intros Hp n. split; apply Permutation_in; [assumption|now symmetry].
Qed.

(** Names without blanks and without [>] are clean. *)
Lemma clean_no_blank n :
  (forall c, In c (chars n) -> is_space c = false) -> ~ In ">"%char (chars n) -> clean_name n.
Proof.
  intros Hs Hg.
  assert (forall l, (forall c, In c l -> is_space c = false) -> lstrip_l is_space l = l) as Hl.
  { intros [|c l] H; cbn; [reflexivity|]. now rewrite H by now left. }
  assert (Hsp : ~ In " "%char (chars n)) by (intros H; apply Hs in H; discriminate).
  split; [|split; [|split]].
  - unfold str_strip, rstrip_l. rewrite (Hl _ Hs). rewrite Hl, rev_involutive; [apply str_of_chars|].
    intros c Hc. apply Hs. now apply in_rev.
  - intros H. apply contains_chars in H. destruct H as (a & b & H). apply Hg. rewrite H.
    apply in_or_app. right. now left.
  - intros H. apply contains_chars in H. destruct H as (a & b & H). apply Hsp. rewrite H.
    apply in_or_app. right. now left.
  - intros (b & H). apply Hsp. rewrite H, chars_app. apply in_or_app. right. now left.
Qed.
