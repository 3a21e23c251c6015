(** Writing and reading species and reactions. *)
From Verif Require Import Base BaseLemmas Species Reactions MolSpec SpeciesProofs ReactionProofs SortLemmas Classification Xml XmlSpec.

(** ** Dictionaries built from keyed lists *)

Lemma supdate_app {V} (e d : list (string * V)) :
  NoDup (akeys d ++ akeys e) -> supdate d e = d ++ e.
Proof.
  revert d. induction e as [|[k v] e IH]; intros d H; [symmetry; apply app_nil_r|].
  unfold supdate. cbn [fold_left fst snd].
  assert (Hk : ~ In k (akeys d)).
  { intros Hk. cbn in H. apply NoDup_remove_2 in H. apply H, in_or_app. now left. }
  assert (sset k v d = d ++ [(k, v)]) as ->.
  { clear -Hk. induction d as [|[k' v'] d IH]; [reflexivity|]. cbn.
    destruct (String.eqb_spec k k') as [->|]; [cbn in Hk; tauto|].
    rewrite IH; [reflexivity|]. cbn in Hk. tauto. }
  fold (supdate (d ++ [(k, v)]) e). rewrite IH.
  - now rewrite <- app_assoc.
  - unfold akeys in *. rewrite map_app. cbn. rewrite <- app_assoc. exact H.
Qed.

Lemma dict_of_id {V} (l : list (string * V)) : NoDup (akeys l) -> dict_of l = l.
Proof. intros H. unfold dict_of. rewrite supdate_app; [reflexivity|exact H]. Qed.

(** [h k] for each key, in order. *)
Definition keyed {V} (h : string -> option V) (ks : list string) : list (string * V) :=
  flat_map (fun k => match h k with Some v => [(k, v)] | None => [] end) ks.

Lemma keyed_keys {V} (h : string -> option V) ks k :
  In k (akeys (keyed h ks)) <-> In k ks /\ h k <> None.
Proof.
  unfold keyed. induction ks as [|x ks IH]; [cbn; tauto|].
  cbn [flat_map]. unfold akeys in *. rewrite map_app, in_app_iff, IH.
  destruct (h x) as [v|] eqn:Ex; cbn; split.
  - intros [[->|[]]|[? ?]]; [rewrite Ex; split; [now left|discriminate]|tauto].
  - intros [[->|?] ?]; tauto.
  - intros [[]|[? ?]]. tauto.
  - intros [[->|?] ?]; [congruence|tauto].
Qed.

Lemma keyed_nodup {V} (h : string -> option V) ks : NoDup ks -> NoDup (akeys (keyed h ks)).
Proof.
  intros H. induction H as [|x ks Hx Hn IH]; [constructor|]. unfold keyed. cbn [flat_map]. fold (keyed h ks).
  destruct (h x) as [v|] eqn:Ex; [|exact IH]. cbn. constructor; [|exact IH].
  intros Hi. apply keyed_keys in Hi. tauto.
Qed.

Lemma keyed_get {V} (h : string -> option V) ks k :
  sget k (keyed h ks) = if memS k ks then h k else None.
Proof.
  induction ks as [|x ks IH]; [reflexivity|]. unfold keyed. cbn [flat_map]. fold (keyed h ks).
  cbn [memS existsb]. fold (memS k ks).
  destruct (String.eqb_spec k x) as [->|N]; cbn [orb].
  - destruct (h x) as [v|] eqn:Ex; cbn; [now rewrite String.eqb_refl|].
    rewrite IH. now destruct (memS x ks).
  - destruct (h x) as [v|]; cbn; [|exact IH]. destruct (String.eqb_spec k x); [contradiction|exact IH].
Qed.

Lemma keyed_ext {V} (h g : string -> option V) ks : (forall k, In k ks -> h k = g k) -> keyed h ks = keyed g ks.
Proof.
  intros H. unfold keyed. induction ks as [|x ks IH]; [reflexivity|]. cbn [flat_map].
  rewrite IH by (intros; apply H; now right). rewrite H by now left. reflexivity.
Qed.

(** ** Attribute values as texts *)

Section Text.
  Variables (E : env) (so : pyval -> string).
  Hypothesis NR : numbers_readable E.

  (** What is read back for an attribute value: nothing for None. *)
  Definition text_of (v : pyval) : option pyval :=
    match v with
    | VSc SNone => None
    | VDict d => Some (VDict (map (fun kv => (fst kv, SStr (show_scalar E (snd kv)))) d))
    | _ => Some (VStr (show E so v))
    end.
  Definition back (v : pyval) : pyval := match text_of v with Some w => w | None => VNone end.

  Lemma given_spec v : v <> VStr "" -> given v = negb (is_none v).
  Proof. intros H. destruct v as [[| | | | |s]| |]; try reflexivity. cbn. destruct (String.eqb_spec s "") as [->|]; [now destruct H|reflexivity]. Qed.

  Lemma back_none v : is_none (back v) = is_none v.
  Proof. destruct v as [[]| |]; reflexivity. Qed.

  Lemma back_VNone v : back v = VNone <-> v = VNone.
  Proof. destruct v as [[]| |]; cbn; split; intros H; try discriminate H; try reflexivity. Qed.

  Lemma scalar_float x : x <> SNone -> (forall b, x <> SBool b) -> py_float E (SStr (show_scalar E x)) = py_float E x.
  Proof using NR.
    destruct NR as (Ff & Fi & _). intros H1 H2. destruct x; cbn; try reflexivity; try now rewrite ?Ff, ?Fi.
    now destruct (H2 b).
  Qed.

  Lemma back_float v : type_in v [TFlt; TNp; TStr; TInt; TNone] = true -> py_float_v E (back v) = py_float_v E v.
  Proof using NR.
    intros H. destruct v as [x| |]; try discriminate H. destruct x; try discriminate H; try reflexivity;
      (unfold back; cbn [text_of py_float_v show VStr]; apply scalar_float; [discriminate|intros; discriminate]).
  Qed.

  Lemma back_int v : type_in v [TInt; TStr; TNone] = true -> py_int_v E (back v) = py_int_v E v.
  Proof using NR.
    destruct NR as (_ & _ & Fz & _). intros H. destruct v as [x| |]; try discriminate H. destruct x; try discriminate H; try reflexivity.
    cbn. now rewrite Fz.
  Qed.

  Lemma back_str v : type_in v [TStr; TNone] = true -> back v = v.
  Proof. intros H. destruct v as [x| |]; try discriminate H. destruct x; try discriminate H; reflexivity. Qed.
End Text.

(** ** One species *)

Lemma float_types k : In k ["mass"; "h_form"; "lj_epsilon"; "lj_sigma"; "stick_coef"] -> rp_attr_types k = [TFlt; TNp; TStr; TInt; TNone].
Proof. intros H. repeat (destruct H as [<-|H]; [reflexivity|]). contradiction. Qed.
Lemma int_types k : In k ["charge"; "qdb_id"] -> rp_attr_types k = [TInt; TStr; TNone].
Proof. intros H. repeat (destruct H as [<-|H]; [reflexivity|]). contradiction. Qed.
Lemma str_types k : In k ["name"; "stateless"; "state"; "hpem_name"; "comments"; "latex"] -> rp_attr_types k = [TStr; TNone].
Proof. intros H. repeat (destruct H as [<-|H]; [reflexivity|]). contradiction. Qed.

(** Units that can be stored with a value. *)
Definition unit_fits (k : string) (u : option string) : Prop :=
  match u with None => True | Some w => sget k rp_default_units = Some w end.

Lemma set_species_unit r k v u r' :
  set_species_attribute r k v u = Ok r' ->
  sget k (rp_units r') = Some u /\ (forall k', k' <> k -> sget k' (rp_units r') = sget k' (rp_units r)) /\
  (v <> VNone -> unit_fits k u).
Proof.
  unfold set_species_attribute. intros H. binds H. injection H as <-. cbn [rp_units].
  split; [apply (aget_aset_same _ Seqb_spec)|]. split; [intros; now apply (aget_aset_other _ Seqb_spec)|].
  intros Hv. destruct u as [w|]; [|exact I]. unfold unit_fits.
  destruct (is_none v) eqn:Ev; [destruct v as [[]| |]; try discriminate Ev; now destruct Hv|].
  destruct (shas k rp_default_units) eqn:Es; cbn [negb] in E; [|discriminate E].
  unfold rp_unit_allowed in E. destruct (sget k rp_default_units) as [d|]; [|discriminate E].
  destruct (String.eqb_spec w d); [congruence|discriminate E].
Qed.

Lemma set_all_units keys attrs units r r' :
  set_all_attributes keys attrs units r = Ok r' -> NoDup keys ->
  (forall k, In k keys -> sget k (rp_units r') = Some (match sget k units with Some u => u | None => None end) /\
     (rattr r' k <> VNone -> unit_fits k (match sget k units with Some u => u | None => None end))) /\
  (forall k, ~ In k keys -> sget k (rp_units r') = sget k (rp_units r)).
Proof.
  revert r. induction keys as [|k ks IH]; cbn [set_all_attributes]; intros r H Hnd.
  - inversion H; subst. split; [intros ? []|reflexivity].
  - destruct (set_species_attribute r k _ _) as [r1|] eqn:E1; cbn [bind] in H; [|discriminate].
    inversion Hnd as [|? ? Hni Hnd']; subst. destruct (IH _ H Hnd') as (Hin & Hout).
    destruct (set_species_unit _ _ _ _ _ E1) as (U1 & U2 & U3).
    destruct (set_all_spec _ _ _ _ _ H Hnd') as (_ & _ & _ & Ho). split.
    + intros k' [<-|Hk']; [|now apply Hin]. rewrite (Hout k Hni), U1. split; [reflexivity|].
      intros Hv. apply U3. intros Hc. apply Hv. rewrite (Ho k Hni), (rattr_set_same _ _ _ _ _ E1). exact Hc.
    + intros k' Hk'. cbn in Hk'. rewrite Hout by tauto. apply U2. intros ->. tauto.
Qed.

Lemma history_units r : sp_history r ->
  0 <= rp_id r /\
  forall k, In k rp_attr_keys -> exists u, sget k (rp_units r) = Some u /\ (rattr r k <> VNone -> unit_fits k u).
Proof.
  induction 1 as [uid id attributes more units r H|r k0 v u r' Hh [IHi IH] H].
  - unfold rp_init in H. destruct (match id with VSc (SInt z) => if z <? 0 then Err ERPInit else Ok z | _ => Err ERPInit end)
      as [z|] eqn:Ez; cbn [bind] in H; [|discriminate]. binds H.
    destruct (set_all_spec _ _ _ _ _ H rp_keys_nodup) as (_ & Hid & _). cbn in Hid. split.
    + rewrite Hid. destruct id as [[]| |]; try discriminate. destruct (Z.ltb_spec z0 0); [discriminate|].
      inversion Ez; subst. assumption.
    + intros k Hk. destruct (set_all_units _ _ _ _ _ H rp_keys_nodup) as (Hin & _). destruct (Hin k Hk) as (Hu & Hf).
      eexists. split; [exact Hu|exact Hf].
  - destruct (set_species_facts _ _ _ _ _ H) as (_ & _ & _ & ->). split; [exact IHi|].
    destruct (set_species_unit _ _ _ _ _ H) as (U1 & U2 & U3). intros k Hk.
    destruct (string_dec k k0) as [->|Hne].
    + exists u. split; [exact U1|]. rewrite (rattr_set_same _ _ _ _ _ H). exact U3.
    + rewrite (U2 k Hne), (rattr_set_other _ _ _ _ _ _ H Hne). now apply IH.
Qed.

(** The unit of an attribute with a value is the default one. *)
Lemma history_get_unit r k d : sp_history r -> In k rp_attr_keys -> rattr r k <> VNone ->
  sget k rp_default_units = Some d -> rp_get_unit r k = Ok d.
Proof.
  intros H Hk Hv Hd. destruct (history_units r H) as (_ & Hu). destruct (Hu k Hk) as (u & Eu & F).
  unfold rp_get_unit. rewrite Hd, Eu. destruct u as [w|]; [|reflexivity].
  specialize (F Hv). unfold unit_fits in F. congruence.
Qed.

Section OneSpecies.
  Variables (E : env) (so : pyval -> string).
  Hypothesis NR : numbers_readable E.
  Variable r : rp.
  Hypothesis W : writable_species r.

  Let units := units_of (fun k => let* u := rp_get_unit r k in Ok (Some u)) rp_attr_keys.

  Lemma units_of_get get keys k :
    sget k (units_of get keys) = if memS k keys then match get k with Ok u => u | Err _ => None end else None.
  Proof.
    induction keys as [|x ks IH]; [reflexivity|]. cbn [units_of memS existsb]. fold (memS k ks).
    destruct (String.eqb_spec k x) as [->|N]; cbn [orb].
    - destruct (get x) as [[u|]|] eqn:Eg.
      + cbn. now rewrite String.eqb_refl.
      + rewrite IH. now destruct (memS x ks).
      + rewrite IH. now destruct (memS x ks).
    - destruct (get x) as [[u|]|]; try exact IH. cbn. destruct (String.eqb_spec k x); [contradiction|exact IH].
  Qed.

  (** The unit written with an attribute. *)
  Definition unit_written (k : string) : option string :=
    if String.eqb k "ret_coefs" then None else sget k rp_default_units.

  Lemma unit_written_spec k : In k rp_attr_keys -> rattr r k <> VNone ->
    sget k units = sget k rp_default_units.
  Proof using W.
    intros Hk Hv. unfold units. rewrite units_of_get. rewrite (proj2 (memS_In k _) Hk).
    destruct (sget k rp_default_units) as [d|] eqn:Ed.
    - now rewrite (history_get_unit r k d (ws_history _ W) Hk Hv Ed).
    - unfold rp_get_unit. now rewrite Ed.
  Qed.

  (** The sub-element of an attribute. *)
  Definition item_of (k : string) : option item :=
    match rattr r k with
    | VSc SNone => None
    | VDict d => Some (MkItem k None (BRets (map (fun kv => (fst kv, Some (show_scalar E (snd kv)))) d)))
    | v => Some (MkItem k (unit_written k) (BText (Some (show E so v))))
    end.

  Definition el_of : element := MkEl (ishow E (rp_id r)) (map snd (keyed item_of rp_attr_keys)).

  Lemma dict_only k d : In k rp_attr_keys -> rattr r k = VDict d -> k = "ret_coefs".
  Proof using W.
    intros Hk Hd. pose proof (history_types r (ws_history _ W) k Hk) as T. rewrite Hd in T.
    cbn in Hk. repeat (destruct Hk as [<-|Hk]; [first [reflexivity|discriminate T]|]). contradiction.
  Qed.

  Lemma ret_only v : rattr r "ret_coefs" = v -> v = VNone \/ exists d, v = VDict d.
  Proof using W.
    intros Hd. assert (In "ret_coefs" rp_attr_keys) as Hk by (now apply memS_In).
    pose proof (history_types r (ws_history _ W) _ Hk) as T. rewrite Hd in T.
    destruct v as [[]| |]; try discriminate T; [now left|right; eauto].
  Qed.

  Lemma no_other k : In k rp_attr_keys -> rattr r k <> VOther.
  Proof using W.
    intros Hk Hd. pose proof (history_types r (ws_history _ W) k Hk) as T. rewrite Hd in T.
    cbn in Hk. repeat (destruct Hk as [<-|Hk]; [discriminate T|]). contradiction.
  Qed.

  Lemma attrs_get k : sget k (supdate (map (fun k => (k, rattr r k)) rp_attr_keys) []) =
    if memS k rp_attr_keys then Some (rattr r k) else None.
  Proof.
    change (supdate ?d []) with d.
    assert (map (fun k => (k, rattr r k)) rp_attr_keys = keyed (fun k => Some (rattr r k)) rp_attr_keys) as -> by reflexivity.
    exact (keyed_get (fun k => Some (rattr r k)) rp_attr_keys k).
  Qed.

  Lemma rp_item_of k : In k rp_attr_keys ->
    rp_item E so (supdate (map (fun k => (k, rattr r k)) rp_attr_keys) []) units k =
    Ok (match item_of k with Some i => [i] | None => [] end).
  Proof using W.
    intros Hk. unfold rp_item. rewrite attrs_get, (proj2 (memS_In k _) Hk).
    rewrite given_spec by (now apply (ws_texts _ W)). rewrite negb_involutive. unfold item_of.
    destruct (rattr r k) as [x|d|] eqn:Ev.
    - assert (String.eqb k "ret_coefs" = true -> x = SNone) as Hr.
      { intros He. apply String.eqb_eq in He. subst k. destruct (ret_only _ Ev) as [Hc|[d Hc]]; [now injection Hc|discriminate]. }
      unfold unit_written. destruct x; cbn [is_none]; [reflexivity| | | | |];
        (destruct (String.eqb k "ret_coefs"); [specialize (Hr eq_refl); discriminate Hr|];
         rewrite unit_written_spec by (assumption || (rewrite Ev; discriminate)); reflexivity).
    - rewrite (dict_only k d Hk Ev). cbn. reflexivity.
    - now destruct (no_other k Hk).
  Qed.

  Lemma concat_opt {A} (f : string -> option A) ks :
    List.concat (map (fun k => match f k with Some i => [i] | None => [] end) ks) = map snd (keyed f ks).
  Proof.
    induction ks as [|k ks IH]; [reflexivity|]. cbn [map List.concat]. rewrite IH. unfold keyed. cbn [flat_map].
    rewrite map_app. now destruct (f k).
  Qed.

  Lemma write_species b n : get_name r = Ok n -> known b (SStr n) = false ->
    add_rp_from_instance E so r b =
      (MkB (b_keys b ++ [SStr n]) (b_species b ++ [el_of]) (b_reactions b), Ok tt).
  Proof using W.
    intros Hn Hk. unfold add_rp_from_instance, add_rp_from_attributes. cbv zeta.
    assert (rattr r "name" = VSc (SStr n)) as Hv.
    { unfold get_name, rstr in Hn. destruct (rattr r "name") as [[]| |]; try discriminate Hn. injection Hn as ->. reflexivity. }
    rewrite attrs_get. change (memS "name" rp_attr_keys) with true. cbv iota. rewrite Hv. cbv iota. rewrite Hk.
    assert (mapM (rp_item E so (supdate (map (fun k => (k, rattr r k)) rp_attr_keys) [])
                   (units_of (fun k => let* u := rp_get_unit r k in Ok (Some u)) rp_attr_keys)) rp_attr_keys
            = Ok (map (fun k => match item_of k with Some i => [i] | None => [] end) rp_attr_keys)) as ->.
    { apply mapM_total. intros k Hk'. exact (rp_item_of k Hk'). }
    rewrite concat_opt. reflexivity.
  Qed.
End OneSpecies.
