(** Reading back what was written: species. *)
From Verif Require Import Base BaseLemmas Species Reactions MolSpec SpeciesProofs ReactionProofs SortLemmas Classification Xml XmlSpec XmlProofs.

(** ** Items and keys *)

Definition tagged (f : string -> option item) : Prop := forall k i, f k = Some i -> it_tag i = k.

Lemma keyed_tags f ks i : tagged f -> In i (map snd (keyed f ks)) -> In (it_tag i) ks /\ f (it_tag i) = Some i.
Proof.
  intros T. unfold keyed. induction ks as [|k ks IH]; [intros []|]. cbn [flat_map]. rewrite map_app, in_app_iff.
  intros [H|H].
  - destruct (f k) as [j|] eqn:Ej; [|destruct H]. destruct H as [<-|[]]. cbn [snd]. rewrite (T k j Ej). split; [now left|exact Ej].
  - destruct (IH H) as [H1 H2]. split; [now right|exact H2].
Qed.

Lemma find_keyed f ks t : tagged f ->
  find (fun i => String.eqb (it_tag i) t) (map snd (keyed f ks)) = if memS t ks then f t else None.
Proof.
  intros T. rewrite <- (keyed_get f ks t). unfold keyed. induction ks as [|k ks IH]; [reflexivity|]. cbn [flat_map].
  destruct (f k) as [j|] eqn:Ej; [|exact IH]. cbn. rewrite (T k j Ej), (String.eqb_sym t k).
  destruct (String.eqb k t); [reflexivity|exact IH].
Qed.

Lemma map_keyed {V} f ks (g : item -> option V) : tagged f ->
  flat_map (fun i => match g i with Some v => [(it_tag i, v)] | None => [] end) (map snd (keyed f ks)) =
  keyed (fun k => match f k with Some i => g i | None => None end) ks.
Proof.
  intros T. unfold keyed. induction ks as [|k ks IH]; [reflexivity|]. cbn [flat_map]. rewrite map_app, flat_map_app, IH. f_equal.
  destruct (f k) as [j|] eqn:Ej; [|reflexivity]. cbn. rewrite (T k j Ej). destruct (g j); reflexivity.
Qed.

Lemma filter_flat {A B} (p : A -> bool) (g : A -> B) l :
  map g (filter p l) = flat_map (fun x => if p x then [g x] else []) l.
Proof. induction l as [|x l IH]; [reflexivity|]. cbn [filter flat_map]. destruct (p x); cbn; now rewrite IH. Qed.

Lemma has_char_contains c n : has_char c n = true -> contains n (String c "").
Proof.
  unfold has_char. intros H. apply existsb_exists in H as (x & Hx & Ex). apply Ascii.eqb_eq in Ex. subst x.
  apply in_split in Hx as (a & b & Hx). exists (str_of a), (str_of b). apply chars_inj.
  rewrite !chars_app, !chars_str_of, Hx. reflexivity.
Qed.

Lemma shas_get {V} k (d : list (string * V)) v : sget k d = Some v -> shas k d = true.
Proof. intros H. apply (aget_Some_key _ Seqb_spec) in H. apply memS_In, H. Qed.

(** ** Constructors that succeed *)

Lemma set_species_ok r k v u :
  In k rp_attr_keys -> type_in v (rp_attr_types k) = true -> (v <> VNone -> unit_fits k u) ->
  exists r', set_species_attribute r k v u = Ok r'.
Proof.
  intros Hk Ht Hu. unfold set_species_attribute. rewrite (proj2 (memS_In k _) Hk), Ht. cbn [negb raise_if bind].
  destruct u as [w|]; cbn [bind]; [|eexists; reflexivity].
  destruct (is_none v) eqn:Ev; cbn [bind]; [eexists; reflexivity|].
  assert (v <> VNone) as Hv by (intros ->; discriminate Ev). specialize (Hu Hv). unfold unit_fits in Hu.
  rewrite (shas_get k rp_default_units w Hu). unfold rp_unit_allowed. rewrite Hu, String.eqb_refl. cbn [negb raise_if bind]. eexists; reflexivity.
Qed.

Lemma set_all_ok keys attrs units : incl keys rp_attr_keys ->
  (forall k, In k keys ->
     type_in (match sget k attrs with Some v => v | None => VNone end) (rp_attr_types k) = true /\
     (match sget k attrs with Some v => v | None => VNone end <> VNone ->
        unit_fits k (match sget k units with Some u => u | None => None end))) ->
  forall r, exists r', set_all_attributes keys attrs units r = Ok r'.
Proof.
  induction keys as [|k ks IH]; intros Hin H r; cbn [set_all_attributes]; [eauto|].
  destruct (H k (or_introl eq_refl)) as [H1 H2].
  destruct (set_species_ok r k _ (match sget k units with Some u => u | None => None end) (Hin k (or_introl eq_refl)) H1 H2) as [r1 E1].
  rewrite E1. cbn [bind]. apply IH; [intros x Hx; apply Hin; now right|intros x Hx; apply H; now right].
Qed.

Section Read.
  Variables (E : env) (so : pyval -> string).
  Hypothesis NR : numbers_readable E.

  Lemma back_types v k : In k rp_attr_keys -> type_in v (rp_attr_types k) = true -> type_in (back E so v) (rp_attr_types k) = true.
  Proof.
    intros Hk Ht. destruct v as [x|d|].
    - destruct x; try exact Ht; cbn in Hk; repeat (destruct Hk as [<-|Hk]; [first [discriminate Ht|reflexivity]|]); contradiction.
    - cbn in Hk. repeat (destruct Hk as [<-|Hk]; [first [discriminate Ht|reflexivity]|]); contradiction.
    - cbn in Hk. repeat (destruct Hk as [<-|Hk]; [discriminate Ht|]); contradiction.
  Qed.

  (** ** Equal getters *)
  Lemma same_getters r r' :
    rp_id r' = rp_id r ->
    (forall k, In k rp_attr_keys -> type_in (rattr r k) (rp_attr_types k) = true) ->
    (forall d, rattr r "ret_coefs" = VDict d -> forall n x, In (n, x) d -> x <> SNone /\ forall b, x <> SBool b) ->
    (forall k, In k rp_attr_keys -> rattr r' k = back E so (rattr r k)) ->
    (forall k, rattr r k <> VNone -> rp_get_unit r' k = rp_get_unit r k) ->
    same_species E r r'.
  Proof using NR.
    intros Hid Ht Hd Hb Hu.
    assert (Str : forall k, In k ["name"; "stateless"; "state"; "hpem_name"; "comments"; "latex"] -> rattr r' k = rattr r k).
    { intros k Hk. assert (In k rp_attr_keys) as Hk' by (cbn in Hk |- *; tauto). rewrite (Hb k Hk').
      apply back_str. rewrite <- (str_types k Hk). now apply Ht. }
    assert (Num : forall k, In k ["mass"; "h_form"; "lj_epsilon"; "lj_sigma"; "stick_coef"] ->
              py_float_v E (rattr r' k) = py_float_v E (rattr r k) /\ is_none (rattr r' k) = is_none (rattr r k)).
    { intros k Hk. assert (In k rp_attr_keys) as Hk' by (cbn in Hk |- *; tauto). rewrite (Hb k Hk'). split; [|apply back_none].
      apply back_float; [exact NR|]. rewrite <- (float_types k Hk). now apply Ht. }
    assert (Int : forall k, In k ["charge"; "qdb_id"] ->
              py_int_v E (rattr r' k) = py_int_v E (rattr r k) /\ is_none (rattr r' k) = is_none (rattr r k)).
    { intros k Hk. assert (In k rp_attr_keys) as Hk' by (cbn in Hk |- *; tauto). rewrite (Hb k Hk'). split; [|apply back_none].
      apply back_int; [exact NR|]. rewrite <- (int_types k Hk). now apply Ht. }
    assert (N : get_name r' = get_name r) by (unfold get_name, rstr; rewrite Str by (cbn; tauto); reflexivity).
    assert (Sp : is_special r' = is_special r) by (unfold is_special; now rewrite N).
    assert (St : get_state r' = get_state r) by (unfold get_state, rstr; rewrite Sp, Str by (cbn; tauto); reflexivity).
    assert (Sl : get_stateless r' = get_stateless r) by (unfold get_stateless, rstr; rewrite Sp, N, St, Str by (cbn; tauto); reflexivity).
    assert (Ch : get_charge E r' = get_charge E r).
    { unfold get_charge. rewrite N. destruct (Int "charge") as [-> ->]; [cbn; tauto|]. reflexivity. }
    assert (Sn : stateless_neutral E r' = stateless_neutral E r) by (unfold stateless_neutral; now rewrite St, Ch).
    assert (Fd : forall k d, In k ["mass"; "h_form"; "lj_epsilon"; "lj_sigma"; "stick_coef"] -> get_float_default E k d r' = get_float_default E k d r).
    { intros k d Hk. unfold get_float_default. rewrite Sp. destruct (Num k Hk) as [-> ->]. reflexivity. }
    constructor.
    - exact Hid.
    - exact N.
    - exact Sl.
    - exact St.
    - unfold get_mass. rewrite N. destruct (Num "mass") as [-> ->]; [cbn; tauto|]. reflexivity.
    - exact Ch.
    - apply Fd. cbn. tauto.
    - apply Fd. cbn. tauto.
    - apply Fd. cbn. tauto.
    - unfold get_stick_coef. rewrite Sp, Sn. destruct (Num "stick_coef") as [-> ->]; [cbn; tauto|]. reflexivity.
    - unfold get_ret_coefs. rewrite Sp, Sn, Sl.
      assert (In "ret_coefs" rp_attr_keys) as Hk by (now apply memS_In).
      rewrite (Hb _ Hk). specialize (Ht _ Hk). destruct (rattr r "ret_coefs") as [x|d|] eqn:Ev; [|cbn [back text_of]|discriminate Ht].
      + destruct x; try discriminate Ht. reflexivity.
      + assert (mapM (fun kv => let* f := py_float E (snd kv) in Ok (fst kv, f)) (map (fun kv => (fst kv, SStr (show_scalar E (snd kv)))) d)
                = mapM (fun kv => let* f := py_float E (snd kv) in Ok (fst kv, f)) d) as ->; [|reflexivity].
        specialize (Hd d eq_refl). clear -Hd NR. induction d as [|[n x] d IH]; [reflexivity|]. cbn [map mapM fst snd].
        destruct (Hd n x (or_introl eq_refl)) as [H1 H2]. rewrite (scalar_float E NR x H1 H2), IH; [reflexivity|].
        intros m y Hy. apply (Hd m y). now right.
    - unfold get_atoms. now rewrite N, Sl.
    - unfold get_hpem_name, rstr. rewrite Str by (cbn; tauto). reflexivity.
    - unfold get_qdb_id. destruct (Int "qdb_id") as [-> ->]; [cbn; tauto|]. reflexivity.
    - unfold get_comments, rstr. rewrite Str by (cbn; tauto). reflexivity.
    - apply Str. cbn. tauto.
    - exact Hu.
  Qed.

  Variable r : rp.
  Hypothesis W : writable_species r.

  Lemma item_tagged : tagged (item_of E so r).
  Proof. intros k i H. unfold item_of in H. destruct (rattr r k) as [[]| |]; inversion H; reflexivity. Qed.

  (** The dictionaries the parser builds. *)
  Definition attr_back (k : string) : option pyval := text_of E so (rattr r k).

  Lemma find_item t : find_tag t (el_of E so r) = if memS t rp_attr_keys then item_of E so r t else None.
  Proof. unfold find_tag, el_of. cbn [el_items]. apply find_keyed, item_tagged. Qed.

  Lemma item_text k i : In k rp_attr_keys -> k <> "ret_coefs" -> item_of E so r k = Some i -> attr_back k = Some (VSc (text_scalar (it_text i))).
  Proof using W.
    intros Hk Hn Hi. unfold attr_back, item_of, text_of in *. destruct (rattr r k) as [x|d|] eqn:Ev.
    - destruct x; inversion Hi; reflexivity.
    - now destruct (Hn (dict_only r W k d Hk Ev)).
    - inversion Hi. reflexivity.
  Qed.

  Lemma read_attrs k :
    let plain := filter (fun i => negb (String.eqb (it_tag i) "ret_coefs")) (el_items (el_of E so r)) in
    let attrs := dict_of (map (fun i => (it_tag i, VSc (text_scalar (it_text i)))) plain) in
    sget k (match find_tag "ret_coefs" (el_of E so r) with
            | Some i => sset "ret_coefs" (VDict (dict_of (map (fun kv => (fst kv, text_scalar (snd kv))) (it_rets i)))) attrs
            | None => attrs
            end) = if memS k rp_attr_keys then attr_back k else None.
  Proof using W.
    cbv zeta. set (h := fun k => if String.eqb k "ret_coefs" then None
                   else match item_of E so r k with Some i => Some (VSc (text_scalar (it_text i))) | None => None end).
    assert (A : map (fun i => (it_tag i, VSc (text_scalar (it_text i))))
                  (filter (fun i => negb (String.eqb (it_tag i) "ret_coefs")) (el_items (el_of E so r))) = keyed h rp_attr_keys).
    { rewrite filter_flat. cbn [el_of el_items].
      rewrite <- (map_keyed (item_of E so r) rp_attr_keys
        (fun i => if String.eqb (it_tag i) "ret_coefs" then None else Some (VSc (text_scalar (it_text i)))) item_tagged) at 1 || idtac.
      transitivity (keyed (fun k => match item_of E so r k with
         | Some i => if String.eqb (it_tag i) "ret_coefs" then None else Some (VSc (text_scalar (it_text i))) | None => None end) rp_attr_keys).
      - rewrite <- (map_keyed (item_of E so r) rp_attr_keys _ item_tagged). apply flat_map_ext. intros i.
        destruct (String.eqb (it_tag i) "ret_coefs"); reflexivity.
      - apply keyed_ext. intros x Hx. unfold h. destruct (item_of E so r x) as [i|] eqn:Ei; [|now destruct (String.eqb x "ret_coefs")].
        rewrite (item_tagged x i Ei). reflexivity. }
    rewrite A. rewrite dict_of_id by (apply keyed_nodup, rp_keys_nodup).
    rewrite find_item. change (memS "ret_coefs" rp_attr_keys) with true. cbv iota.
    destruct (string_dec k "ret_coefs") as [->|N].
    - change (memS "ret_coefs" rp_attr_keys) with true. cbv iota. unfold attr_back, item_of.
      destruct (ret_only r W _ eq_refl) as [->|[d Ed]]; [|rewrite Ed; cbn [text_of it_rets it_body]].
      + unfold VNone, text_of. cbv iota. rewrite keyed_get. reflexivity.
      + rewrite (aget_aset_same _ Seqb_spec). rewrite map_map. cbn [fst snd text_scalar]. rewrite dict_of_id; [reflexivity|].
        unfold akeys. rewrite map_map. apply (ws_rets _ W d Ed).
    - assert (G : forall d, sget k (match item_of E so r "ret_coefs" with
         | Some i => sset "ret_coefs" (VDict (dict_of (map (fun kv => (fst kv, text_scalar (snd kv))) (it_rets i)))) d | None => d end) = sget k d).
      { intros d. destruct (item_of E so r "ret_coefs"); [|reflexivity]. now apply (aget_aset_other _ Seqb_spec). }
      rewrite G, keyed_get. destruct (memS k rp_attr_keys) eqn:Ek; [|reflexivity]. apply memS_In in Ek.
      unfold h. destruct (String.eqb_spec k "ret_coefs"); [contradiction|].
      destruct (item_of E so r k) as [i|] eqn:Ei; [symmetry; now apply item_text|].
      unfold attr_back, item_of, text_of in *. destruct (rattr r k) as [[]| |]; try discriminate Ei; reflexivity.
  Qed.

  Lemma read_units k :
    sget k (dict_of (flat_map (fun i => match it_unit i with Some u => [(it_tag i, Some u)] | None => [] end) (el_items (el_of E so r)))) =
    if memS k rp_attr_keys then (if is_none (rattr r k) then None else match unit_written k with Some u => Some (Some u) | None => None end) else None.
  Proof using W.
    assert (flat_map (fun i => match it_unit i with Some u => [(it_tag i, Some u)] | None => [] end) (el_items (el_of E so r)) =
      keyed (fun k => match item_of E so r k with Some i => match it_unit i with Some u => Some (Some u) | None => None end | None => None end) rp_attr_keys) as ->.
    { cbn [el_of el_items].
      rewrite <- (map_keyed (item_of E so r) rp_attr_keys (fun i => match it_unit i with Some u => Some (Some u) | None => None end) item_tagged).
      apply flat_map_ext. intros i. destruct (it_unit i); reflexivity. }
    rewrite dict_of_id by (apply keyed_nodup, rp_keys_nodup). rewrite keyed_get.
    destruct (memS k rp_attr_keys) eqn:Ek; [|reflexivity]. apply memS_In in Ek. unfold item_of.
    destruct (rattr r k) as [x|d|] eqn:Ev.
    - destruct x; cbn; destruct (unit_written k); reflexivity.
    - rewrite (dict_only r W k d Ek Ev). reflexivity.
    - cbn. destruct (unit_written k); reflexivity.
  Qed.

  Lemma unit_written_fits k : unit_fits k (unit_written k).
  Proof.
    unfold unit_fits, unit_written. destruct (String.eqb k "ret_coefs"); [exact I|].
    destruct (sget k rp_default_units) eqn:Ek; [reflexivity|exact I].
  Qed.

  Theorem species_read uid : exists r', rp_of E uid (el_of E so r) = Ok r' /\ rp_uid r' = uid /\ same_species E r r'.
  Proof using NR W.
    pose proof (history_types r (ws_history _ W)) as Ht.
    destruct (history_units r (ws_history _ W)) as (Hid & _).
    destruct (ws_name _ W) as (n & Hn & (Hn1 & Hn2 & Hn3 & Hn4 & Hn5) & Hm).
    assert (rattr r "name" = VSc (SStr n)) as Hv.
    { unfold get_name, rstr in Hn. destruct (rattr r "name") as [[]| |]; try discriminate Hn. injection Hn as ->. reflexivity. }
    unfold rp_of. pose proof read_attrs as RA. pose proof read_units as RU. cbv zeta in RA.
    set (attrs := match find_tag "ret_coefs" (el_of E so r) with Some _ => _ | None => _ end) in RA |- *.
    set (units := dict_of (flat_map _ _)) in RU |- *. cbv zeta.
    assert (py_int_str E (el_id (el_of E so r)) = Ok (rp_id r)) as ->.
    { unfold py_int_str, el_of. cbn [el_id]. destruct NR as (_ & _ & -> & _). reflexivity. }
    cbn [bind]. unfold rp_init. change (supdate attrs []) with attrs. cbv zeta. unfold VInt.
    destruct (Z.ltb_spec (rp_id r) 0); [lia|]. cbn [bind].
    assert (An : sget "name" attrs = Some (VSc (SStr n))).
    { rewrite RA. change (memS "name" rp_attr_keys) with true. cbv iota. unfold attr_back. rewrite Hv. reflexivity. }
    assert (Keys : forall k, In k (akeys attrs) <-> In k rp_attr_keys /\ rattr r k <> VNone).
    { intros k. split.
      - intros H0. destruct (aget_key _ Seqb_spec _ _ H0) as [v Hv']. rewrite RA in Hv'.
        destruct (memS k rp_attr_keys) eqn:Ek; [|discriminate]. apply memS_In in Ek. split; [exact Ek|].
        intros Hc. unfold attr_back in Hv'. rewrite Hc in Hv'. discriminate.
      - intros [H1 H2]. apply (aget_Some_key _ Seqb_spec) with (v := back E so (rattr r k)). rewrite RA, (proj2 (memS_In k _) H1).
        unfold attr_back, back. destruct (rattr r k) as [[]| |]; try reflexivity. now destruct H2. }
    rewrite An. cbv iota.
    assert (raise_if (negb (subsetS ("name" :: (if String.eqb n "M" then [] else ["mass"]) ++
        match sget "state" attrs with Some v => if truthy v then ["stateless"] else [] | None => [] end) (akeys attrs))) ERPAttr = Ok tt) as ->.
    { assert (subsetS ("name" :: (if String.eqb n "M" then [] else ["mass"]) ++
        match sget "state" attrs with Some v => if truthy v then ["stateless"] else [] | None => [] end) (akeys attrs) = true) as ->; [|reflexivity].
      apply subsetS_incl. intros k [<-|Hk].
      - apply Keys. split; [now apply memS_In|]. rewrite Hv. discriminate.
      - apply in_app_iff in Hk as [Hk|Hk].
        + destruct (String.eqb_spec n "M") as [->|NM]; [destruct Hk|]. destruct Hk as [<-|[]].
          apply Keys. split; [now apply memS_In|]. now apply Hm.
        + assert (rattr r "state" <> VNone) as Hs.
          { intros Hc. rewrite RA in Hk. change (memS "state" rp_attr_keys) with true in Hk. cbv iota in Hk. unfold attr_back in Hk.
            rewrite Hc in Hk. destruct Hk. }
          destruct (sget "state" attrs) as [v|]; [|destruct Hk]. destruct (truthy v); [|destruct Hk]. destruct Hk as [<-|[]].
          apply Keys. split; [now apply memS_In|]. now apply (ws_state _ W). }
    cbn [bind name_invalid_chars].
    assert (has_char "<" n || has_char ">" n = false) as ->.
    { apply Bool.orb_false_iff. split; apply Bool.not_true_iff_false; intros Hc; apply has_char_contains in Hc; contradiction. }
    cbn [raise_if bind].
    assert (subsetS (akeys attrs) rp_attr_keys = true) as -> by (apply subsetS_incl; intros k Hk; now apply Keys in Hk).
    cbn [negb raise_if bind].
    assert (UK : forall k, In k (akeys units) -> In k rp_attr_keys /\ rattr r k <> VNone /\ sget k rp_default_units <> None).
    { intros k Hk. destruct (aget_key _ Seqb_spec _ _ Hk) as [u Hu]. rewrite RU in Hu.
      destruct (memS k rp_attr_keys) eqn:Ek; [|discriminate]. apply memS_In in Ek.
      destruct (is_none (rattr r k)) eqn:Ei; [discriminate|]. split; [exact Ek|]. split; [intros Hc; rewrite Hc in Ei; discriminate|].
      unfold unit_written in Hu. destruct (String.eqb k "ret_coefs"); [discriminate|]. now destruct (sget k rp_default_units). }
    assert (subsetS (akeys units) (filter (fun k => shas k attrs) (akeys rp_default_units)) = true) as ->.
    { apply subsetS_incl. intros k Hk. destruct (UK k Hk) as (H1 & H2 & H3). apply filter_In. split.
      - destruct (sget k rp_default_units) eqn:Ed; [|congruence]. now apply (aget_Some_key _ Seqb_spec) in Ed.
      - apply (shas_get k attrs (back E so (rattr r k))). rewrite RA, (proj2 (memS_In k _) H1). unfold attr_back, back.
        destruct (rattr r k) as [[]| |]; try reflexivity. now destruct H2. }
    cbn [negb raise_if bind].
    assert (Val : forall k, In k rp_attr_keys -> match sget k attrs with Some v => v | None => VNone end = back E so (rattr r k)).
    { intros k Hk. rewrite RA, (proj2 (memS_In k _) Hk). reflexivity. }
    assert (Uni : forall k, In k rp_attr_keys -> match sget k units with Some u => u | None => None end = if is_none (rattr r k) then None else unit_written k).
    { intros k Hk. rewrite RU, (proj2 (memS_In k _) Hk). destruct (is_none (rattr r k)); [reflexivity|]. now destruct (unit_written k). }
    destruct (set_all_ok rp_attr_keys attrs units (incl_refl _)) with (r := {| rp_uid := uid; rp_id := rp_id r; rp_attrs := []; rp_units := [] |})
      as [r' Hr'].
    { intros k Hk. rewrite (Val k Hk), (Uni k Hk). split; [apply back_types; [exact Hk|now apply Ht]|].
      intros _. destruct (is_none (rattr r k)); [exact I|apply unit_written_fits]. }
    exists r'. split; [exact Hr'|]. destruct (set_all_spec _ _ _ _ _ Hr' rp_keys_nodup) as (U' & I' & A' & _).
    destruct (set_all_units _ _ _ _ _ Hr' rp_keys_nodup) as (Un' & _).
    split; [exact U'|]. apply same_getters.
    - exact I'.
    - exact Ht.
    - intros d Hd m x Hx. destruct (ws_rets _ W d Hd) as [_ Hr]. destruct (Hr m x Hx) as (H1 & _ & H2). auto.
    - intros k Hk. rewrite (proj1 (A' k Hk)). now apply Val.
    - intros k Hk. destruct (in_dec string_dec k rp_attr_keys) as [Hi|Hi].
      + destruct (sget k rp_default_units) as [d|] eqn:Ed.
        * rewrite (history_get_unit r k d (ws_history _ W) Hi Hk Ed). unfold rp_get_unit. rewrite Ed.
          destruct (Un' k Hi) as [-> _]. rewrite (Uni k Hi). destruct (is_none (rattr r k)); [reflexivity|].
          unfold unit_written. destruct (String.eqb k "ret_coefs"); [reflexivity|]. now rewrite Ed.
        * unfold rp_get_unit. now rewrite Ed.
      + destruct (sget k rp_default_units) as [d|] eqn:Ed; [|unfold rp_get_unit; now rewrite Ed].
        exfalso. apply Hi. apply (aget_Some_key _ Seqb_spec) in Ed. cbn in Ed |- *. tauto.
  Qed.

  (** Nothing is lost in the file. *)
  Lemma species_reread : reread (el_of E so r) = el_of E so r.
  Proof using NR W.
    unfold reread, el_of. cbn [el_id el_items]. f_equal. rewrite <- (map_id (map snd _)) at 2. apply map_ext_in. intros i Hi.
    apply (keyed_tags _ _ _ item_tagged) in Hi as [Hk Hi]. unfold item_of in Hi.
    pose proof (ws_texts _ W (it_tag i) Hk) as Hs.
    assert (Sh : forall x, x <> SNone -> x <> SStr "" -> show_scalar E x <> "").
    { destruct NR as (_ & _ & _ & F1 & F2). intros x H1 H2. destruct x; cbn; try apply F1; try apply F2.
      - discriminate.
      - destruct b; discriminate.
      - intros ->. now destruct H2. }
    assert (Rt : forall s, s <> "" -> reread_text (Some s) = Some s).
    { intros s H. cbn. destruct (String.eqb_spec s ""); [contradiction|reflexivity]. }
    pose proof (no_other r W _ Hk) as No.
    destruct (rattr r (it_tag i)) as [x|d|] eqn:Ev.
    - assert (x <> SNone) as Hx by (intros ->; discriminate Hi). assert (x <> SStr "") as Hx2 by (intros ->; now destruct Hs).
      assert (Some (MkItem (it_tag i) (unit_written (it_tag i)) (BText (Some (show_scalar E x)))) = Some i) as Hi'.
      { rewrite <- Hi. destruct x; try reflexivity. now destruct Hx. }
      injection Hi' as Hi'. rewrite <- Hi'. unfold reread_item. cbn [it_tag it_unit it_body]. now rewrite (Rt _ (Sh x Hx Hx2)).
    - injection Hi as Hi. rewrite <- Hi. unfold reread_item. cbn [it_tag it_unit it_body]. rewrite map_map. cbn [fst snd]. do 2 f_equal.
      apply map_ext_in. intros [m x] Hx. cbn [fst snd].
      rewrite (dict_only r W _ d Hk Ev) in Ev. destruct (ws_rets _ W d Ev) as [_ Hr]. destruct (Hr m x Hx) as (H1 & H2 & _).
      now rewrite (Rt _ (Sh x H1 H2)).
    - now destruct No.
  Qed.
End Read.
