(** Reading back what was written: reactions. *)
From Verif Require Import Base BaseLemmas Species Reactions MolSpec SpeciesProofs ReactionProofs SortLemmas Classification Xml XmlSpec XmlProofs XmlRead.

Lemma filter_all {A} (f : A -> bool) l : (forall x, In x l -> f x = true) -> filter f l = l.
Proof.
  induction l as [|x l IH]; intros H; [reflexivity|]. cbn [filter]. rewrite (H x (or_introl eq_refl)). f_equal.
  apply IH. intros y Hy. apply H. now right.
Qed.

(** ** Comma separated names *)

Lemma strip_space s : str_strip (String " " s) = str_strip s.
Proof. reflexivity. Qed.

Lemma piece_comma p tail : ~ In ","%char p -> piece [","%char] tail p.
Proof.
  intros H a b -> Hb. destruct b as [|c b]; [congruence|]. cbn [app prefixb]. destruct (Ascii.eqb_spec "," c) as [Hc|]; [|reflexivity].
  exfalso. apply H, in_or_app. right. left. now symmetry.
Qed.

Lemma join_space l : join_l (chars ", ") l =
  join_l [","%char] (match l with [] => [] | x :: l' => x :: map (cons " "%char) l' end).
Proof.
  destruct l as [|x l]; [reflexivity|]. revert x. induction l as [|y l IH]; intros x; [reflexivity|].
  cbn [join_l map]. cbn [join_l map] in IH. f_equal.
  change (chars ", ") with [","%char; " "%char]. cbn [app]. f_equal.
  change (chars ", ") with [","%char; " "%char] in IH.
  specialize (IH (" "%char :: y)). destruct l as [|z l]; [reflexivity|]. cbn [join_l map] in IH |- *. cbn [app] in IH |- *.
  exact IH.
Qed.

Lemma split_names l :
  l <> [] -> (forall n, In n l -> str_strip n = n /\ ~ contains n ",") -> map str_strip (str_split "," (str_join ", " l)) = l.
Proof.
  intros Hne Hc. unfold str_split. rewrite join_chars, join_space.
  assert (C : forall n, In n l -> ~ In ","%char (chars n)).
  { intros n Hn Hin. apply (Hc n Hn), contains_chars. apply in_split in Hin as (a & b & Hab). exists a, b. exact Hab. }
  assert (P : forall p tail, In p (match map chars l with [] => [] | x :: l' => x :: map (cons " "%char) l' end) -> piece (chars ",") tail p).
  { intros p tail Hp. apply piece_comma. destruct l as [|x l]; [destruct Hp|]. cbn [map] in Hp. destruct Hp as [<-|Hp].
    - apply C. now left.
    - apply in_map_iff in Hp as (q & <- & Hq). apply in_map_iff in Hq as (n & <- & Hn). intros [Hx|Hx]; [discriminate|].
      apply (C n); [now right|exact Hx]. }
  change [","%char] with (chars ","). rewrite split_join.
  - destruct l as [|x l]; [congruence|]. cbn [map]. rewrite str_of_chars. f_equal; [apply Hc; now left|].
    rewrite !map_map. rewrite <- (map_id l) at 2. apply map_ext_in. intros n Hn.
    change (str_of (" "%char :: chars n)) with (String " " (str_of (chars n))). rewrite str_of_chars, strip_space. apply Hc. now right.
  - discriminate.
  - destruct l; [congruence|discriminate].
  - intros p rest Hp. now apply P.
  - intros p Hp. now apply P.
Qed.

(** ** Attributes of reactions *)

(** The unit written with an attribute whose stored unit is [u]. *)
Definition rx_unit_written (k : string) (u : option string) : option string :=
  match u with
  | Some w => Some w
  | None => match sget k rx_default_units with Some d => d | None => None end
  end.

(** [set_reaction_attribute] accepts or refuses according to the reactants. *)
Definition accepts (E : env) (lhs : list rp) (k : string) (v : pyval) (u : option string) : Prop :=
  exists r r', r_lhs r = lhs /\ set_reaction_attribute E r k v u = Ok r'.

Lemma accepts_set E r k v u : accepts E (r_lhs r) k v u -> exists r', set_reaction_attribute E r k v u = Ok r'.
Proof.
  intros (r0 & r1 & L & H). unfold set_reaction_attribute, is_electron_process in *. rewrite L in H.
  step_binds H. eexists. reflexivity.
Qed.

Lemma set_accepts E r k v u r' : set_reaction_attribute E r k v u = Ok r' -> accepts E (r_lhs r) k v u.
Proof. intros H. exists r, r'. auto. Qed.

Lemma accepts_type E lhs k v u : accepts E lhs k v u -> In k rx_attr_keys /\ type_in v (rx_attr_types k) = true.
Proof.
  intros (r & r' & _ & H). unfold set_reaction_attribute in H. step_binds H. unfold raise_if in *. split.
  - destruct (memS k rx_attr_keys) eqn:Ek; [now apply memS_In|discriminate].
  - destruct (type_in v (rx_attr_types k)); [reflexivity|discriminate].
Qed.

Lemma history_accepts E r : rx_history E r ->
  forall k, In k rx_attr_keys -> exists u, sget k (r_units r) = Some u /\ accepts E (r_lhs r) k (xattr r k) u.
Proof.
  intros [id lhs rhs attributes more units r0 l H].
  assert (B : forall k, In k rx_attr_keys -> exists u, sget k (r_units r0) = Some u /\ accepts E (r_lhs r0) k (xattr r0 k) u).
  { unfold reaction_init in H. cbv zeta in H. step_binds H.
    assert (G : forall at_ un_ ks r1 r2, NoDup ks -> set_all_rattributes E ks at_ un_ r1 = Ok r2 ->
        forall k, In k ks -> exists u, sget k (r_units r2) = Some u /\ accepts E (r_lhs r2) k (xattr r2 k) u).
    { clear. intros at_ un_. induction ks as [|k ks IH]; intros r1 r2 ND S k' [].
      - subst k'. cbn [set_all_rattributes] in S. destruct (set_reaction_attribute E r1 k _ _) as [r3|] eqn:E3; cbn [bind] in S; [|discriminate].
        inversion ND as [|? ? N1 N2]; subst.
        pose proof (set_rx_shape _ _ _ _ _ _ E3) as (_ & L3 & _ & X3 & U3 & _).
        pose proof (set_all_rx_shape _ _ _ _ _ _ N2 S) as (_ & L2 & _ & _ & O2).
        assert (sget k (r_units r2) = sget k (r_units r3)) as U2.
        { clear -S N1. revert r3 S. induction ks as [|x ks IH]; intros r3 S; cbn [set_all_rattributes] in S; [injection S as <-; reflexivity|].
          destruct (set_reaction_attribute E r3 x _ _) as [r4|] eqn:E4; cbn [bind] in S; [|discriminate].
          cbn in N1. rewrite (IH ltac:(tauto) r4 S).
          pose proof (set_rx_shape _ _ _ _ _ _ E4) as (_ & _ & _ & _ & _ & O4). apply O4. intros ->. tauto. }
        eexists. split; [rewrite U2; exact U3|]. rewrite L2, L3, (O2 k N1), X3. eapply set_accepts, E3.
      - cbn [set_all_rattributes] in S. destruct (set_reaction_attribute E r1 k _ _) as [r3|] eqn:E3; cbn [bind] in S; [|discriminate].
        inversion ND as [|? ? N1 N2]; subst. eapply IH; eassumption. }
    injection H as <-. intros k Hk. eapply G; [exact rx_keys_nodup|eassumption|exact Hk]. }
  clear H. revert r0 B. induction l as [|[[k0 v] u] l IH]; intros r0 B; [exact B|].
  unfold assigns. cbn [fold_left]. fold (assigns E (assign E r0 (k0, v, u)) l). apply IH. unfold assign.
  destruct (set_reaction_attribute E r0 k0 v u) as [r1|] eqn:E1; [|exact B].
  pose proof (set_rx_shape _ _ _ _ _ _ E1) as (_ & L1 & _ & X1 & U1 & O1). intros k Hk.
  destruct (string_dec k k0) as [->|Hne].
  - exists u. split; [exact U1|]. rewrite L1, X1. eapply set_accepts, E1.
  - destruct (O1 k Hne) as [-> ->]. rewrite L1. now apply B.
Qed.

Section Transfer.
  Variables (E : env) (so : pyval -> string).
  Hypothesis NR : numbers_readable E.

  Lemma accepts_none lhs k : In k rx_attr_keys -> accepts E lhs k VNone None.
  Proof.
    intros Hk. exists (MkReaction 1 lhs [] [] []). eexists. split; [reflexivity|].
    cbn in Hk. repeat (destruct Hk as [<-|Hk]; [reflexivity|]). contradiction.
  Qed.

  (** Accepted values are still accepted as texts, with the unit shown. *)
  Lemma accepts_text lhs lhs' k v u :
    names_of lhs' = names_of lhs -> List.length lhs' = List.length lhs -> v <> VNone ->
    accepts E lhs k v u -> accepts E lhs' k (back E so v) (rx_unit_written k u).
  Proof using NR.
    intros HN HL Hv A. pose proof (accepts_type _ _ _ _ _ A) as [Hk Ht]. destruct A as (r & r1 & L & H).
    exists (MkReaction 1 lhs' [] [] []).
    assert (Nd : forall d, v <> VDict d).
    { intros d ->. cbn in Hk. repeat (destruct Hk as [<-|Hk]; [discriminate Ht|]). contradiction. }
    assert (No : v <> VOther).
    { intros ->. cbn in Hk. repeat (destruct Hk as [<-|Hk]; [discriminate Ht|]). contradiction. }
    assert (exists s, back E so v = VSc (SStr s) /\
      (py_float_v E v = py_float_v E (VSc (SStr s)) \/ type_in v [TFlt; TNp; TStr; TInt; TNone] = false) /\
      (elastic_allowed v = Ok true -> type_in v [TBool; TStr; TNone] = true -> memS s ["true"; "True"; "TRUE"; "false"; "False"; "FALSE"] = true))
      as (s & Bs & Fs & Es).
    { destruct v as [x|d|]; [|now destruct (Nd d)|congruence].
      destruct x as [|b|z|f|f|s]; [now destruct Hv|..]; (eexists; split; [reflexivity|]); cbn [show show_scalar].
      - split; [right; reflexivity|]. intros _ _. destruct b; reflexivity.
      - split; [|intros _ D; discriminate D]. left. destruct NR as (_ & F & _). cbn. now rewrite F.
      - split; [|intros _ D; discriminate D]. left. destruct NR as (F & _). cbn. now rewrite F.
      - split; [|intros _ D; discriminate D]. left. destruct NR as (F & _). cbn. now rewrite F.
      - split; [left; reflexivity|]. cbn [elastic_allowed]. intros D _. now injection D. }
    rewrite Bs.
    cut (exists r', set_reaction_attribute E (MkReaction 1 lhs' [] [] []) k (VSc (SStr s)) (rx_unit_written k u) = Ok r');
      [intros [r' Hr']; exists r'; auto|].
    assert (is_none v = false) as Hn by (destruct v as [[]| |]; try reflexivity; now destruct Hv).
    unfold set_reaction_attribute, is_electron_process in *. cbn [r_lhs r_id r_rhs r_attrs r_units] in *. rewrite Hn in H. rewrite HN, HL, <- L.
    cbn [is_none]. change (is_none (VSc (SStr s))) with false. cbn [negb andb] in *.
    cbn in Hk.
    destruct Hk as [<-|[<-|[<-|[<-|[<-|[<-|[<-|[<-|[<-|[<-|[<-|[<-|[]]]]]]]]]]]]].
    - (* arrh_a *)
      change (shas "arrh_a" rx_default_units) with true in *. change (memS "arrh_a" ["arrh_a"; "arrh_c"]) with true in *.
      change (String.eqb "arrh_a" "arrh_c") with false in *. change (String.eqb "arrh_a" "arrh_a") with true in *.
      change (String.eqb "arrh_a" "elastic") with false in *. change (memS "arrh_a" rx_attr_keys) with true in *.
      destruct Fs as [Fs|Fs]; [rewrite Fs in H|change (rx_attr_types "arrh_a") with [TFlt; TNp; TStr; TInt; TNone] in Ht; congruence].
      destruct u as [w|]; [|discriminate H]. cbn [rx_unit_written negb andb bind raise_if] in *. rewrite Ht in H.
      change (type_in (VSc (SStr s)) (rx_attr_types "arrh_a")) with true. cbn [negb raise_if bind] in *.
      step_binds H. (eexists; exact eq_refl).
    - (* arrh_b *) destruct u as [w|]; [discriminate H|]. (eexists; exact eq_refl).
    - (* arrh_c *)
      change (shas "arrh_c" rx_default_units) with true in *. change (memS "arrh_c" ["arrh_a"; "arrh_c"]) with true in *.
      change (String.eqb "arrh_c" "arrh_c") with true in *. change (String.eqb "arrh_c" "arrh_a") with false in *.
      change (String.eqb "arrh_c" "elastic") with false in *. change (memS "arrh_c" rx_attr_keys) with true in *.
      destruct u as [w|]; [|discriminate H]. cbn [rx_unit_written negb andb bind raise_if] in *.
      change (type_in (VSc (SStr s)) (rx_attr_types "arrh_c")) with true. cbn [negb raise_if bind] in *.
      step_binds H. (eexists; exact eq_refl).
    - (* elastic *) destruct u as [w|]; [discriminate H|].
      change (rx_attr_types "elastic") with [TBool; TStr; TNone] in *. cbn [rx_unit_written].
      change (memS "elastic" ["arrh_a"; "arrh_c"]) with false in *.
      change (String.eqb "elastic" "arrh_c") with false in *. change (String.eqb "elastic" "arrh_a") with false in *.
      change (String.eqb "elastic" "elastic") with true in *. change (memS "elastic" rx_attr_keys) with true in *.
      cbn [andb negb raise_if bind] in *.
      destruct (elastic_allowed v) as [[]|] eqn:Ev; cbn [bind negb raise_if] in H; try discriminate H.
      change (elastic_allowed (VSc (SStr s))) with (Ok (memS s ["true"; "True"; "TRUE"; "false"; "False"; "FALSE"])).
      rewrite (Es eq_refl Ht). (eexists; exact eq_refl).
    - (* el_en_loss *)
      destruct u as [w|]; [|(eexists; exact eq_refl)]. change (shas "el_en_loss" rx_default_units) with true in *. cbn [negb] in *. cbn [rx_unit_written].
      destruct (memS w (rx_units_allowed "el_en_loss")); [|discriminate H]. (eexists; exact eq_refl).
    - (* gas_heat_contrib *)
      destruct u as [w|]; [|(eexists; exact eq_refl)]. change (shas "gas_heat_contrib" rx_default_units) with true in *. cbn [negb] in *. cbn [rx_unit_written].
      destruct (memS w (rx_units_allowed "gas_heat_contrib")); [|discriminate H]. (eexists; exact eq_refl).
    - destruct u as [w|]; [discriminate H|]. (eexists; exact eq_refl).
    - destruct u as [w|]; [discriminate H|]. (eexists; exact eq_refl).
    - destruct u as [w|]; [discriminate H|]. (eexists; exact eq_refl).
    - destruct u as [w|]; [discriminate H|]. (eexists; exact eq_refl).
    - destruct u as [w|]; [discriminate H|]. (eexists; exact eq_refl).
    - destruct u as [w|]; [discriminate H|]. (eexists; exact eq_refl).
  Qed.

  Lemma set_all_rx_ok attrs units keys : forall r,
    (forall k, In k keys -> accepts E (r_lhs r) k (match sget k attrs with Some v => v | None => VNone end)
                              (match sget k units with Some u => u | None => None end)) ->
    exists r', set_all_rattributes E keys attrs units r = Ok r'.
  Proof using.
    induction keys as [|k ks IH]; intros r H; cbn [set_all_rattributes]; [eauto|].
    destruct (accepts_set E r k _ _ (H k (or_introl eq_refl))) as [r1 E1]. rewrite E1. cbn [bind]. apply IH.
    pose proof (set_rx_shape _ _ _ _ _ _ E1) as (_ & -> & _). intros k' Hk'. apply H. now right.
  Qed.

  (** Sides whose species agree in all getters. *)
  Lemma same_names l l' : Forall2 (same_species E) l l' -> names_of l' = names_of l.
  Proof. intros F. unfold names_of. induction F as [|p p' l l' S F IH]; [reflexivity|]. cbn [mapM]. now rewrite (ss_name _ _ _ S), IH. Qed.
  Lemma same_length l l' : Forall2 (same_species E) l l' -> List.length l' = List.length l.
  Proof. intros F. induction F as [|p p' l l' S F IH]; [reflexivity|]. cbn [List.length]. now rewrite IH. Qed.
  Lemma same_side_charge l l' : Forall2 (same_species E) l l' -> side_charge E l' = side_charge E l.
  Proof. intros F. induction F as [|p p' l l' S F IH]; [reflexivity|]. cbn [side_charge]. now rewrite (ss_name _ _ _ S), (ss_charge _ _ _ S), IH. Qed.
  Lemma same_side_atoms l l' : Forall2 (same_species E) l l' -> forall d, side_atoms E d l' = side_atoms E d l.
  Proof.
    intros F. induction F as [|p p' l l' S F IH]; intros d; [reflexivity|]. cbn [side_atoms]. rewrite (ss_atoms _ _ _ S).
    destruct (get_atoms E p); [cbn [bind]; apply IH|reflexivity].
  Qed.

  (** ** One reaction *)
  Variable r : reaction.
  Hypothesis W : writable_reaction E r.

  Definition rx_item_of (k : string) : option item :=
    if is_none (xattr r k) then None
    else Some (MkItem k (rx_unit_written k (match sget k (r_units r) with Some u => u | None => None end)) (BText (Some (show E so (xattr r k))))).

  Definition rx_el (ls rs : list string) : element :=
    MkEl (ishow E (r_id r)) (MkItem "reactants" None (BText (Some (str_join ", " ls))) ::
      MkItem "products" None (BText (Some (str_join ", " rs))) :: map snd (keyed rx_item_of rx_attr_keys)).

  Lemma rx_tagged : tagged rx_item_of.
  Proof. intros k i H. unfold rx_item_of in H. destruct (is_none (xattr r k)); inversion H; reflexivity. Qed.

  Lemma rx_dict_free k : In k rx_attr_keys -> (exists x, xattr r k = VSc x).
  Proof using W.
    intros Hk. destruct (history_accepts E r (wr_history _ _ W) k Hk) as (u & _ & A). apply accepts_type in A as [_ T].
    destruct (xattr r k) as [x|d|]; [eauto| |]; cbn in Hk; repeat (destruct Hk as [<-|Hk]; [discriminate T|]); contradiction.
  Qed.

  Lemma rx_items_written :
    flat_map (rx_item E so (supdate (map (fun k => (k, xattr r k)) rx_attr_keys) []) (units_of (rx_get_unit r) rx_attr_keys)) rx_attr_keys
    = map snd (keyed rx_item_of rx_attr_keys).
  Proof using W.
    rewrite <- concat_opt, flat_map_concat_map. f_equal. apply map_ext_in. intros k Hk. unfold rx_item.
    change (supdate ?d []) with d.
    assert (map (fun k => (k, xattr r k)) rx_attr_keys = keyed (fun k => Some (xattr r k)) rx_attr_keys) as -> by reflexivity.
    rewrite keyed_get, (proj2 (memS_In k _) Hk). rewrite given_spec by (now apply (wr_texts _ _ W)). unfold rx_item_of.
    destruct (is_none (xattr r k)) eqn:Ei; cbn [negb]; [reflexivity|].
    rewrite units_of_get, (proj2 (memS_In k _) Hk). do 2 f_equal.
    destruct (history_accepts E r (wr_history _ _ W) k Hk) as (u & Hu & A). rewrite Hu.
    unfold rx_get_unit, rx_unit_written. destruct (sget k rx_default_units) as [d|] eqn:Ed.
    - rewrite Hu. destruct u; reflexivity.
    - destruct u as [w|]; [|reflexivity]. exfalso. destruct A as (r0 & r1 & _ & H). unfold set_reaction_attribute in H. rewrite Ei in H.
      cbn [negb] in H. assert (shas k rx_default_units = false) as Hs.
      { apply Bool.not_true_iff_false. intros Hc. apply (ahas_In _ Seqb_spec) in Hc. apply (aget_None _ Seqb_spec) in Ed. contradiction. }
      rewrite Hs in H. discriminate H.
  Qed.

  Lemma write_reaction b ls rs :
    names_of (r_lhs r) = Ok ls -> names_of (r_rhs r) = Ok rs -> (forall n, In n (ls ++ rs) -> known b (SStr n) = true) ->
    add_reaction_from_instance E so r b = (MkB (b_keys b) (b_species b) (b_reactions b ++ [rx_el ls rs]), Ok tt).
  Proof using W.
    intros Hl Hr Hk. unfold add_reaction_from_instance.
    assert (add_missing E so (r_lhs r ++ r_rhs r) b = (b, Ok tt)) as ->.
    { assert (names_of (r_lhs r ++ r_rhs r) = Ok (ls ++ rs)) as Hn.
      { clear -Hl Hr. revert ls Hl. induction (r_lhs r) as [|p l IH]; intros ls Hl; cbn [app]; unfold names_of in *; cbn [mapM] in *.
        - injection Hl as <-. exact Hr.
        - destruct (get_name p); cbn [bind] in *; [|discriminate]. destruct (mapM get_name l); cbn [bind] in *; [|discriminate].
          injection Hl as <-. rewrite (IH _ eq_refl). reflexivity. }
      revert Hn Hk. generalize (ls ++ rs). clear. induction (r_lhs r ++ r_rhs r) as [|p l IH]; intros ns Hn Hk; [reflexivity|].
      cbn [add_missing]. unfold names_of in *. cbn [mapM] in Hn. destruct (get_name p) as [n|]; cbn [bind] in Hn; [|discriminate].
      destruct (mapM get_name l) as [ns'|]; cbn [bind] in Hn; [|discriminate]. injection Hn as <-.
      rewrite (Hk n (or_introl eq_refl)). apply (IH ns' eq_refl). intros m Hm. apply Hk. now right. }
    rewrite Hl, Hr. unfold add_reaction_from_attributes. cbv zeta.
    assert (forallb (fun n => known b (SStr n)) (ls ++ rs) = true) as -> by (apply forallb_forall; exact Hk).
    cbn [negb]. rewrite rx_items_written. reflexivity.
  Qed.

  Lemma find_side tag ls rs : In tag ["reactants"; "products"] ->
    find_tag tag (rx_el ls rs) = Some (MkItem tag None (BText (Some (str_join ", " (if String.eqb tag "reactants" then ls else rs))))).
  Proof. intros [<-|[<-|[]]]; reflexivity. Qed.

  Lemma rx_read_attrs ls rs k :
    sget k (dict_of (map (fun i => (it_tag i, VSc (text_scalar (it_text i))))
      (filter (fun i => negb (memS (it_tag i) ["reactants"; "products"])) (el_items (rx_el ls rs))))) =
    if memS k rx_attr_keys then text_of E so (xattr r k) else None.
  Proof using W.
    cbn [rx_el el_items]. cbn [filter it_tag memS existsb String.eqb Ascii.eqb Bool.eqb orb negb].
    assert (filter (fun i => negb (memS (it_tag i) ["reactants"; "products"])) (map snd (keyed rx_item_of rx_attr_keys)) = map snd (keyed rx_item_of rx_attr_keys)) as F.
    { apply filter_all. intros i Hi. apply (keyed_tags _ _ _ rx_tagged) in Hi as [Hi _].
      cbn in Hi. repeat (destruct Hi as [<-|Hi]; [reflexivity|]). contradiction. }
    cbn [memS existsb] in F. rewrite F.
    assert (map (fun i => (it_tag i, VSc (text_scalar (it_text i)))) (map snd (keyed rx_item_of rx_attr_keys)) =
      keyed (fun k => match rx_item_of k with Some i => Some (VSc (text_scalar (it_text i))) | None => None end) rx_attr_keys) as ->.
    { rewrite <- (map_keyed rx_item_of rx_attr_keys (fun i => Some (VSc (text_scalar (it_text i)))) rx_tagged).
      generalize (map snd (keyed rx_item_of rx_attr_keys)). intros l. induction l as [|i l IH]; [reflexivity|]. cbn. now rewrite IH. }
    rewrite dict_of_id by (apply keyed_nodup, rx_keys_nodup). rewrite keyed_get.
    destruct (memS k rx_attr_keys) eqn:Ek; [|reflexivity]. apply memS_In in Ek. destruct (rx_dict_free k Ek) as [x Hx].
    unfold rx_item_of. rewrite Hx. destruct x; reflexivity.
  Qed.

  Lemma rx_read_units ls rs k :
    sget k (dict_of (flat_map (fun i => match it_unit i with Some u => [(it_tag i, Some u)] | None => [] end) (el_items (rx_el ls rs)))) =
    if memS k rx_attr_keys
    then (if is_none (xattr r k) then None
          else match rx_unit_written k (match sget k (r_units r) with Some u => u | None => None end) with Some u => Some (Some u) | None => None end)
    else None.
  Proof using W.
    cbn [rx_el el_items flat_map it_unit app].
    assert (flat_map (fun i => match it_unit i with Some u => [(it_tag i, Some u)] | None => [] end) (map snd (keyed rx_item_of rx_attr_keys)) =
      keyed (fun k => match rx_item_of k with Some i => match it_unit i with Some u => Some (Some u) | None => None end | None => None end) rx_attr_keys) as ->.
    { rewrite <- (map_keyed rx_item_of rx_attr_keys (fun i => match it_unit i with Some u => Some (Some u) | None => None end) rx_tagged).
      apply flat_map_ext. intros i. destruct (it_unit i); reflexivity. }
    rewrite dict_of_id by (apply keyed_nodup, rx_keys_nodup). rewrite keyed_get.
    destruct (memS k rx_attr_keys); [|reflexivity]. unfold rx_item_of. destruct (is_none (xattr r k)); reflexivity.
  Qed.

  (** Given the species that were read, the reaction is read. *)
  Theorem reaction_read sps ls rs lhs' rhs' :
    names_of (r_lhs r) = Ok ls -> names_of (r_rhs r) = Ok rs -> (forall n, In n (ls ++ rs) -> writable_name n) ->
    mapM (lookup sps) ls = Ok lhs' -> mapM (lookup sps) rs = Ok rhs' ->
    Forall2 (same_species E) (r_lhs r) lhs' -> Forall2 (same_species E) (r_rhs r) rhs' ->
    exists r', reaction_of E sps (rx_el ls rs) = Ok r' /\ r_lhs r' = lhs' /\ r_rhs r' = rhs' /\ same_reaction E r r'.
  Proof using NR W.
    intros Hl Hr Hw Ll Lr Fl Fr.
    pose proof (history_accepts E r (wr_history _ _ W)) as Acc.
    assert (exists ri, 0 < r_id r /\ (1 <= List.length (r_lhs r) <= 3)%nat /\ (1 <= List.length (r_rhs r))%nat /\ reaction_consistency E r = Ok ri)
      as (ri & Hid & Len & LenR & Con).
    { destruct (wr_history _ _ W) as [id lhs rhs attributes more units r0 l H].
      apply reaction_init_parts in H as (_ & H1 & H2 & H3 & H4 & H5 & _ & H6 & _).
      destruct (assigns_keeps E l r0) as (A1 & A2 & A3). unfold reaction_consistency in *. rewrite A1, A2, A3, H2, H3 in *.
      exists tt. auto. }
    assert (Nl : ls <> [] /\ rs <> []).
    { apply names_length in Hl. apply names_length in Hr. split; intros ->; cbn in *; lia. }
    pose proof (same_length _ _ Fl) as Lenl. pose proof (same_length _ _ Fr) as Lenr.
    unfold reaction_of.
    assert (py_int_str E (el_id (rx_el ls rs)) = Ok (r_id r)) as ->.
    { unfold py_int_str. cbn [rx_el el_id]. destruct NR as (_ & _ & -> & _). reflexivity. }
    cbn [bind]. rewrite (find_side "reactants"), (find_side "products") by (cbn; tauto). cbn [bind].
    unfold side_of. rewrite (find_side "reactants"), (find_side "products") by (cbn; tauto). cbn [it_text it_body].
    change (String.eqb "reactants" "reactants") with true. change (String.eqb "products" "reactants") with false. cbv iota.
    rewrite !split_names; try apply Nl; try (intros n Hn; destruct (Hw n ltac:(apply in_or_app; tauto)) as (_ & H1 & H2 & _); auto).
    rewrite Ll, Lr. cbn [bind].
    pose proof (rx_read_attrs ls rs) as RA. pose proof (rx_read_units ls rs) as RU.
    set (attrs := dict_of (map _ _)) in RA |- *. set (units := dict_of (flat_map _ _)) in RU |- *.
    unfold reaction_init. change (supdate attrs []) with attrs. cbv zeta. unfold VInt.
    destruct (Z.leb_spec (r_id r) 0); [lia|]. cbn [bind].
    destruct (Nat.ltb_spec (List.length lhs') 1); [lia|]. destruct (Nat.ltb_spec (List.length rhs') 1); [lia|].
    destruct (Nat.ltb_spec 3 (List.length lhs')); [lia|]. cbn [orb raise_if bind].
    assert (Has : forall k, In k rx_attr_keys -> shas k attrs = negb (is_none (xattr r k))).
    { intros k Hk. destruct (is_none (xattr r k)) eqn:Ei; cbn [negb].
      - apply Bool.not_true_iff_false. intros Hc. apply (ahas_In _ Seqb_spec) in Hc. destruct (aget_key _ Seqb_spec _ _ Hc) as [v Hv].
        rewrite RA, (proj2 (memS_In k _) Hk) in Hv. destruct (xattr r k) as [[]| |]; discriminate.
      - apply (shas_get k attrs (back E so (xattr r k))). rewrite RA, (proj2 (memS_In k _) Hk). unfold back.
        destruct (xattr r k) as [[]| |]; try reflexivity. discriminate Ei. }
    assert (negb (shas "special_number" attrs) && negb (shas "arrh_a" attrs) = false) as ->.
    { rewrite !Has by (now apply memS_In). rewrite !negb_involutive. apply Bool.andb_false_iff.
      destruct (wr_rate _ _ W) as [Hr2|Hr2]; [right|left];
        (destruct (xattr r _) as [[]| |]; try reflexivity; now destruct Hr2). }
    cbn [raise_if bind].
    assert (subsetS (akeys attrs) rx_attr_keys = true) as ->.
    { apply subsetS_incl. intros k Hk. destruct (aget_key _ Seqb_spec _ _ Hk) as [v Hv]. rewrite RA in Hv.
      destruct (memS k rx_attr_keys) eqn:Ek; [now apply memS_In|discriminate]. }
    cbn [negb raise_if bind].
    assert (Dk : forall k, In k (akeys rx_default_units) -> In k rx_attr_keys) by (intros k Hk; cbn in Hk |- *; tauto).
    assert (subsetS (akeys units) (filter (fun k => shas k attrs) (akeys rx_default_units)) = true) as ->.
    { apply subsetS_incl. intros k Hk. destruct (aget_key _ Seqb_spec _ _ Hk) as [u Hu]. rewrite RU in Hu.
      destruct (memS k rx_attr_keys) eqn:Ek; [|discriminate]. apply memS_In in Ek.
      destruct (is_none (xattr r k)) eqn:Ei; [discriminate|]. apply filter_In. split; [|rewrite Has, Ei by exact Ek; reflexivity].
      destruct (Acc k Ek) as (w & Hw' & A). rewrite Hw' in Hu.
      destruct (sget k rx_default_units) as [d|] eqn:Ed; [now apply (aget_Some_key _ Seqb_spec) in Ed|].
      exfalso. unfold rx_unit_written in Hu. rewrite Ed in Hu. destruct w as [w|]; [|discriminate].
      destruct A as (r0 & r1 & _ & Ha). unfold set_reaction_attribute in Ha. rewrite Ei in Ha. cbn [negb] in Ha.
      destruct (shas k rx_default_units) eqn:Es; [|discriminate Ha].
      apply (ahas_In _ Seqb_spec) in Es. apply (aget_None _ Seqb_spec) in Ed. contradiction. }
    cbn [negb raise_if bind].
    assert (subsetS (filter (fun k => shas k attrs) ["arrh_a"; "arrh_c"]) (akeys units) = true) as ->.
    { apply subsetS_incl. intros k Hk. apply filter_In in Hk as [Hk Hs].
      assert (In k rx_attr_keys) as Hk' by (cbn in Hk |- *; tauto). rewrite (Has k Hk') in Hs. apply Bool.negb_true_iff in Hs.
      assert (exists w, sget k (r_units r) = Some (Some w)) as [w Hu].
      { destruct (history_inv E r (wr_history _ _ W)) as (_ & Ha & Hc). assert (xattr r k <> VNone) as Hv by (intros Hx; rewrite Hx in Hs; discriminate).
        destruct Hk as [<-|[<-|[]]]; [destruct (Ha Hv) as (w & _ & Hu & _)|destruct (Hc Hv) as (w & _ & Hu)]; eauto. }
      apply (aget_Some_key _ Seqb_spec) with (v := Some w). rewrite RU, (proj2 (memS_In k _) Hk'), Hs, Hu. reflexivity. }
    cbn [negb raise_if bind].
    assert (Val : forall k, In k rx_attr_keys -> match sget k attrs with Some v => v | None => VNone end = back E so (xattr r k)).
    { intros k Hk. rewrite RA, (proj2 (memS_In k _) Hk). reflexivity. }
    assert (Uni : forall k, In k rx_attr_keys -> match sget k units with Some u => u | None => None end =
      if is_none (xattr r k) then None else rx_unit_written k (match sget k (r_units r) with Some u => u | None => None end)).
    { intros k Hk. rewrite RU, (proj2 (memS_In k _) Hk). destruct (is_none (xattr r k)); [reflexivity|]. now destruct (rx_unit_written k _). }
    pose proof (same_names _ _ Fl) as Nml. pose proof (same_names _ _ Fr) as Nmr.
    destruct (set_all_rx_ok attrs units rx_attr_keys {| r_id := r_id r; r_lhs := lhs'; r_rhs := rhs'; r_attrs := []; r_units := [] |}) as [r' Hr'].
    { intros k Hk. cbn [r_lhs]. rewrite (Val k Hk), (Uni k Hk). destruct (Acc k Hk) as (u & Hu & A). rewrite Hu.
      destruct (is_none (xattr r k)) eqn:Ei.
      - assert (xattr r k = VNone) as -> by (destruct (xattr r k) as [[]| |]; try discriminate Ei; reflexivity). now apply accepts_none.
      - apply (accepts_text (r_lhs r)); auto. intros Hx; rewrite Hx in Ei; discriminate. }
    rewrite Hr'. cbn [bind].
    pose proof (set_all_rx_shape _ _ _ _ _ _ rx_keys_nodup Hr') as (I' & L' & R' & A' & _). cbn [r_id r_lhs r_rhs] in I', L', R'.
    assert (reaction_consistency E r' = Ok tt) as ->.
    { unfold reaction_consistency in Con |- *. rewrite L', R', (same_side_charge _ _ Fl), (same_side_charge _ _ Fr), (same_side_atoms _ _ Fl), (same_side_atoms _ _ Fr).
      rewrite Con. now destruct ri. }
    cbn [bind]. exists r'. split; [reflexivity|]. split; [exact L'|]. split; [exact R'|].
    assert (Vb : forall k, In k rx_attr_keys -> xattr r' k = back E so (xattr r k)).
    { intros k Hk. rewrite (proj1 (A' k Hk)). now apply Val. }
    assert (Ty : forall k, In k rx_attr_keys -> type_in (xattr r k) (rx_attr_types k) = true).
    { intros k Hk. destruct (Acc k Hk) as (u & _ & A). now apply accepts_type in A. }
    assert (Flt : forall k, In k ["arrh_a"; "arrh_b"; "arrh_c"; "el_en_loss"; "gas_heat_contrib"] ->
      py_float_v E (xattr r' k) = py_float_v E (xattr r k) /\ is_none (xattr r' k) = is_none (xattr r k)).
    { intros k Hk. assert (In k rx_attr_keys) as Hk' by (cbn in Hk |- *; tauto). rewrite (Vb k Hk'). split; [|apply back_none].
      apply back_float; [exact NR|]. specialize (Ty k Hk'). cbn in Hk. repeat (destruct Hk as [<-|Hk]; [exact Ty|]). contradiction. }
    assert (Int : forall k, In k ["special_number"; "qdb_r_id"; "qdb_ds_id"] ->
      py_int_v E (xattr r' k) = py_int_v E (xattr r k) /\ is_none (xattr r' k) = is_none (xattr r k)).
    { intros k Hk. assert (In k rx_attr_keys) as Hk' by (cbn in Hk |- *; tauto). rewrite (Vb k Hk'). split; [|apply back_none].
      apply back_int; [exact NR|]. specialize (Ty k Hk'). cbn in Hk. repeat (destruct Hk as [<-|Hk]; [exact Ty|]). contradiction. }
    assert (Str : forall k, In k ["doi"; "comments"; "latex"] -> xattr r' k = xattr r k).
    { intros k Hk. assert (In k rx_attr_keys) as Hk' by (cbn in Hk |- *; tauto). rewrite (Vb k Hk'). apply back_str.
      specialize (Ty k Hk'). cbn in Hk. repeat (destruct Hk as [<-|Hk]; [exact Ty|]). contradiction. }
    assert (Un : forall k, xattr r k <> VNone -> rx_get_unit r' k = rx_get_unit r k).
    { intros k Hv. unfold rx_get_unit. destruct (sget k rx_default_units) as [d|] eqn:Ed; [|reflexivity].
      assert (In k rx_attr_keys) as Hk by (apply Dk; now apply (aget_Some_key _ Seqb_spec) in Ed).
      destruct (Acc k Hk) as (u & Hu & _). rewrite (proj2 (A' k Hk)), (Uni k Hk), Hu.
      assert (is_none (xattr r k) = false) as -> by (destruct (xattr r k) as [[]| |]; try reflexivity; now destruct Hv).
      unfold rx_unit_written. destruct u as [w|]; [reflexivity|]. rewrite Ed. now destruct d. }
    assert (Aa : forall si, get_arrh_a E si r' = get_arrh_a E si r).
    { intros si. unfold get_arrh_a. destruct (Flt "arrh_a") as [-> ->]; [cbn; tauto|]. destruct (is_none (xattr r "arrh_a")) eqn:Ei; [reflexivity|].
      rewrite Un; [reflexivity|]. intros Hx. rewrite Hx in Ei. discriminate. }
    assert (Bc : forall k, In k ["arrh_b"; "arrh_c"] -> get_arrh_bc E k r' = get_arrh_bc E k r).
    { intros k Hk. unfold get_arrh_bc. rewrite Aa. destruct (Flt k) as [-> ->]; [cbn in Hk |- *; tauto|]. reflexivity. }
    assert (Rf : forall k, In k ["el_en_loss"; "gas_heat_contrib"] -> get_rx_float E k r' = get_rx_float E k r).
    { intros k Hk. unfold get_rx_float. destruct (Flt k) as [-> ->]; [cbn in Hk |- *; tauto|]. reflexivity. }
    assert (Ia : forall k, In k ["qdb_r_id"; "qdb_ds_id"] -> int_attribute E k r' = int_attribute E k r).
    { intros k Hk. unfold int_attribute. destruct (Int k) as [-> ->]; [cbn in Hk |- *; tauto|]. reflexivity. }
    constructor.
    - exact I'.
    - rewrite L'. exact Fl.
    - rewrite R'. exact Fr.
    - exact Aa.
    - apply Bc. cbn. tauto.
    - apply Bc. cbn. tauto.
    - apply Rf. cbn. tauto.
    - apply Rf. cbn. tauto.
    - assert (In "elastic" rx_attr_keys) as Hk by (now apply memS_In). specialize (Ty _ Hk). unfold get_elastic. rewrite (Vb _ Hk), L', R', Nml, Nmr.
      destruct (xattr r "elastic") as [x|d|]; [|discriminate Ty|discriminate Ty]. destruct x as [|b|z|f|f|s]; try discriminate Ty; try reflexivity.
      destruct b; reflexivity.
    - unfold get_special_number, is_electron_process. rewrite L', Nml. destruct (Int "special_number") as [-> ->]; [cbn; tauto|]. reflexivity.
    - apply Ia. cbn. tauto.
    - apply Ia. cbn. tauto.
    - apply Str. cbn. tauto.
    - apply Str. cbn. tauto.
    - apply Str. cbn. tauto.
    - exact Un.
  Qed.

  Lemma reaction_reread ls rs : str_join ", " ls <> "" -> str_join ", " rs <> "" -> reread (rx_el ls rs) = rx_el ls rs.
  Proof using NR W.
    intros Hl Hr. unfold reread, rx_el. cbn [el_id el_items map]. unfold reread_item at 1 2. cbn [it_tag it_unit it_body reread_text].
    destruct (String.eqb_spec (str_join ", " ls) ""); [contradiction|]. destruct (String.eqb_spec (str_join ", " rs) ""); [contradiction|].
    do 3 f_equal. rewrite <- (map_id (map snd _)) at 2. apply map_ext_in. intros i Hi.
    apply (keyed_tags _ _ _ rx_tagged) in Hi as [Hk Hi]. unfold rx_item_of in Hi. destruct (is_none (xattr r (it_tag i))) eqn:Ei; [discriminate|].
    injection Hi as Hi. rewrite <- Hi at 2. rewrite <- Hi. unfold reread_item. cbn [it_tag it_unit it_body reread_text].
    destruct (rx_dict_free _ Hk) as [x Hx]. pose proof (wr_texts _ _ W _ Hk) as Hs. rewrite Hx in *.
    destruct (String.eqb_spec (show E so (VSc x)) "") as [Hc|]; [exfalso|reflexivity].
    destruct NR as (_ & _ & _ & F1 & F2). destruct x as [|b|z|f|f|s]; cbn in Hc; try discriminate Ei.
    - destruct b; discriminate.
    - now apply F2 in Hc.
    - now apply F1 in Hc.
    - now apply F1 in Hc.
    - subst s. now destruct Hs.
  Qed.
End Transfer.
