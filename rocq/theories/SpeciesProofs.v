(** Proofs about single species: charge stripping and surface defaults. *)
From Verif Require Import Base BaseLemmas Species Reactions MolSpec.

Lemma is_sign_spec c : is_sign c = true <-> sign c.
Proof.
  unfold is_sign, sign. cbn. rewrite Bool.orb_true_iff, !Ascii.eqb_eq. intuition.
Qed.

Lemma is_digit_spec c : is_digit c = true <-> digit c.
Proof.
  unfold digit. cbn [chars In].
  split.
  - destruct c as [b0 b1 b2 b3 b4 b5 b6 b7].
    destruct b0, b1, b2, b3, b4, b5, b6, b7; vm_compute; intros H; try discriminate; tauto.
  - intros H. repeat (destruct H as [<-|H]; [reflexivity|]). contradiction.
Qed.

Lemma charge_here_spec l : charge_here l = true <-> charge_suffix (str_of l).
Proof.
  unfold charge_suffix. rewrite chars_str_of. destruct l as [|c l]; cbn.
  - split; [discriminate|]. intros (c & l & H & _). discriminate.
  - rewrite Bool.andb_true_iff, Bool.orb_true_iff, is_sign_spec.
    assert (forallb is_sign l = true <-> (forall d, In d l -> sign d)) as Hs.
    { rewrite forallb_forall. split; intros H d Hd; [apply is_sign_spec|apply is_sign_spec]; auto. }
    assert (match l with [] => false | _ :: _ => forallb is_digit l end = true <->
            l <> [] /\ forall d, In d l -> digit d) as Hd.
    { destruct l as [|a l]; [split; [discriminate|intros [H _]; congruence]|].
      rewrite forallb_forall. split.
      - intros H. split; [discriminate|]. intros d Hd. apply is_digit_spec, H, Hd.
      - intros [_ H] d Hd. apply is_digit_spec, H, Hd. }
    rewrite Hs, Hd. split.
    + intros [H1 H2]. exists c, l. auto.
    + intros (c' & l' & He & H1 & H2). inversion He; subst. auto.
Qed.

(** What [strip_core] does: cut at the leftmost charge suffix. *)
Lemma strip_core_spec l :
  (exists b s, l = b ++ s /\ charge_here s = true /\ strip_core l = b /\
     forall b' s', l = b' ++ s' -> charge_here s' = true -> (List.length b <= List.length b')%nat) \/
  ((forall b s, l = b ++ s -> charge_here s = false) /\ strip_core l = l).
Proof.
  induction l as [|c l IH].
  - right. split; [|reflexivity]. intros b s H. symmetry in H. apply app_eq_nil in H. now destruct H; subst.
  - cbn [strip_core]. destruct (charge_here (c :: l)) eqn:Hc.
    + left. exists [], (c :: l). repeat split; auto. intros. cbn. lia.
    + destruct IH as [(b & s & -> & Hs & Hst & Hmin)|(Hn & Hst)].
      * left. exists (c :: b), s. repeat split; auto; [now rewrite Hst|].
        intros b' s' He Hs'. destruct b' as [|c' b']; cbn in He.
        -- subst s'. congruence.
        -- inversion He; subst. cbn. specialize (Hmin b' s' H1 Hs'). lia.
      * right. split; [|now rewrite Hst].
        intros b s He. destruct b as [|c' b]; cbn in He; [now subst|].
        inversion He; subst. now apply (Hn b).
Qed.

Lemma strip_charge_core s : ~ ends_in_newline s -> strip_charge s = str_of (strip_core (chars s)).
Proof.
  intros Hnl. unfold strip_charge. destruct (rev (chars s)) as [|c r] eqn:Hr.
  - assert (chars s = []) as H by (rewrite <- (rev_involutive (chars s)), Hr; reflexivity).
    rewrite H. cbn. apply chars_inj. now rewrite H.
  - destruct (Ascii.eqb c "010") eqn:Hc; [|reflexivity].
    exfalso. apply Hnl. apply Ascii.eqb_eq in Hc. subst c.
    exists (str_of (rev r)). apply chars_inj. rewrite chars_app, chars_str_of. cbn.
    rewrite <- (rev_involutive (chars s)), Hr. reflexivity.
Qed.

Lemma str_app_chars a b s : s = (a ++ b)%string <-> chars s = chars a ++ chars b.
Proof.
  split; [intros ->; apply chars_app|]. intros H. apply chars_inj. now rewrite chars_app.
Qed.

(** Main characterisation. *)
Lemma strip_charge_spec s :
  ~ ends_in_newline s ->
  (exists t, s = (strip_charge s ++ t)%string /\ charge_suffix t /\
     forall b' t', s = (b' ++ t')%string -> charge_suffix t' ->
       (String.length (strip_charge s) <= String.length b')%nat) \/
  ((forall b t, s = (b ++ t)%string -> ~ charge_suffix t) /\ strip_charge s = s).
Proof.
  intros Hnl. rewrite (strip_charge_core s Hnl).
  assert (forall x, String.length x = List.length (chars x)) as Hlen by (induction x; cbn; congruence).
  destruct (strip_core_spec (chars s)) as [(b & t & He & Ht & Hst & Hmin)|[Hn Hst]].
  - left. rewrite Hst. exists (str_of t). repeat split.
    + apply str_app_chars. now rewrite !chars_str_of.
    + now apply charge_here_spec.
    + intros b' t' He' Ht'. apply str_app_chars in He'.
      rewrite !Hlen, chars_str_of. apply (Hmin _ _ He').
      apply charge_here_spec. now rewrite str_of_chars.
  - right. rewrite Hst. split; [|apply str_of_chars].
    intros b t He Ht. apply str_app_chars in He. specialize (Hn _ _ He).
    assert (charge_here (chars t) = true) as H by (apply charge_here_spec; now rewrite str_of_chars).
    congruence.
Qed.

(** With a trailing newline ([$] matches before it). *)
Lemma strip_charge_newline s :
  ~ ends_in_newline s ->
  strip_charge (s ++ String "010" "")%string = (strip_charge s ++ String "010" "")%string.
Proof.
  intros Hnl. rewrite (strip_charge_core s Hnl).
  unfold strip_charge. rewrite chars_app. cbn [chars]. rewrite rev_app_distr. cbn [rev app].
  rewrite Ascii.eqb_refl, rev_involutive. now rewrite str_of_app.
Qed.

Lemma not_sign_digit c : sign c -> digit c -> False.
Proof.
  unfold sign, digit. cbn. intros H1 H2.
  repeat (destruct H1 as [<-|H1]; [repeat (destruct H2 as [H2|H2]; [discriminate|]); contradiction|]).
  contradiction.
Qed.

Lemma suffix_no_newline b t : charge_suffix t -> ~ ends_in_newline (b ++ t)%string.
Proof.
  intros (c & l & Ht & Hc & Hl) (x & He).
  apply str_app_chars in He. rewrite chars_app, Ht in He. cbn [chars] in He.
  assert (In "010"%char (c :: l)) as Hin.
  { assert (last (chars b ++ c :: l) "a"%char = "010"%char) as H by (rewrite He; apply last_last).
    rewrite <- H. clear. revert b. intros b. induction (chars b) as [|d m IH].
    - cbn [app]. induction l as [|x l IH] in c |- *; [now left|]. right. apply IH.
    - cbn [app last]. destruct (m ++ c :: l) eqn:E; [destruct m; discriminate|exact IH]. }
  assert (forall d, In d (c :: l) -> sign d \/ digit d) as Hall.
  { intros d [<-|Hd]; [now left|]. destruct Hl as [Hl|[_ Hl]]; [left|right]; now apply Hl. }
  destruct (Hall _ Hin) as [H|H]; cbn in H;
    repeat (destruct H as [H|H]; [discriminate|]); contradiction.
Qed.

Lemma app_split_cases {A} (a b c d : list A) :
  a ++ b = c ++ d -> (List.length a <= List.length c)%nat ->
  exists m, c = a ++ m /\ b = m ++ d.
Proof.
  revert c. induction a as [|x a IH]; intros c H Hl.
  - exists c. auto.
  - destruct c as [|y c]; cbn in Hl; [lia|]. cbn in H. inversion H; subst.
    destruct (IH c H2 ltac:(lia)) as (m & -> & ->). exists m. auto.
Qed.

(** A leftmost charge suffix that starts inside [b] can only be when [b] ends
    in a sign and the suffix consists of signs. *)
Lemma strip_charge_base b t :
  charge_suffix t -> ~ ends_in_sign b -> strip_charge (b ++ t)%string = b.
Proof.
  intros Ht Hb. pose proof (suffix_no_newline b t Ht) as Hnl.
  destruct (strip_charge_spec _ Hnl) as [(t' & He & Ht' & Hmin)|[Hn _]]; [|now destruct (Hn b t eq_refl)].
  specialize (Hmin b t eq_refl Ht).
  assert (forall x, String.length x = List.length (chars x)) as Hlen by (induction x; cbn; congruence).
  rewrite !Hlen in Hmin.
  apply (f_equal chars) in He. rewrite !chars_app in He. symmetry in He.
  destruct (app_split_cases _ _ _ _ He Hmin) as (m & Hbm & Htm).
  destruct m as [|x m _] using rev_ind.
  - rewrite app_nil_r in Hbm. symmetry. now apply chars_inj.
  - exfalso. apply Hb.
    destruct Ht' as (c & l & Hcl & Hc & Hl). rewrite Hcl in Htm.
    exists (str_of (chars (strip_charge (b ++ t)) ++ m)), x. split.
    + destruct m as [|y m]; cbn in Htm; inversion Htm; subst; [exact Hc|].
      destruct Hl as [Hl|[_ Hl]].
      * apply Hl. apply in_or_app. left. apply in_or_app. right. now left.
      * exfalso. destruct Ht as (c' & l' & Hcl' & Hc' & _).
        apply (not_sign_digit c' Hc'). apply Hl. rewrite Hcl'. apply in_or_app. right. now left.
    + apply chars_inj. rewrite chars_app, chars_str_of, Hbm. cbn. now rewrite app_assoc.
Qed.

(** Sign-and-number suffixes are removed from every base. *)
Lemma strip_charge_numbered b c l :
  sign c -> l <> [] -> (forall d, In d l -> digit d) ->
  strip_charge (b ++ str_of (c :: l))%string = b.
Proof.
  intros Hc Hne Hl.
  assert (charge_suffix (str_of (c :: l))) as Ht.
  { exists c, l. rewrite chars_str_of. auto. }
  pose proof (suffix_no_newline b _ Ht) as Hnl.
  destruct (strip_charge_spec _ Hnl) as [(t' & He & Ht' & Hmin)|[Hn _]]; [|now destruct (Hn b _ eq_refl)].
  specialize (Hmin b _ eq_refl Ht).
  assert (forall x, String.length x = List.length (chars x)) as Hlen by (induction x; cbn; congruence).
  rewrite !Hlen in Hmin.
  apply (f_equal chars) in He. rewrite !chars_app, chars_str_of in He. symmetry in He.
  destruct (app_split_cases _ _ _ _ He Hmin) as (m & Hbm & Htm).
  destruct m as [|x m].
  - rewrite app_nil_r in Hbm. symmetry. now apply chars_inj.
  - exfalso. destruct Ht' as (c' & l' & Hcl & Hc' & Hl'). rewrite Hcl in Htm. cbn in Htm.
    inversion Htm; subst. destruct Hl' as [Hl'|[_ Hl']].
    + destruct l as [|d l]; [congruence|].
      apply (not_sign_digit d); [apply Hl'|apply Hl; now left].
      apply in_or_app. right. right. now left.
    + apply (not_sign_digit c Hc). apply Hl'. apply in_or_app. right. now left.
Qed.

(** Stripping only ever shortens; without a suffix nothing happens. *)
Lemma strip_charge_twice_refuted : exists s, strip_charge (strip_charge s) <> strip_charge s.
Proof. exists "Ar++2"%string. vm_compute. discriminate. Qed.

(** ** Attribute bookkeeping *)

Lemma rattr_set_same r k v u r' : set_species_attribute r k v u = Ok r' -> rattr r' k = v.
Proof.
  unfold set_species_attribute. intros H.
  repeat match type of H with
         | bind ?a _ = Ok _ => let E := fresh in destruct a eqn:E; cbn [bind] in H; [|discriminate]
         end.
  inversion H; subst. unfold rattr. cbn [rp_attrs]. now rewrite (aget_aset_same _ Seqb_spec).
Qed.

Lemma rattr_set_other r k v u r' k' :
  set_species_attribute r k v u = Ok r' -> k' <> k -> rattr r' k' = rattr r k'.
Proof.
  unfold set_species_attribute. intros H Hne.
  repeat match type of H with
         | bind ?a _ = Ok _ => let E := fresh in destruct a eqn:E; cbn [bind] in H; [|discriminate]
         end.
  inversion H; subst. unfold rattr. cbn [rp_attrs]. now rewrite (aget_aset_other _ Seqb_spec).
Qed.

Lemma set_species_facts r k v u r' :
  set_species_attribute r k v u = Ok r' ->
  In k rp_attr_keys /\ type_in v (rp_attr_types k) = true /\ rp_uid r' = rp_uid r /\ rp_id r' = rp_id r.
Proof.
  unfold set_species_attribute. intros H.
  repeat match type of H with
         | bind ?a _ = Ok _ => let E := fresh "E" in destruct a eqn:E; cbn [bind] in H; [|discriminate]
         end.
  unfold raise_if in *.
  destruct (memS k rp_attr_keys) eqn:Hk; [|discriminate].
  destruct (type_in v (rp_attr_types k)) eqn:Ht; [|discriminate].
  inversion H; subst. apply memS_In in Hk. cbn. auto.
Qed.

Lemma set_all_spec keys attrs units r r' :
  set_all_attributes keys attrs units r = Ok r' ->
  NoDup keys ->
  rp_uid r' = rp_uid r /\ rp_id r' = rp_id r /\
  (forall k, In k keys -> rattr r' k = match sget k attrs with Some v => v | None => VNone end /\
                          type_in (rattr r' k) (rp_attr_types k) = true) /\
  (forall k, ~ In k keys -> rattr r' k = rattr r k).
Proof.
  revert r. induction keys as [|k ks IH]; cbn [set_all_attributes]; intros r H Hnd.
  - inversion H; subst. repeat split; try tauto; cbn in *; contradiction.
  - destruct (set_species_attribute r k _ _) as [r1|] eqn:E1; cbn [bind] in H; [|discriminate].
    inversion Hnd as [|? ? Hni Hnd']; subst.
    destruct (IH _ H Hnd') as (Hu & Hid & Hin & Hout).
    destruct (set_species_facts _ _ _ _ _ E1) as (_ & Ht & Hu1 & Hid1).
    split; [congruence|]. split; [congruence|]. split.
    + intros k' [<-|Hk']; [|now apply Hin].
      rewrite (Hout k Hni), (rattr_set_same _ _ _ _ _ E1). auto.
    + intros k' Hk'. cbn in Hk'. rewrite Hout by tauto.
      apply (rattr_set_other _ _ _ _ _ _ E1). intros ->. tauto.
Qed.

Lemma supdate_get {V} (d e : list (string * V)) k :
  NoDup (akeys e) ->
  sget k (supdate d e) = match sget k e with Some v => Some v | None => sget k d end.
Proof.
  unfold supdate. revert d. induction e as [|[k' v'] e IH]; cbn; intros d Hnd; [reflexivity|].
  inversion Hnd as [|? ? Hni Hnd']; subst. rewrite IH by assumption.
  destruct (String.eqb k k') eqn:Ek.
  - apply String.eqb_eq in Ek. subst k'.
    assert (sget k e = None) as -> by (now apply (aget_None _ Seqb_spec)).
    apply (aget_aset_same _ Seqb_spec).
  - destruct (sget k e); [reflexivity|]. apply (aget_aset_other _ Seqb_spec).
    intros ->. now rewrite String.eqb_refl in Ek.
Qed.

Lemma rp_keys_nodup : NoDup rp_attr_keys.
Proof. apply nodupSb_NoDup. reflexivity. Qed.

Ltac binds H :=
  repeat match type of H with
         | bind ?a _ = Ok _ => let E := fresh "E" in destruct a eqn:E; cbn [bind] in H; [|discriminate H]
         end.

(** What a constructor call stores. *)
Lemma rp_init_spec uid id attributes more units r :
  rp_init uid id attributes more units = Ok r ->
  NoDup (akeys more) ->
  rp_uid r = uid /\ id = VInt (rp_id r) /\ 0 <= rp_id r /\
  (forall k, In k rp_attr_keys ->
     rattr r k = match sget k more with
                 | Some v => v
                 | None => match sget k attributes with Some v => v | None => VNone end
                 end) /\
  (forall k, In k rp_attr_keys -> type_in (rattr r k) (rp_attr_types k) = true) /\
  (exists n, rattr r "name" = VStr n /\ has_char "<" n = false /\ has_char ">" n = false).
Proof.
  unfold rp_init. intros H Hnd. set (attrs := supdate attributes more) in *.
  destruct (match id with VSc (SInt z) => if z <? 0 then Err ERPInit else Ok z | _ => Err ERPInit end)
    as [z|] eqn:Ez; cbn [bind] in H; [|discriminate].
  binds H.
  assert (id = VInt z /\ 0 <= z) as [-> Hz].
  { destruct id as [[]| |]; try discriminate. destruct (Z.ltb_spec z0 0); [discriminate|].
    inversion Ez; subst. auto. }
  destruct (set_all_spec _ _ _ _ _ H rp_keys_nodup) as (Hu & Hid & Hin & _).
  cbn in Hu, Hid.
  assert (forall k, In k rp_attr_keys -> rattr r k =
            match sget k more with
            | Some v => v
            | None => match sget k attributes with Some v => v | None => VNone end end) as Hg.
  { intros k Hk. destruct (Hin k Hk) as [-> _]. unfold attrs. rewrite supdate_get by assumption.
    now destruct (sget k more). }
  split; [congruence|]. split; [congruence|]. split; [lia|]. split; [exact Hg|].
  split; [intros k Hk; now apply Hin|].
  assert (In "name" rp_attr_keys) as Hnk by (now left).
  destruct (Hin _ Hnk) as [Hn Ht].
  assert (a0 = false) as -> by (destruct a0; [discriminate E1|reflexivity]).
  destruct (sget "name" attrs) as [v|] eqn:En; [|discriminate].
  rewrite Hn in Ht. rewrite Hn.
  destruct v as [[| | | | |s]| |]; try discriminate E0; try discriminate Ht.
  exists s. cbn in E0. injection E0 as Hb. apply Bool.orb_false_iff in Hb. split; [reflexivity|exact Hb].
Qed.

Lemma history_types r :
  sp_history r -> forall k, In k rp_attr_keys -> type_in (rattr r k) (rp_attr_types k) = true.
Proof.
  induction 1 as [uid id attributes more units r H|r k0 v u r' Hh IH H]; intros k Hk.
  - unfold rp_init in H. binds H.
    now apply (set_all_spec _ _ _ _ _ H rp_keys_nodup).
  - destruct (string_dec k k0) as [->|Hne].
    + rewrite (rattr_set_same _ _ _ _ _ H). now apply (set_species_facts _ _ _ _ _ H).
    + rewrite (rattr_set_other _ _ _ _ _ _ H Hne). now apply IH.
Qed.

(** ** Surface defaults *)

Section Surface.
  Variables (E : env) (r : rp) (n : string).
  Hypothesis hist : sp_history r.
  Hypothesis name : get_name r = Ok n.

  Lemma special_no_surface :
    n = "e" \/ n = "M" -> get_stick_coef E r = Ok None /\ get_ret_coefs E r = Ok None.
  Proof using name.
    intros Hn. unfold get_stick_coef, get_ret_coefs, is_special. rewrite name. cbn [bind].
    destruct Hn as [->| ->]; split; reflexivity.
  Qed.

  Hypothesis ordinary : n <> "e" /\ n <> "M".

  Lemma ord_special : is_special r = Ok false.
  Proof using name ordinary.
    unfold is_special. rewrite name. cbn [bind]. f_equal. apply memS_false. cbn. intuition congruence.
  Qed.

  Lemma explicit_stick v :
    rattr r "stick_coef" = v -> v <> VNone ->
    get_stick_coef E r = (let* f := py_float_v E v in Ok (Some f)).
  Proof using name ordinary.
    intros Hv Hne. unfold get_stick_coef. rewrite ord_special. cbn [bind]. rewrite Hv.
    destruct v as [[]| |]; try reflexivity. now destruct Hne.
  Qed.

  Lemma explicit_ret d :
    rattr r "ret_coefs" = VDict d ->
    get_ret_coefs E r =
      (let* l := mapM (fun kv => let* f := py_float E (snd kv) in Ok (fst kv, f)) d in Ok (Some l)).
  Proof using name ordinary.
    intros Hv. unfold get_ret_coefs. rewrite ord_special. cbn [bind]. rewrite Hv. reflexivity.
  Qed.

  Lemma ret_none_or_dict : rattr r "ret_coefs" = VNone \/ exists d, rattr r "ret_coefs" = VDict d.
  Proof using hist.
    pose proof (history_types r hist "ret_coefs" (proj1 (memS_In "ret_coefs" rp_attr_keys) eq_refl)) as H.
    destruct (rattr r "ret_coefs") as [[]|d|]; try discriminate; [now left|right; eauto].
  Qed.

  Variables (st : option string) (q : Z).
  Hypothesis state : get_state r = Ok st.
  Hypothesis charge : get_charge E r = Ok (Some q).

  Lemma sn_val : stateless_neutral E r = Ok (match st with None => q =? 0 | Some _ => false end).
  Proof using state charge.
    unfold stateless_neutral. rewrite state. cbn [bind]. destruct st; [reflexivity|].
    rewrite charge. reflexivity.
  Qed.

  Lemma default_stick :
    rattr r "stick_coef" = VNone ->
    get_stick_coef E r = Ok (Some (Fin (if match st with None => q =? 0 | Some _ => false end then 0 else 1))).
  Proof using name ordinary state charge.
    intros Hv. unfold get_stick_coef. rewrite ord_special. cbn [bind]. rewrite Hv. cbn [is_none VNone].
    rewrite sn_val. cbn [bind]. unfold fzero, fone. now destruct (match st with None => _ | _ => _ end).
  Qed.

  Lemma default_ret_ground :
    rattr r "ret_coefs" = VNone -> st = None -> q = 0 -> get_ret_coefs E r = Ok (Some []).
  Proof using name ordinary state charge.
    intros Hv Hst Hq. unfold get_ret_coefs. rewrite ord_special. cbn [bind]. rewrite Hv. cbn [VNone].
    rewrite sn_val, Hst, Hq. reflexivity.
  Qed.

  Lemma default_ret_other s :
    rattr r "ret_coefs" = VNone -> st <> None \/ q <> 0 -> get_stateless r = Ok s ->
    get_ret_coefs E r = Ok (Some [(strip_charge s, Fin 1)]) /\
    get_atoms E r = formula_atoms E (strip_charge s).
  Proof using name ordinary state charge.
    intros Hv Hne Hs. split.
    - unfold get_ret_coefs. rewrite ord_special. cbn [bind]. rewrite Hv. cbn [VNone].
      rewrite sn_val, Hs. cbn [bind]. clear state. destruct st; [reflexivity|].
      destruct (Z.eqb_spec q 0); [|reflexivity]. destruct Hne; congruence.
    - unfold get_atoms. rewrite name. cbn [bind].
      destruct (String.eqb_spec n "e"); [tauto|]. destruct (String.eqb_spec n "M"); [tauto|].
      rewrite Hs. reflexivity.
  Qed.

  Lemma stateless_total :
    rattr r "stateless" <> VNone \/ st = None -> exists s, get_stateless r = Ok s.
  Proof using hist name ordinary state.
    intros H. unfold get_stateless. rewrite ord_special. cbn [bind].
    pose proof (history_types r hist "stateless" (proj1 (memS_In "stateless" rp_attr_keys) eq_refl)) as Ht.
    unfold rstr. destruct (rattr r "stateless") as [[| | | | |s]| |] eqn:Es; try discriminate; [|eauto].
    destruct H as [H|H]; [now destruct H|].
    rewrite state, H. cbn [bind]. exists n. exact name.
  Qed.
End Surface.
