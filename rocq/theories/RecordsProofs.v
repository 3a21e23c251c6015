(** Proofs about the data of single species and reactions. *)
From Coq Require Import Lqa.
From Verif Require Import Base BaseLemmas Species Reactions MolSpec SpeciesProofs ReactionProofs RecordsSpec.

(** ** Helpers *)

Lemma bind_unit_iff {A} (a : res unit) (f : unit -> res A) : (exists x, bind a f = Ok x) <-> a = Ok tt /\ exists x, f tt = Ok x.
Proof.
  destruct a as [[]|e]; cbn [bind]; split; try (intros (x & H); discriminate); try (intros [H _]; discriminate); [|intros [_ H]; exact H].
  intros H. split; [reflexivity|exact H].
Qed.
Lemma raise_iff b e : raise_if b e = Ok tt <-> b = false.
Proof. destruct b; cbn; split; congruence. Qed.
Lemma none_iff v : is_none v = true <-> v = VSc SNone.
Proof. destruct v as [[]| |]; cbn; split; congruence. Qed.

Section ToldFun.
  Variables (acc : string -> pyval -> option string -> Prop) (start : string -> pyval) (units : string -> option string).
  Lemma told_nil k v u : told acc start units [] k v u -> v = start k /\ u = units k.
  Proof. intros H. remember [] as l eqn:L. destruct H; [now split| |]; destruct calls; discriminate. Qed.
  Lemma told_snoc calls k0 v0 u0 k v u : told acc start units (calls ++ [(k0, v0, u0)]) k v u ->
    (k0 = k /\ v0 = v /\ u0 = u /\ acc k v u) \/ (told acc start units calls k v u /\ (k0 <> k \/ ~ acc k0 v0 u0)).
  Proof.
    intros H. remember (calls ++ [(k0, v0, u0)]) as l eqn:L. destruct H as [k|c k v u A|c k v u k' v' u' T N].
    - destruct calls; discriminate.
    - apply app_inj_tail in L as [-> L]. injection L as <- <- <-. left. auto.
    - apply app_inj_tail in L as [-> L]. injection L as <- <- <-. right. auto.
  Qed.
  Lemma told_fun calls : forall k v u v' u', told acc start units calls k v u -> told acc start units calls k v' u' -> v = v' /\ u = u'.
  Proof.
    induction calls as [|[[k0 v0] u0] calls IH] using rev_ind; intros k v u v' u' H H'.
    - apply told_nil in H, H'. destruct H, H'. split; congruence.
    - apply told_snoc in H, H'. destruct H as [(A1 & A2 & A3 & A4)|(A1 & A2)], H' as [(B1 & B2 & B3 & B4)|(B1 & B2)].
      + split; congruence.
      + subst. destruct B2; contradiction.
      + subst. destruct A2; contradiction.
      + exact (IH _ _ _ _ _ A1 B1).
  Qed.
End ToldFun.

Lemma as_float_eq E v : v <> VSc SNone -> (forall b, v <> VSc (SBool b)) -> py_float_v E v = as_float E v.
Proof. intros N B. destruct v as [[]| |]; try reflexivity. now destruct (B b). Qed.
Lemma as_int_eq E v : (forall b, v <> VSc (SBool b)) -> py_int_v E v = as_int E v.
Proof. intros B. destruct v as [[]| |]; try reflexivity. now destruct (B b). Qed.

(** ** Species *)

Lemma sp_value_iff k v : sp_value k v <-> memS k rp_attr_keys = true /\ type_in v (rp_attr_types k) = true.
Proof.
  split.
  - intros H. destruct H as [k I|k v I N|k v I N|k s I|d].
    + repeat (destruct I as [<-|I]; [split; reflexivity|]). destruct I.
    + repeat (destruct I as [<-|I]; [destruct N; split; reflexivity|]). destruct I.
    + repeat (destruct I as [<-|I]; [destruct N; split; reflexivity|]). destruct I.
    + repeat (destruct I as [<-|I]; [split; reflexivity|]). destruct I.
    + split; reflexivity.
  - intros [M T]. apply memS_In in M. unfold rp_attr_keys in M.
    destruct v as [[|b|z|f|f|s]|d|].
    all: try (apply spv_none; exact M).
    all: repeat (destruct M as [<-|M]; [try (vm_compute in T; discriminate T);
      first [apply spv_number; [cbn; tauto|constructor]|apply spv_integer; [cbn; tauto|constructor]|apply spv_text; cbn; tauto|apply spv_table]|]); destruct M.
Qed.

Lemma sp_unit_iff k w : In (k, w) sp_units <-> shas k rp_default_units = true /\ rp_unit_allowed k w = true.
Proof.
  unfold rp_unit_allowed, shas, ahas. split.
  - intros H. repeat (destruct H as [H|H]; [injection H as <- <-; split; reflexivity|]). destruct H.
  - intros [_ H]. destruct (sget k rp_default_units) as [u|] eqn:S; [|discriminate]. apply String.eqb_eq in H. subst u.
    unfold sget in S. apply (aget_In _ Seqb_spec) in S. exact S.
Qed.

Lemma set_species_iff r k v u : (exists r', set_species_attribute r k v u = Ok r') <-> sp_accepts k v u.
Proof.
  unfold set_species_attribute, sp_accepts. rewrite !bind_unit_iff, !raise_iff, sp_value_iff, !negb_false_iff.
  split.
  - intros (U & M & T & _). split; [now split|]. intros w -> N. rewrite sp_unit_iff. destruct (is_none v) eqn:NV; [apply none_iff in NV; contradiction|].
    destruct (shas k rp_default_units); [|discriminate]. cbn [negb] in U. apply raise_iff, negb_false_iff in U. now split.
  - intros ((M & T) & U). split; [|split; [exact M|split; [exact T|eexists; reflexivity]]].
    destruct u as [w|]; [|reflexivity]. destruct (is_none v) eqn:NV; [reflexivity|].
    assert (N : v <> VSc SNone) by (intros X; apply none_iff in X; congruence). specialize (U w eq_refl N). apply sp_unit_iff in U. destruct U as [-> ->]. reflexivity.
Qed.
Lemma set_species_error r k v u : ~ sp_accepts k v u -> set_species_attribute r k v u = Err ERPAttr.
Proof.
  intros N. destruct (set_species_attribute r k v u) as [r'|e] eqn:H; [exfalso; apply N; apply (set_species_iff r); now exists r'|].
  unfold set_species_attribute in H.
  destruct u as [w|]; [destruct (is_none v); [|destruct (shas k rp_default_units); cbn [negb raise_if bind] in H; [destruct (rp_unit_allowed k w)|]]|];
  cbn [negb raise_if bind] in H; try congruence; destruct (memS k rp_attr_keys); cbn [negb raise_if bind] in H; try congruence;
  destruct (type_in v (rp_attr_types k)); cbn [negb raise_if bind] in H; congruence.
Qed.

Lemma set_species_all r k v u r' : set_species_attribute r k v u = Ok r' ->
  rp_uid r' = rp_uid r /\ rp_id r' = rp_id r /\ rattr r' k = v /\ sget k (rp_units r') = Some u /\
  forall k', k' <> k -> rattr r' k' = rattr r k' /\ sget k' (rp_units r') = sget k' (rp_units r).
Proof.
  intros H. pose proof (set_species_facts _ _ _ _ _ H) as (_ & _ & A & B). pose proof (rattr_set_same _ _ _ _ _ H) as C.
  split; [exact A|]. split; [exact B|]. split; [exact C|]. unfold set_species_attribute in H. binds H. injection H as <-. cbn [rp_units].
  split; [apply (aget_aset_same _ Seqb_spec)|]. intros k' N. split; [|now apply (aget_aset_other _ Seqb_spec)].
  unfold rattr. cbn [rp_attrs]. now rewrite (aget_aset_other _ Seqb_spec).
Qed.

Lemma set_all_iff keys attrs units : (forall k, In k keys -> sp_accepts k (match sget k attrs with Some v => v | None => VNone end) (unit_given units k)) <->
  forall r, exists r', set_all_attributes keys attrs units r = Ok r'.
Proof.
  induction keys as [|k keys IH]; cbn [set_all_attributes].
  - split; [intros _ r; now exists r|intros _ k []].
  - split.
    + intros H r. destruct (proj2 (set_species_iff r _ _ _) (H k (or_introl eq_refl))) as (r1 & H1). unfold unit_given in H1. rewrite H1. cbn [bind].
      apply IH. intros k' I. apply H. now right.
    + intros H k' I. assert (A : sp_accepts k (match sget k attrs with Some v => v | None => VNone end) (unit_given units k)).
      { destruct (H (MkRP 0 0 [] [])) as (r' & H'). destruct (set_species_attribute _ k _ _) as [r1|] eqn:S in H'; [|discriminate].
        apply (set_species_iff (MkRP 0 0 [] [])). unfold unit_given. now exists r1. }
      destruct I as [<-|I]; [exact A|]. apply IH; [|exact I]. intros r.
      destruct (proj2 (set_species_iff r _ _ _) A) as (r1 & H1).
      (* the rest does not depend on what is stored *)
      clear -H H1. destruct (H r) as (r2 & H2). unfold unit_given in H1. rewrite H1 in H2. cbn [bind] in H2.
      assert (G : forall ks a b, (exists x, set_all_attributes ks attrs units a = Ok x) -> exists x, set_all_attributes ks attrs units b = Ok x).
      { clear. induction ks as [|k ks IH]; intros a b (x & X); [now exists b|]. cbn [set_all_attributes] in *.
        destruct (set_species_attribute a k _ _) as [a1|] eqn:S; [|discriminate]. cbn [bind] in X.
        match type of S with set_species_attribute a k ?v ?u = _ => destruct (proj2 (set_species_iff b k v u) (proj1 (set_species_iff a k v u) (ex_intro _ a1 S))) as (b1 & B1) end.
        rewrite B1. cbn [bind]. apply (IH a1). now exists x. }
      apply (G keys r1 r). now exists r2.
Qed.
Lemma set_all_units keys attrs units : NoDup keys -> forall r r', set_all_attributes keys attrs units r = Ok r' ->
  (forall k, In k keys -> sget k (rp_units r') = Some (unit_given units k)) /\ (forall k, ~ In k keys -> sget k (rp_units r') = sget k (rp_units r)).
Proof.
  induction keys as [|k keys IH]; cbn [set_all_attributes]; intros ND r r' H.
  - injection H as <-. split; [intros k []|reflexivity].
  - destruct (set_species_attribute r k _ _) as [r1|] eqn:S; [|discriminate]. cbn [bind] in H. inversion_clear ND as [|? ? N1 N2].
    destruct (IH N2 _ _ H) as [A B]. destruct (set_species_all _ _ _ _ _ S) as (_ & _ & _ & U & O). split.
    + intros k' [<-|I]; [|now apply A]. rewrite (B _ N1). exact U.
    + intros k' I. cbn in I. rewrite B by tauto. apply O. intros ->. tauto.
Qed.

(** The invariant. *)
Definition sp_stored (r : rp) (T : string -> pyval -> option string -> Prop) : Prop :=
  forall k, In k rp_attr_keys -> exists u, T k (rattr r k) u /\ sget k (rp_units r) = Some u.

Lemma init_parts uid id attributes more units r : rp_init uid id attributes more units = Ok r ->
  exists z, id = VInt z /\ 0 <= z /\ set_all_attributes rp_attr_keys (supdate attributes more) units (MkRP uid z [] []) = Ok r.
Proof.
  unfold rp_init. intros H. destruct id as [[]| |]; try discriminate. destruct (z <? 0) eqn:Z0; [discriminate|]. cbn [bind] in H. cbv zeta in H. binds H.
  exists z. split; [reflexivity|]. split; [apply Z.ltb_ge in Z0; exact Z0|exact H].
Qed.
Lemma given_supdate attributes more k : NoDup (akeys more) -> sget k (supdate attributes more) = given attributes more k.
Proof. intros N. now rewrite supdate_get. Qed.

Lemma sp_stored_init uid id attributes more units r : NoDup (akeys more) -> rp_init uid id attributes more units = Ok r ->
  sp_stored r (told sp_accepts (given_or_none attributes more) (unit_given units) []).
Proof.
  intros N H. destruct (init_parts _ _ _ _ _ _ H) as (z & -> & _ & S). intros k I.
  destruct (set_all_spec _ _ _ _ _ S rp_keys_nodup) as (_ & _ & A & _). destruct (A k I) as [-> _].
  destruct (set_all_units _ _ _ rp_keys_nodup _ _ S) as [U _]. exists (unit_given units k). split; [|exact (U k I)].
  rewrite (given_supdate _ _ _ N). exact (told_start _ _ _ k).
Qed.
Lemma sp_stored_assigns start units calls : forall r0, sp_stored r0 (told sp_accepts start units []) ->
  sp_stored (sp_assigns r0 calls) (told sp_accepts start units calls).
Proof.
  induction calls as [|[[k v] u] calls IH] using rev_ind; intros r0 S; [exact S|].
  unfold sp_assigns. rewrite fold_left_app. cbn [fold_left]. fold (sp_assigns r0 calls). specialize (IH r0 S). unfold sp_assign at 1.
  destruct (set_species_attribute (sp_assigns r0 calls) k v u) as [r'|e] eqn:E.
  - destruct (set_species_all _ _ _ _ _ E) as (_ & _ & A & U & O). intros k' I. destruct (string_dec k' k) as [->|D].
    + exists u. rewrite A. split; [|exact U]. apply told_now. apply (set_species_iff (sp_assigns r0 calls)). now exists r'.
    + destruct (O k' D) as [-> ->]. destruct (IH k' I) as (u' & T & X). exists u'. split; [|exact X]. apply told_before; [exact T|]. left. congruence.
  - assert (NA : ~ sp_accepts k v u) by (intros X; apply (set_species_iff (sp_assigns r0 calls)) in X; destruct X; congruence).
    intros k' I. destruct (IH k' I) as (u' & T & X). exists u'. split; [|exact X]. apply told_before; [exact T|]. now right.
Qed.
Lemma told_accepted (keys : list string) (acc : string -> pyval -> option string -> Prop) start units calls k v u : (forall k, In k keys -> acc k (start k) (units k)) -> In k keys -> told acc start units calls k v u -> acc k v u.
Proof. intros H I T. induction T; auto. Qed.
Lemma sp_history_assigns uid id attributes more units r0 calls : rp_init uid id attributes more units = Ok r0 -> sp_history (sp_assigns r0 calls).
Proof.
  intros H. induction calls as [|[[k v] u] calls IH] using rev_ind; [exact (sp_new _ _ _ _ _ _ H)|].
  unfold sp_assigns. rewrite fold_left_app. cbn [fold_left]. fold (sp_assigns r0 calls). unfold sp_assign at 1.
  destruct (set_species_attribute _ k v u) as [r'|] eqn:S; [exact (sp_assigned _ _ _ _ _ IH S)|exact IH].
Qed.

Lemma stored_type r (T : string -> pyval -> option string -> Prop) k : sp_stored r T -> (forall k v u, In k rp_attr_keys -> T k v u -> sp_accepts k v u) -> In k rp_attr_keys -> sp_value k (rattr r k).
Proof. intros S A I. destruct (S k I) as (u & X & _). exact (proj1 (A _ _ _ I X)). Qed.
Lemma number_no_bool k v b : sp_value k v -> v <> VSc (SBool b).
Proof. intros H ->. inversion H as [? ?|? ? ? N|? ? ? N| |]; subst; inversion N. Qed.

Lemma sp_reports_ok E r T : sp_stored r T -> (forall k v u, In k rp_attr_keys -> T k v u -> sp_accepts k v u) ->
  exists val unit, (forall k, In k rp_attr_keys -> T k (val k) (unit k)) /\ sp_reports E r val unit.
Proof.
  intros S A. exists (rattr r), (fun k => match sget k (rp_units r) with Some u => u | None => None end).
  split; [intros k I; destruct (S k I) as (u & X & ->); exact X|].
  assert (V : forall k, In k rp_attr_keys -> sp_value k (rattr r k)) by (intros k I; exact (stored_type r T k S A I)).
  assert (NB : forall k b, In k rp_attr_keys -> rattr r k <> VSc (SBool b)) by (intros k b I; exact (number_no_bool k _ b (V k I))).
  assert (FD : forall k d, In k rp_attr_keys -> is_special r = Ok false -> get_float_default E k d r = some (float_or E d (rattr r k))).
  { intros k d I Sp. unfold get_float_default. rewrite Sp. cbn [bind]. pose proof (NB k) as B. unfold float_or, some.
    destruct (is_none (rattr r k)) eqn:N; [apply none_iff in N; now rewrite N|].
    rewrite as_float_eq by (try (intros b; exact (B b I)); intros X; apply none_iff in X; congruence).
    destruct (rattr r k) as [[]| |]; try reflexivity; try discriminate; cbn [bind as_float]. all: now destruct (fparse E s). }
  assert (K : forall k, memS k rp_attr_keys = true -> In k rp_attr_keys) by (intros k; apply memS_In).
  split; unfold as_text.
  - unfold get_name, rstr. destruct (rattr r "name") as [[]| |]; reflexivity.
  - intros n Hn. assert (GN : get_name r = Ok n). { unfold get_name, rstr. destruct (rattr r "name") as [[]| |]; try discriminate. now injection Hn as ->. }
    split; [|split; [|split]].
    + intros ->. unfold get_mass, get_charge. rewrite GN. split; reflexivity.
    + intros D. unfold get_mass, get_charge. rewrite GN. cbn [bind]. destruct (String.eqb_spec n "M") as [X|_]; [contradiction|]. split.
      * pose proof (fun b => NB "mass"%string b (K "mass"%string eq_refl)) as B. destruct (is_none (rattr r "mass")) eqn:N; [apply none_iff in N; now rewrite N|].
        rewrite as_float_eq by (try exact B; intros X; apply none_iff in X; congruence). destruct (rattr r "mass") as [[]| |]; try reflexivity; try discriminate; cbn; now destruct (fparse E s).
      * pose proof (fun b => NB "charge"%string b (K "charge"%string eq_refl)) as B. destruct (is_none (rattr r "charge")) eqn:N; [apply none_iff in N; now rewrite N|].
        rewrite as_int_eq by exact B. destruct (rattr r "charge") as [[]| |]; try reflexivity; try discriminate; cbn; now destruct (iparse E s).
    + intros D. assert (Sp : is_special r = Ok true). { unfold is_special. rewrite GN. cbn [bind]. destruct D as [-> | ->]; reflexivity. }
      unfold get_h_form, get_lj_epsilon, get_lj_sigma, get_float_default, get_state, get_stateless. rewrite Sp. cbn [bind]. rewrite GN. auto.
    + intros D1 D2. assert (Sp : is_special r = Ok false).
      { unfold is_special. rewrite GN. cbn [bind]. unfold special_names, memS, existsb. destruct (String.eqb_spec n "e"); [contradiction|]. destruct (String.eqb_spec n "M"); [contradiction|]. reflexivity. }
      split; [exact (FD _ _ (K "h_form"%string eq_refl) Sp)|]. split; [exact (FD _ _ (K "lj_epsilon"%string eq_refl) Sp)|]. split; [exact (FD _ _ (K "lj_sigma"%string eq_refl) Sp)|].
      unfold get_stateless, get_state. rewrite Sp. cbn [bind]. split; [reflexivity|]. unfold rstr. destruct (rattr r "stateless") as [[]| |]; try reflexivity;
      destruct (rattr r "state") as [[]| |]; try exact GN; reflexivity.
  - reflexivity.
  - reflexivity.
  - unfold get_qdb_id. pose proof (fun b => NB "qdb_id"%string b (K "qdb_id"%string eq_refl)) as B. destruct (is_none (rattr r "qdb_id")) eqn:N; [apply none_iff in N; now rewrite N|].
    rewrite as_int_eq by exact B. destruct (rattr r "qdb_id") as [[]| |]; try reflexivity; try discriminate; cbn; now destruct (iparse E s).
  - intros k w I. assert (IK : In k rp_attr_keys) by (repeat (destruct I as [I|I]; [injection I as <- <-; now apply K|]); destruct I).
    unfold rp_get_unit. destruct (S k IK) as (u & _ & ->). 
    repeat (destruct I as [I|I]; [injection I as <- <-; cbn [sget aget]; now destruct u|]). destruct I.
  - intros k N. unfold rp_get_unit. destruct (sget k rp_default_units) as [w|] eqn:X; [|reflexivity]. exfalso. apply N.
    unfold sget in X. apply (aget_In _ Seqb_spec) in X. apply in_map_iff. exists (k, w). split; [reflexivity|exact X].
Qed.

(** The constructor. *)
Lemma supdate_keys attributes more k : NoDup (akeys more) -> (In k (akeys (supdate attributes more)) <-> given attributes more k <> None).
Proof.
  intros N. rewrite <- (given_supdate attributes more k N). split.
  - intros I X. apply (aget_None _ Seqb_spec) in X. contradiction.
  - intros X. destruct (in_dec string_dec k (akeys (supdate attributes more))) as [I|I]; [exact I|]. exfalso. apply X. now apply (aget_None _ Seqb_spec).
Qed.
Lemma subsetS_iff l m : subsetS l m = true <-> incl l m.
Proof. unfold subsetS. rewrite forallb_forall. split; intros H x I; [apply memS_In; now apply H|apply memS_In; now apply H]. Qed.
Lemma has_char_iff c s : has_char c s = true <-> In c (chars s).
Proof.
  unfold has_char. rewrite existsb_exists. split.
  - intros (x & I & E). apply Ascii.eqb_eq in E. now subst.
  - intros I. exists c. split; [exact I|apply Ascii.eqb_refl].
Qed.
Lemma accepts_none k : In k rp_attr_keys -> sp_accepts k (VSc SNone) None.
Proof. intros I. split; [now apply spv_none|]. intros w X. discriminate. Qed.

Theorem sp_init_iff uid id attributes more units : NoDup (akeys more) ->
  (exists r, rp_init uid id attributes more units = Ok r) <-> sp_arguments id attributes more units.
Proof.
  intros N. pose proof (fun k => given_supdate attributes more k N) as G. pose proof (fun k => supdate_keys attributes more k N) as K.
  assert (SH : forall k, shas k (supdate attributes more) = true <-> given attributes more k <> None).
  { intros k. rewrite <- K. exact (memS_In k (akeys (supdate attributes more))). }
  split.
  - intros (r & H). destruct (init_parts _ _ _ _ _ _ H) as (z & -> & Z0 & S).
    assert (AV : forall k v, given attributes more k = Some v -> In k rp_attr_keys -> sp_accepts k v (unit_given units k)).
    { intros k v GV I. rewrite <- G in GV. pose proof (proj2 (set_all_iff rp_attr_keys (supdate attributes more) units)) as X.
      assert (Y : forall r, exists r', set_all_attributes rp_attr_keys (supdate attributes more) units r = Ok r').
      { assert (GG : forall ks a b, (exists x, set_all_attributes ks (supdate attributes more) units a = Ok x) -> exists x, set_all_attributes ks (supdate attributes more) units b = Ok x).
        { clear. induction ks as [|k ks IH]; intros a b (x & X); [now exists b|]. cbn [set_all_attributes] in *.
          destruct (set_species_attribute a k _ _) as [a1|] eqn:S; [|discriminate]. cbn [bind] in X.
          match type of S with set_species_attribute a k ?v ?u = _ => destruct (proj2 (set_species_iff b k v u) (proj1 (set_species_iff a k v u) (ex_intro _ a1 S))) as (b1 & B1) end.
          rewrite B1. cbn [bind]. apply (IH a1). now exists x. }
        intros r1. apply (GG rp_attr_keys (MkRP uid z [] [])). now exists r. }
      specialize (X Y k I). now rewrite GV in X. }
    unfold rp_init, VInt in H. cbv beta iota zeta in H. rewrite (proj2 (Z.ltb_ge z 0) Z0) in H. cbn [bind] in H. rewrite !G in H.
    match type of H with bind ?a _ = _ => destruct a as [[]|] eqn:M; cbn [bind] in H; [|discriminate] end.
    match type of H with bind ?a _ = _ => destruct a as [bad|] eqn:BD; cbn [bind] in H; [|discriminate] end.
    match type of H with bind ?a _ = _ => destruct a as [[]|] eqn:BF; cbn [bind] in H; [|discriminate] end.
    match type of H with bind ?a _ = _ => destruct a as [[]|] eqn:KS; cbn [bind] in H; [|discriminate] end.
    match type of H with bind ?a _ = _ => destruct a as [[]|] eqn:US; cbn [bind] in H; [|discriminate] end.
    apply raise_iff, negb_false_iff in M, KS, US. apply raise_iff in BF. subst bad. apply subsetS_iff in M, KS, US.
    assert (AK : forall k, given attributes more k <> None -> In k rp_attr_keys) by (intros k X; apply KS; now apply K).
    split.
    + exists z. now split.
    + destruct (given attributes more "name") as [nv|] eqn:GN; [|discriminate].
      pose proof (AV "name"%string nv GN (AK "name"%string ltac:(congruence))) as [V _].
      assert (exists n, nv = VSc (SStr n)) as (n & ->).
      { apply sp_value_iff in V. destruct V as [_ V]. destruct nv as [[]| |]; try discriminate V; try discriminate BD. now eexists. }
      exists n. split; [reflexivity|]. cbn [name_invalid_chars] in BD. assert (BD' : has_char "<" n || has_char ">" n = false) by congruence. apply orb_false_iff in BD'. destruct BD' as [B1 B2].
      split; [intros X; apply has_char_iff in X; congruence|]. split; [intros X; apply has_char_iff in X; congruence|].
      intros D. apply K. apply M. cbn [In]. right. destruct (String.eqb_spec n "M") as [X|_]; [contradiction|]. now left.
    + intros s GS D. apply K. apply M. rewrite GS. cbn [truthy]. destruct (String.eqb_spec s "") as [X|_]; [contradiction|]. cbn [negb]. right. apply in_or_app. right. now left.
    + intros k v GV. apply AV; [exact GV|]. apply AK. congruence.
    + intros k I. specialize (US k I). apply filter_In in US. destruct US as [U1 U2]. split; [exact U1|]. now apply SH.
  - intros [(z & -> & Z0) (n & GN & B1 & B2 & MS) ST AV UN]. unfold rp_init. rewrite (proj2 (Z.ltb_ge z 0) Z0). cbn [bind]. cbv zeta. rewrite !G, GN. cbn [name_invalid_chars].
    assert (AK : forall k v, given attributes more k = Some v -> In k rp_attr_keys).
    { intros k v GV. destruct (AV k v GV) as [V _]. apply sp_value_iff in V. destruct V as [V _]. now apply memS_In. }
    match goal with |- context [raise_if (negb (subsetS ?m _)) _] => assert (M : subsetS m (akeys (supdate attributes more)) = true) end.
    { apply subsetS_iff. intros k [<-|I]; [apply K; congruence|]. apply in_app_or in I. destruct I as [I|I].
      - destruct (String.eqb_spec n "M") as [X|D]; [destruct I|]. destruct I as [<-|[]]. apply K. now apply MS.
      - destruct (given attributes more "state") as [sv|] eqn:GS; [|destruct I]. destruct (truthy sv) eqn:TS; [|destruct I]. destruct I as [<-|[]]. apply K.
        pose proof (proj1 (AV _ _ GS)) as V. apply sp_value_iff in V. destruct V as [_ V]. destruct sv as [[]| |]; try discriminate V; try discriminate TS.
        apply (ST s eq_refl). intros ->. discriminate. }
    rewrite M. cbn [negb raise_if bind].
    assert (BD : has_char "<" n || has_char ">" n = false).
    { apply orb_false_iff. split; apply not_true_is_false; intros X; apply has_char_iff in X; contradiction. }
    rewrite BD. cbn [raise_if bind].
    assert (KS : subsetS (akeys (supdate attributes more)) rp_attr_keys = true).
    { apply subsetS_iff. intros k I. apply K in I. destruct (given attributes more k) eqn:GV; [now apply (AK k p)|contradiction]. }
    rewrite KS. cbn [negb raise_if bind].
    match goal with |- context [raise_if (negb (subsetS ?m ?l)) _] => assert (US : subsetS m l = true) end.
    { apply subsetS_iff. intros k I. destruct (UN k I) as [U1 U2]. apply filter_In. split; [exact U1|now apply SH]. }
    rewrite US. cbn [negb raise_if bind]. apply set_all_iff. intros k I. rewrite G. destruct (given attributes more k) as [v|] eqn:GV; [now apply AV|].
    assert (UG : unit_given units k = None).
    { unfold unit_given. destruct (sget k units) as [u|] eqn:SU; [|reflexivity]. exfalso. unfold sget in SU. apply (aget_In _ Seqb_spec) in SU.
      destruct (UN k (in_map fst _ _ SU)) as [_ X]. contradiction. }
    rewrite UG. now apply accepts_none.
Qed.
