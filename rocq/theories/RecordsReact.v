(** Proofs about the data of single reactions. *)
From Coq Require Import Lqa.
From Verif Require Import Base BaseLemmas Species Reactions MolSpec SpeciesProofs ReactionProofs RecordsSpec RecordsProofs.

Lemma rx_value_iff k v : rx_value k v <->
  memS k rx_attr_keys = true /\ type_in v (rx_attr_types k) = true /\ (k = "elastic" -> elastic_allowed v = Ok true).
Proof.
  split.
  - intros H. destruct H as [k I|k v I N|k v I N|k s I|b|s I].
    + repeat (destruct I as [<-|I]; [repeat split; reflexivity|]). destruct I.
    + repeat (destruct I as [<-|I]; [destruct N; (split; [reflexivity|split; [reflexivity|discriminate]])|]). destruct I.
    + repeat (destruct I as [<-|I]; [destruct N; (split; [reflexivity|split; [reflexivity|discriminate]])|]). destruct I.
    + repeat (destruct I as [<-|I]; [(split; [reflexivity|split; [reflexivity|discriminate]])|]). destruct I.
    + repeat split; reflexivity.
    + split; [reflexivity|]. split; [reflexivity|]. intros _. unfold elastic_allowed. f_equal. now apply memS_In.
  - intros (M & T & EL). apply memS_In in M. unfold rx_attr_keys in M.
    destruct v as [[|b|z|f|f|s]|d|].
    all: try (apply rxv_none; exact M).
    all: repeat (destruct M as [<-|M]; [try (vm_compute in T; discriminate T);
      first [apply rxv_number; [cbn; tauto|constructor]|apply rxv_integer; [cbn; tauto|constructor]|apply rxv_text; cbn; tauto|apply rxv_bool
            |apply rxv_spelled; specialize (EL eq_refl); apply memS_In; cbn [elastic_allowed] in EL; congruence]|]); destruct M.
Qed.

Lemma value_no_bool k v b : rx_value k v -> k <> "elastic" -> v <> VSc (SBool b).
Proof. intros H D ->. inversion H as [? ?|? ? ? N|? ? ? N| | |]; subst; try (inversion N; fail). now apply D. Qed.
Lemma as_float_num E k v : rx_value k v -> k <> "elastic" -> py_float_v E v = as_float E v.
Proof. intros H D. destruct v as [[]| |]; try reflexivity. now destruct (value_no_bool _ _ b H D). Qed.
Lemma as_int_num E k v : rx_value k v -> k <> "elastic" -> py_int_v E v = as_int E v.
Proof. intros H D. destruct v as [[]| |]; try reflexivity. now destruct (value_no_bool _ _ b H D). Qed.
Lemma not_negative_iff f : fltb f fzero = false <-> not_negative f.
Proof.
  destruct f as [q| | |]; cbn; try (split; [tauto|reflexivity]).
  - rewrite negb_false_iff. apply Qle_bool_iff.
  - split; [discriminate|easy].
Qed.
Lemma names_length l ns : names_of l = Ok ns -> List.length ns = List.length l.
Proof.
  unfold names_of. revert ns. induction l as [|x l IH]; intros ns H; cbn [mapM] in H; [now injection H as <-|].
  destruct (get_name x); cbn [bind] in H; [|discriminate]. destruct (mapM get_name l) as [m|]; cbn [bind] in H; [|discriminate]. injection H as <-.
  cbn [List.length]. now rewrite (IH m eq_refl).
Qed.

Lemma set_rx_iff E r names k v u : names_of (r_lhs r) = Ok names -> (1 <= List.length (r_lhs r) <= 3)%nat ->
  (exists r', set_reaction_attribute E r k v u = Ok r') <-> rx_accepts E names k v u.
Proof.
  intros NM L. pose proof (names_length _ _ NM) as LN.
  assert (EL : is_electron_process r = Ok (memS "e" names)) by (unfold is_electron_process; now rewrite NM).
  split.
  - intros (r' & H). pose proof H as H0.
    assert (V : rx_value k v).
    { apply rx_value_iff. unfold set_reaction_attribute in H. cbv zeta in H. step_binds H. unfold raise_if in *.
      destruct (memS k rx_attr_keys) eqn:MK; [|discriminate]. split; [reflexivity|].
      destruct (type_in v (rx_attr_types k)) eqn:TK; [|discriminate]. split; [reflexivity|]. intros ->.
      change (String.eqb "elastic" "elastic") with true in *. cbv iota in *. destruct (elastic_allowed v) as [[]|]; [reflexivity| |]; discriminate. }
    split; [exact V|]. split.
    + intros N. destruct (string_dec k "arrh_a") as [->|Da].
      { destruct (set_arrh_a E r v u r' H0 N L) as (w & f & -> & P & _). apply rxu_a. now rewrite LN. }
      destruct (string_dec k "arrh_c") as [->|Dc].
      { destruct (set_arrh_c E r v u r' H0 N) as (b & X & ->). rewrite EL in X. injection X as <-. destruct (memS "e" names) eqn:M.
        - apply rxu_ev. now apply memS_In.
        - apply rxu_k. intros I. apply memS_In in I. congruence. }
      destruct u as [w|]; [|split; assumption].
      assert (NV : is_none v = false) by (destruct (is_none v) eqn:X; [apply none_iff in X; contradiction|reflexivity]).
      unfold set_reaction_attribute in H. cbv zeta in H. rewrite NV in H. cbn [negb] in H.
      destruct (shas k rx_default_units) eqn:SH; [|discriminate]. cbn [negb] in H. destruct (memS w (rx_units_allowed k)) eqn:MU; [|discriminate].
      apply memS_In in SH. apply memS_In in MU. cbn in SH. destruct SH as [<-|[<-|[<-|[<-|[]]]]]; try contradiction.
      * destruct MU as [<-|[]]. apply rxu_loss.
      * destruct MU as [<-|[]]. apply rxu_heat.
    + intros N ->. destruct (set_arrh_a E r v u r' H0 N L) as (w & f & -> & P & F & NF). exists f.
      rewrite <- (as_float_num E _ _ V) by discriminate. split; [exact F|]. now apply not_negative_iff.
  - intros (V & U & P). pose proof V as V0. apply rx_value_iff in V. destruct V as (MK & TK & ELA).
    unfold set_reaction_attribute. cbv zeta. destruct (is_none v) eqn:NV.
    + (* no value *)
      cbn [negb andb]. rewrite !andb_false_r. cbn [raise_if bind]. 
      assert (X : (match u with Some _ => Ok tt | None => Ok tt end : res unit) = Ok tt) by (now destruct u). rewrite X. cbn [bind]. rewrite MK. cbn [negb raise_if bind].
      destruct (String.eqb_spec k "elastic") as [->|D].
      * rewrite (ELA eq_refl). cbn [bind negb raise_if]. rewrite TK. cbn [bind negb raise_if]. eexists. reflexivity.
      * cbn [bind]. rewrite TK. cbn [bind negb raise_if]. eexists. reflexivity.
    + assert (N : v <> VSc SNone) by (intros X; apply none_iff in X; congruence). specialize (U N). specialize (P N). cbn [negb andb]. rewrite MK, TK. cbn [negb raise_if]. rewrite !andb_true_r.
      assert (X1 : match u with Some u0 => if negb (shas k rx_default_units) then Err EReactionAttr else raise_if (negb (memS u0 (rx_units_allowed k))) EReactionAttr | None => Ok tt end = Ok tt).
      { destruct u as [w|]; [|reflexivity]. destruct U as [w Pw| | | |]; try reflexivity.
        destruct Pw as [[_ ->]|[[_ [->| ->]]|[_ [->| ->]]]]; reflexivity. }
      rewrite X1. cbn [bind].
      assert (X2 : raise_if (memS k ["arrh_a"; "arrh_c"] && match u with Some _ => false | None => true end) EReactionAttr = Ok tt).
      { destruct u as [w|]; [now rewrite andb_false_r|]. destruct U as [D1 D2]. rewrite andb_true_r. apply raise_iff. apply not_true_is_false. intros M. apply memS_In in M.
        destruct M as [M|[M|[]]]; congruence. }
      rewrite X2. cbn [bind]. rewrite EL. cbn [bind].
      assert (X3 : (if String.eqb k "arrh_c" then raise_if (negb match u with Some u0 => String.eqb u0 (if memS "e" names then "eV" else "K") | None => false end) EReactionAttr else Ok tt) = Ok tt).
      { destruct (String.eqb_spec k "arrh_c") as [->|D]; [|reflexivity]. destruct u as [w|]; [|destruct U as [_ U]; now destruct U].
        assert (UC : (In "e" names /\ w = "eV") \/ (~ In "e" names /\ w = "K")) by (inversion U; subst; auto).
        destruct UC as [[I ->]|[I ->]].
        - apply memS_In in I. rewrite I. reflexivity.
        - assert (M : memS "e" names = false) by (apply not_true_is_false; intros M; apply memS_In in M; contradiction). rewrite M. reflexivity. }
      rewrite X3. cbn [bind].
      match goal with |- exists r', bind ?a _ = Ok r' => assert (X4 : a = Ok tt) end.
      { destruct (String.eqb_spec k "arrh_a") as [->|D]; [|reflexivity]. destruct u as [w|]; [|destruct U as [U _]; now destruct U].
        assert (Pw : prefactor_unit (List.length names) w) by (inversion U; subst; assumption). rewrite LN in Pw. destruct (List.length (r_lhs r)) as [|[|[|[|n]]]]; try lia.
        - destruct Pw as [[_ ->]|[[X _]|[X _]]]; try discriminate. reflexivity.
        - destruct Pw as [[X _]|[[_ [->| ->]]|[X _]]]; try discriminate; reflexivity.
        - destruct Pw as [[X _]|[[X _]|[_ [->| ->]]]]; try discriminate; reflexivity. }
      rewrite X4. cbn [bind].
      match goal with |- exists r', bind ?a _ = Ok r' => assert (X5 : a = Ok tt) end.
      { destruct (String.eqb_spec k "elastic") as [->|D]; [|reflexivity]. now rewrite (ELA eq_refl). }
      rewrite X5. cbn [bind].
      match goal with |- exists r', bind ?a _ = Ok r' => assert (X6 : a = Ok tt) end.
      { destruct (String.eqb_spec k "arrh_a") as [->|D]; [|reflexivity]. destruct (P eq_refl) as (f & F & NF).
        rewrite (as_float_num E _ _ V0) by discriminate. rewrite F. cbn [bind]. apply raise_iff. now apply not_negative_iff. }
      rewrite X6. cbn [bind]. eexists. reflexivity.
Qed.

(** ** Histories *)

Definition rx_stored (r : reaction) (T : string -> pyval -> option string -> Prop) : Prop :=
  forall k, In k rx_attr_keys -> exists u, T k (xattr r k) u /\ sget k (r_units r) = Some u.

Lemma rx_stored_init E id lhs rhs attributes more units r acc : NoDup (akeys more) -> reaction_init E id lhs rhs attributes more units = Ok r ->
  rx_stored r (told acc (given_or_none attributes more) (unit_given units) []).
Proof.
  intros N H. pose proof (reaction_init_parts _ _ _ _ _ _ _ _ H) as (_ & _ & _ & _ & _ & _ & _ & _ & A). intros k I. destruct (A k I) as [-> U].
  exists (unit_given units k). split; [|exact U]. rewrite (given_supdate _ _ _ N). exact (told_start _ _ _ k).
Qed.
Lemma rx_stored_assigns E names start units calls : forall r0, names_of (r_lhs r0) = Ok names -> (1 <= List.length (r_lhs r0) <= 3)%nat ->
  rx_stored r0 (told (rx_accepts E names) start units []) ->
  r_lhs (assigns E r0 calls) = r_lhs r0 /\ rx_stored (assigns E r0 calls) (told (rx_accepts E names) start units calls).
Proof.
  induction calls as [|[[k v] u] calls IH] using rev_ind; intros r0 NM L S; [now split|].
  destruct (IH r0 NM L S) as [LH IS]. unfold assigns. rewrite fold_left_app. cbn [fold_left]. fold (assigns E r0 calls). unfold assign.
  assert (IFF := set_rx_iff E (assigns E r0 calls) names k v u). rewrite LH in IFF. specialize (IFF NM L).
  destruct (set_reaction_attribute E (assigns E r0 calls) k v u) as [r'|e] eqn:SE.
  - destruct (set_rx_shape _ _ _ _ _ _ SE) as (_ & LH' & _ & A & U & O). split; [congruence|]. intros k' I. destruct (string_dec k' k) as [->|D].
    + exists u. rewrite A. split; [|exact U]. apply told_now. apply IFF. now exists r'.
    + destruct (O k' D) as [-> ->]. destruct (IS k' I) as (u' & T & X). exists u'. split; [|exact X]. apply told_before; [exact T|]. left. congruence.
  - split; [exact LH|]. assert (NA : ~ rx_accepts E names k v u) by (intros X; apply IFF in X; destruct X; congruence).
    intros k' I. destruct (IS k' I) as (u' & T & X). exists u'. split; [|exact X]. apply told_before; [exact T|]. now right.
Qed.

Lemma init_names E id lhs rhs attributes more units r : reaction_init E id lhs rhs attributes more units = Ok r -> exists names, names_of lhs = Ok names.
Proof.
  intros H. pose proof (reaction_init_parts _ _ _ _ _ _ _ _ H) as (_ & _ & LH & _ & _ & _ & _ & C & _). subst lhs. clear H.
  unfold reaction_consistency in C. destruct (side_charge E (r_lhs r)) as [z|] eqn:S; [|discriminate]. clear C. revert z S. unfold names_of.
  induction (r_lhs r) as [|x l IH]; intros z S; [now exists []|]. cbn [side_charge] in S. cbn [mapM]. destruct (get_name x) as [n|]; [|discriminate]. cbn [bind] in *.
  destruct (String.eqb n "M").
  - destruct (IH _ S) as (ns & ->). now exists (n :: ns).
  - destruct (get_charge E x); [|discriminate]. cbn [bind] in S. destruct (side_charge E l) as [z'|]; [|discriminate]. destruct (IH _ eq_refl) as (ns & ->). now exists (n :: ns).
Qed.
Lemma init_accepted E id lhs rhs attributes more units r names : NoDup (akeys more) -> reaction_init E id lhs rhs attributes more units = Ok r -> names_of lhs = Ok names ->
  forall k, In k rx_attr_keys -> rx_accepts E names k (given_or_none attributes more k) (unit_given units k).
Proof.
  intros N H NM k I. pose proof (reaction_init_parts _ _ _ _ _ _ _ _ H) as (_ & _ & _ & _ & L & _).
  unfold reaction_init in H. cbv zeta in H. destruct (match id with VSc (SInt z) => _ | _ => _ end) as [z|]; [|discriminate]. cbn [bind] in H.
  do 6 (match type of H with bind ?a _ = Ok _ => destruct a as [[]|]; cbn [bind] in H; [|discriminate H] end).
  destruct (set_all_rattributes E rx_attr_keys _ units _) as [r1|] eqn:S; [|discriminate]. clear H.
  assert (G : forall ks a b, r_lhs a = lhs -> set_all_rattributes E ks (supdate attributes more) units a = Ok b -> In k ks -> rx_accepts E names k (given_or_none attributes more k) (unit_given units k)).
  { induction ks as [|k0 ks IH]; intros a b LA SA IK; [destruct IK|]. cbn [set_all_rattributes] in SA.
    destruct (set_reaction_attribute E a k0 _ _) as [a1|] eqn:SE; [|discriminate]. cbn [bind] in SA. destruct IK as [->|IK].
    - apply (set_rx_iff E a); [now rewrite LA|now rewrite LA|]. unfold unit_given, given_or_none. rewrite <- (given_supdate _ _ _ N). now exists a1.
    - refine (IH a1 b _ SA IK). destruct (set_rx_shape _ _ _ _ _ _ SE) as (_ & X & _). congruence. }
  refine (G _ _ _ _ S I). reflexivity.
Qed.

Lemma some_bind {A} (x : res A) : (let* f := x in Ok (Some f)) = some x.
Proof. now destruct x. Qed.

Lemma rx_reports_ok E r names T : names_of (r_lhs r) = Ok names -> rx_stored r T -> (forall k v u, In k rx_attr_keys -> T k v u -> rx_accepts E names k v u) ->
  exists val unit, (forall k, In k rx_attr_keys -> T k (val k) (unit k)) /\ rx_reports E r names val unit.
Proof.
  intros NM S A. exists (xattr r), (fun k => match sget k (r_units r) with Some u => u | None => None end).
  split; [intros k I; destruct (S k I) as (u & X & ->); exact X|].
  assert (K : forall k, memS k rx_attr_keys = true -> In k rx_attr_keys) by (intros k; apply memS_In).
  assert (AC : forall k, In k rx_attr_keys -> exists u, rx_accepts E names k (xattr r k) u /\ sget k (r_units r) = Some u).
  { intros k I. destruct (S k I) as (u & X & Y). exists u. split; [exact (A _ _ _ I X)|exact Y]. }
  assert (FE : forall k, In k rx_attr_keys -> k <> "elastic" -> py_float_v E (xattr r k) = as_float E (xattr r k)).
  { intros k I D. destruct (AC k I) as (u & (V & _) & _). exact (as_float_num E k _ V D). }
  assert (IE : forall k, In k rx_attr_keys -> k <> "elastic" -> py_int_v E (xattr r k) = as_int E (xattr r k)).
  { intros k I D. destruct (AC k I) as (u & (V & _) & _). exact (as_int_num E k _ V D). }
  assert (SI : xattr r "arrh_a" <> VSc SNone -> exists w q, sget "arrh_a" (r_units r) = Some (Some w) /\ si_value w q /\
    get_arrh_a E true r = in_si (as_float E (xattr r "arrh_a")) q /\ exists f, as_float E (xattr r "arrh_a") = Ok f).
  { intros N. destruct (AC "arrh_a" (K "arrh_a" eq_refl)) as (u & (V & U & P) & SU). specialize (U N). specialize (P N eq_refl). destruct P as (f & F & _).
    destruct u as [w|]; [|destruct U as [U _]; now destruct U]. assert (Pw : prefactor_unit (List.length names) w) by (inversion U; subst; assumption).
    assert (exists q, si_value w q /\ si_factor (Some w) = Ok q) as (q & SV & SF).
    { destruct Pw as [[_ ->]|[[_ [->| ->]]|[_ [->| ->]]]].
      - exists 1%Q. split; [left; split; [now left|reflexivity]|reflexivity].
      - exists (1 # 1000000)%Q. split; [right; left; now split|reflexivity].
      - exists 1%Q. split; [left; split; [right; now left|reflexivity]|reflexivity].
      - exists (1 # 1000000000000)%Q. split; [right; right; now split|reflexivity].
      - exists 1%Q. split; [left; split; [right; right; now left|reflexivity]|reflexivity]. }
    exists w, q. split; [exact SU|]. split; [exact SV|]. split; [|now exists f]. unfold get_arrh_a.
    destruct (is_none (xattr r "arrh_a")) eqn:NV; [apply none_iff in NV; contradiction|]. rewrite FE by (try discriminate; now apply K). rewrite F. cbn [bind].
    unfold rx_get_unit. rewrite SU. cbn [sget aget rx_default_units]. change (String.eqb "arrh_a" "arrh_a") with true. cbv iota. cbn [bind]. rewrite SF. reflexivity. }
  split.
  - unfold get_arrh_a. destruct (is_none (xattr r "arrh_a")) eqn:NV; [apply none_iff in NV; now rewrite NV|].
    rewrite FE by (try discriminate; now apply K). rewrite some_bind. destruct (xattr r "arrh_a") as [[]| |]; try discriminate; reflexivity.
  - intros N. destruct (SI N) as (w & q & U & SV & G & _). exists w, q. rewrite U. auto.
  - intros N. unfold get_arrh_a. now rewrite N.
  - intros k I. unfold get_arrh_bc. assert (IK : In k rx_attr_keys /\ k <> "elastic") by (destruct I as [<-|[<-|[]]]; (split; [now apply K|discriminate])). destruct IK as [IK D].
    destruct (is_none (xattr r k)) eqn:NV.
    + apply none_iff in NV. rewrite NV. destruct (is_none (xattr r "arrh_a")) eqn:NA.
      * apply none_iff in NA. unfold get_arrh_a. rewrite NA. reflexivity.
      * assert (N : xattr r "arrh_a" <> VSc SNone) by (intros X; apply none_iff in X; congruence). destruct (SI N) as (w & q & _ & _ & G & f & F). rewrite G, F. cbn [in_si bind].
        destruct (xattr r "arrh_a") as [[]| |]; try discriminate; reflexivity.
    + rewrite (FE k IK D), some_bind. destruct (xattr r k) as [[]| |]; try discriminate; reflexivity.
  - intros k I. unfold get_rx_float. assert (IK : In k rx_attr_keys /\ k <> "elastic") by (destruct I as [<-|[<-|[]]]; (split; [now apply K|discriminate])). destruct IK as [IK D].
    destruct (is_none (xattr r k)) eqn:NV; [apply none_iff in NV; now rewrite NV|]. rewrite (FE k IK D). destruct (xattr r k) as [[]| |]; try discriminate; reflexivity.
  - unfold get_special_number, is_electron_process. rewrite NM. cbn [bind]. destruct (is_none (xattr r "special_number")) eqn:NV.
    + apply none_iff in NV. rewrite NV. destruct (in_dec string_dec "e" names) as [I|I].
      * apply memS_In in I. now rewrite I.
      * assert (M : memS "e" names = false) by (apply not_true_is_false; intros M; apply memS_In in M; contradiction). now rewrite M.
    + rewrite IE by (try discriminate; now apply K). destruct (xattr r "special_number") as [[]| |]; try discriminate; reflexivity.
  - intros b. unfold get_elastic. destruct (AC "elastic" (K "elastic" eq_refl)) as (u & (V & _) & _). destruct (xattr r "elastic") as [[|b'|z|f|f|s]|d|].
    + rewrite NM. cbn [bind]. destruct (names_of (r_rhs r)) as [rs|] eqn:NR; [|discriminate]. cbn [bind]. intros H. injection H as <-. exists names, rs. split; [reflexivity|]. split; [reflexivity|].
      unfold set_eqb. rewrite andb_true_iff, !subsetS_iff. reflexivity.
    + intros H. now injection H as ->.
    + exfalso. apply rx_value_iff in V. destruct V as (_ & V & _). discriminate.
    + exfalso. apply rx_value_iff in V. destruct V as (_ & V & _). discriminate.
    + exfalso. apply rx_value_iff in V. destruct V as (_ & V & _). discriminate.
    + intros H. assert (HB : b = memS s ["true"; "True"; "TRUE"]) by congruence. rewrite HB. exact (memS_In s _).
    + exfalso. apply rx_value_iff in V. destruct V as (_ & V & _). discriminate.
    + exfalso. apply rx_value_iff in V. destruct V as (_ & V & _). discriminate.
  - intros k d I. assert (IK : In k rx_attr_keys) by (repeat (destruct I as [I|I]; [injection I as <- <-; now apply K|]); destruct I).
    unfold rx_get_unit. destruct (AC k IK) as (u & _ & ->). repeat (destruct I as [I|I]; [injection I as <- <-; cbn; now destruct u|]). destruct I.
  - intros k N. unfold rx_get_unit. destruct (sget k rx_default_units) as [w|] eqn:X; [|reflexivity]. exfalso. apply N.
    apply (aget_In _ Seqb_spec) in X. exact (in_map fst _ _ X).
Qed.

(** ** The constructor *)
Lemma sp_no_value k v : In k rx_attr_keys -> v = VSc SNone -> forall E names, rx_accepts E names k v None.
Proof. intros I -> E names. split; [now apply rxv_none|]. split; intros X; now destruct X. Qed.

Theorem rx_init_iff E id lhs rhs attributes more units names : good_formulas E -> NoDup (akeys more) -> names_of lhs = Ok names ->
  (exists r, reaction_init E id lhs rhs attributes more units = Ok r) <-> rx_arguments E names id lhs rhs attributes more units.
Proof.
  intros GF N NM. pose proof (fun k => given_supdate attributes more k N) as G. pose proof (fun k => supdate_keys attributes more k N) as K.
  assert (SH : forall k, shas k (supdate attributes more) = true <-> given attributes more k <> None).
  { intros k. rewrite <- K. exact (memS_In k (akeys (supdate attributes more))). }
  split.
  - intros (r & H). pose proof (reaction_init_parts _ _ _ _ _ _ _ _ H) as (I1 & I2 & LH & RH & L & R & _ & C & _).
    pose proof (init_accepted _ _ _ _ _ _ _ _ _ N H NM) as AC.
    apply (consistency_spec E r GF) in C. rewrite LH, RH in C.
    unfold reaction_init in H. cbv zeta in H. destruct (match id with VSc (SInt z) => _ | _ => _ end) as [z|]; [|discriminate]. cbn [bind] in H.
    do 2 (match type of H with bind ?a _ = Ok _ => destruct a as [[]|]; cbn [bind] in H; [|discriminate H] end).
    match type of H with bind ?a _ = _ => destruct a as [[]|] eqn:LW; cbn [bind] in H; [|discriminate] end.
    match type of H with bind ?a _ = _ => destruct a as [[]|] eqn:KS; cbn [bind] in H; [|discriminate] end.
    match type of H with bind ?a _ = _ => destruct a as [[]|] eqn:US; cbn [bind] in H; [|discriminate] end.
    match type of H with bind ?a _ = _ => destruct a as [[]|] eqn:MU; cbn [bind] in H; [|discriminate] end.
    apply raise_iff, negb_false_iff in KS, US, MU. apply raise_iff in LW. apply subsetS_iff in KS, US, MU. clear H. split.
    + exists (r_id r). split; [exact I1|exact I2].
    + split; [exact L|]. intros X. rewrite X in R. cbn in R. lia.
    + rewrite andb_false_iff, !negb_false_iff in LW. destruct LW as [LW|LW]; apply SH in LW; [now right|now left].
    + intros k v GV. assert (I : In k rx_attr_keys) by (apply KS; apply K; congruence). specialize (AC k I). unfold given_or_none in AC. now rewrite GV in AC.
    + intros k I. specialize (US k I). apply filter_In in US. destruct US as [U1 U2]. split; [exact U1|now apply SH].
    + intros k I X. apply MU. apply filter_In. split; [exact I|now apply SH].
    + exact C.
  - intros [(z & -> & Z0) (L & R) LW AV UN MU C]. unfold reaction_init. cbv zeta. destruct (Z.leb_spec z 0) as [Z1|_]; [lia|]. cbn [bind].
    assert (X1 : Nat.ltb (List.length lhs) 1 || Nat.ltb (List.length rhs) 1 = false).
    { apply orb_false_iff. split; apply Nat.ltb_ge; [lia|]. destruct rhs; [now destruct R|cbn; lia]. }
    rewrite X1. cbn [raise_if bind]. assert (X2 : Nat.ltb 3 (List.length lhs) = false) by (apply Nat.ltb_ge; lia). rewrite X2. cbn [raise_if bind].
    assert (X3 : negb (shas "special_number" (supdate attributes more)) && negb (shas "arrh_a" (supdate attributes more)) = false).
    { rewrite andb_false_iff, !negb_false_iff. destruct LW as [LW|LW]; apply SH in LW; [now right|now left]. }
    rewrite X3. cbn [raise_if bind].
    assert (AK : forall k, given attributes more k <> None -> In k rx_attr_keys).
    { intros k X. destruct (given attributes more k) as [v|] eqn:GV; [|contradiction]. destruct (AV k v GV) as [V _]. apply rx_value_iff in V. destruct V as [V _]. now apply memS_In. }
    assert (KS : subsetS (akeys (supdate attributes more)) rx_attr_keys = true) by (apply subsetS_iff; intros k I; apply AK; now apply K).
    rewrite KS. cbn [negb raise_if bind].
    match goal with |- context [raise_if (negb (subsetS (akeys units) ?l)) _] => assert (US : subsetS (akeys units) l = true) end.
    { apply subsetS_iff. intros k I. destruct (UN k I) as [U1 U2]. apply filter_In. split; [exact U1|now apply SH]. }
    rewrite US. cbn [negb raise_if bind].
    match goal with |- context [raise_if (negb (subsetS ?m ?l)) _] => assert (MS : subsetS m l = true) end.
    { apply subsetS_iff. intros k I. apply filter_In in I. destruct I as [I1 I2]. apply MU; [exact I1|now apply SH]. }
    rewrite MS. cbn [negb raise_if bind].
    assert (ALL : forall ks a, incl ks rx_attr_keys -> r_lhs a = lhs -> r_rhs a = rhs -> exists b, set_all_rattributes E ks (supdate attributes more) units a = Ok b /\ r_lhs b = lhs /\ r_rhs b = rhs).
    { induction ks as [|k ks IH]; intros a I LA RA; [exists a; auto|]. cbn [set_all_rattributes].
      assert (AC : rx_accepts E names k (match sget k (supdate attributes more) with Some v => v | None => VNone end) (match sget k units with Some u => u | None => None end)).
      { rewrite G. destruct (given attributes more k) as [v|] eqn:GV; [exact (AV k v GV)|].
        assert (UG : match sget k units with Some u => u | None => None end = None).
        { destruct (sget k units) as [u|] eqn:SU; [|reflexivity]. exfalso. apply (aget_In _ Seqb_spec) in SU. destruct (UN k (in_map fst _ _ SU)) as [_ X]. contradiction. }
        rewrite UG. apply sp_no_value; [apply I; now left|reflexivity]. }
      destruct (proj2 (set_rx_iff E a names k _ _ ltac:(now rewrite LA) ltac:(now rewrite LA)) AC) as (a1 & S1). rewrite S1. cbn [bind].
      destruct (set_rx_shape _ _ _ _ _ _ S1) as (_ & L1 & R1 & _). apply IH; [intros x X; apply I; now right|congruence|congruence]. }
    destruct (ALL rx_attr_keys {| r_id := z; r_lhs := lhs; r_rhs := rhs; r_attrs := []; r_units := [] |} (incl_refl _) eq_refl eq_refl) as (b & SB & LB & RB).
    rewrite SB. cbn [bind]. assert (CB : reaction_consistency E b = Ok tt) by (apply consistency_spec; [exact GF|]; now rewrite LB, RB). rewrite CB. cbn [bind]. now exists b.
Qed.
