(** Colours and values of the cells of the attribute tables. *)
From Verif Require Import Base BaseLemmas Species Reactions Chemistry Latex AttrTable AttrSpec.

Lemma feqb_same a b : feqb a b = true <-> same_number a b.
Proof.
  split.
  - destruct a, b; cbn; try discriminate; intros H; constructor. now apply Qeq_bool_iff.
  - intros H. inversion H; subst; cbn; try reflexivity. now apply Qeq_bool_iff.
Qed.

Lemma feqb_not_same a b : feqb a b = false -> ~ same_number a b.
Proof. intros H G. apply feqb_same in G. congruence. Qed.

Lemma is_nan_spec f : is_nan f = true <-> f = NaN.
Proof. destruct f; cbn; split; congruence. Qed.

Lemma saved_fun E v f g : saved_number E v f -> saved_number E v g -> f = g.
Proof. intros H G. inversion H; subst; inversion G; subst; congruence. Qed.
Lemma returned_fun E c f g : returned_number E c f -> returned_number E c g -> f = g.
Proof. intros H G. inversion H; subst; inversion G; subst; congruence. Qed.

Lemma py_float_saved E x f : py_float E x = Ok f <-> saved_number E (VSc x) f.
Proof.
  split.
  - destruct x as [|b|z|g|g|s]; cbn; intros H; try discriminate; try (injection H as <-; constructor).
    destruct (fparse E s) eqn:Es; [injection H as <-; now constructor|discriminate].
  - intros H. inversion H; subst; cbn; try reflexivity. match goal with K : fparse _ _ = _ |- _ => now rewrite K end.
Qed.

Lemma py_float_err E x e : py_float E x = Err e ->
  (x = SNone /\ e = EType) \/ (exists s, x = SStr s /\ fparse E s = None /\ e = EValue).
Proof.
  destruct x as [|b|z|g|g|s]; cbn; intros H; try discriminate; [injection H as <-; now left|].
  destruct (fparse E s) eqn:Es; [discriminate|]. injection H as <-. right. eauto.
Qed.

Lemma cfloat_returned E c f : cfloat E c = Ok f <-> returned_number E c f.
Proof.
  split.
  - destruct c as [|g|b|s|d]; cbn; intros H; try discriminate; try (injection H as <-; constructor).
    destruct (fparse E s) eqn:Es; [injection H as <-; now constructor|discriminate].
  - intros H. inversion H; subst; cbn; try reflexivity. match goal with K : fparse _ _ = _ |- _ => now rewrite K end.
Qed.

Lemma cfloat_err E c e : cfloat E c = Err e ->
  ((forall f, ~ returned_number E c f) /\ e = EType) \/ (exists s, c = CText s /\ fparse E s = None /\ e = EValue).
Proof.
  destruct c as [|g|b|s|d]; cbn; intros H; try discriminate.
  - injection H as <-. left. split; [|reflexivity]. intros f F. inversion F.
  - destruct (fparse E s) eqn:Es; [discriminate|]. injection H as <-. right. eauto.
  - injection H as <-. left. split; [|reflexivity]. intros f F. inversion F.
Qed.

(** Outcome of the comparisons of numbers. *)
Lemma floats_spec E x c :
  (try_type (floats_equal E (VSc x) c) = Ok true /\ exists f g, saved_number E (VSc x) f /\ returned_number E c g /\ same_number f g) \/
  (try_type (floats_equal E (VSc x) c) = Ok false /\
   forall f g, saved_number E (VSc x) f -> returned_number E c g -> ~ same_number f g) \/
  (try_type (floats_equal E (VSc x) c) = Err EValue /\ unreadable E (VSc x) c /\
   forall f g, saved_number E (VSc x) f -> returned_number E c g -> ~ same_number f g).
Proof.
  unfold floats_equal. cbn [py_float_v]. destruct (py_float E x) as [f|e] eqn:Ex; cbn [bind].
  - apply py_float_saved in Ex. destruct (cfloat E c) as [g|e] eqn:Ec; cbn [bind].
    + apply cfloat_returned in Ec. destruct (feqb f g) eqn:Ef; cbn [try_type].
      * left. split; [reflexivity|]. exists f, g. repeat split; auto. now apply feqb_same.
      * right; left. split; [reflexivity|]. intros f' g' Hf Hg. rewrite (saved_fun _ _ _ _ Hf Ex), (returned_fun _ _ _ _ Hg Ec).
        now apply feqb_not_same.
    + destruct (cfloat_err _ _ _ Ec) as [[N ->]|(s & -> & Es & ->)]; cbn [try_type].
      * right; left. split; [reflexivity|]. intros f' g' _ Hg. now apply N in Hg.
      * right; right. split; [reflexivity|]. split; [now apply (ur_returned E _ f)|].
        intros f' g' _ Hg. inversion Hg; subst. congruence.
  - destruct (py_float_err _ _ _ Ex) as [[-> ->]|(s & -> & Es & ->)]; cbn [try_type].
    + right; left. split; [reflexivity|]. intros f' g' Hf. inversion Hf.
    + right; right. split; [reflexivity|]. split; [now constructor|]. intros f' g' Hf. inversion Hf; subst. congruence.
Qed.

Lemma coef_eq_spec E (d : list (string * scalar)) m :
  coef_eq d m = true ->
  List.length d = List.length m /\
  forall k x, In (k, x) d -> exists f g, sget k m = Some g /\ saved_number E (VSc x) f /\ same_number f g.
Proof.
  intros H. unfold coef_eq in H. apply andb_prop in H. destruct H as [L F]. apply Nat.eqb_eq in L.
  split; [exact L|]. intros k x Hin. rewrite forallb_forall in F. specialize (F _ Hin). cbn [fst snd] in F.
  destruct (sget k m) as [g|]; [|discriminate].
  destruct (vnum (VSc x)) as [f|] eqn:Ex; [|discriminate]. exists f, g. split; [reflexivity|].
  split; [|now apply feqb_same]. destruct x; cbn in Ex; try discriminate; injection Ex as <-; constructor.
Qed.

Lemma floats_of_dict E (d : list (string * scalar)) l :
  mapM (fun kv => let* f := py_float E (snd kv) in Ok (fst kv, f)) d = Ok l ->
  Forall2 (fun kv kf => fst kv = fst kf /\ saved_number E (VSc (snd kv)) (snd kf)) d l.
Proof.
  intros H. apply mapM_Ok_inv in H. induction H as [|[k x] y d l H _ IH]; constructor; auto.
  cbn [fst snd] in H. destruct (py_float E x) as [f|] eqn:Ex; cbn [bind] in H; [|discriminate].
  injection H as <-. cbn. split; [reflexivity|]. now apply py_float_saved.
Qed.

Lemma coef_eq_floats E (d : list (string * scalar)) l m :
  Forall2 (fun kv kf => fst kv = fst kf /\ saved_number E (VSc (snd kv)) (snd kf)) d l ->
  coef_eq (map (fun kv => (fst kv, SFlt (snd kv))) l) m = true <->
  (List.length d = List.length m /\
   forall k x, In (k, x) d -> exists f g, sget k m = Some g /\ saved_number E (VSc x) f /\ same_number f g).
Proof.
  intros F. assert (L : List.length d = List.length l) by (induction F; cbn; auto).
  unfold coef_eq. rewrite andb_true_iff, Nat.eqb_eq, map_length, <- L, forallb_forall.
  split; intros [Hl H]; (split; [exact Hl|]).
  - clear L Hl. induction F as [|[k x] [k' f] d l [H1 H2] _ IH]; [easy|]. cbn in H1, H2. subst k'.
    intros k' x' [Hin|Hin].
    + injection Hin as <- <-. specialize (H (k, SFlt f) (or_introl eq_refl)). cbn in H.
      destruct (sget k m) as [g|]; [|discriminate]. exists f, g. repeat split; auto. now apply feqb_same.
    + apply IH; [|exact Hin]. intros y Hy. apply H. now right.
  - clear L Hl. induction F as [|[k x] [k' f] d l [H1 H2] _ IH]; [easy|]. cbn in H1, H2. subst k'.
    intros y [<-|Hin].
    + cbn. destruct (H k x (or_introl eq_refl)) as (f' & g & Eg & Hf & Hs). rewrite Eg.
      rewrite (saved_fun _ _ _ _ H2 Hf). now apply feqb_same.
    + apply IH; [|exact Hin]. intros k' x' Hx. apply (H k' x'). now right.
Qed.

Lemma py_eq_scalar E x c : py_eq (VSc x) c = true -> says_same E (VSc x) c.
Proof.
  unfold py_eq. destruct (vnum (VSc x)) as [a|] eqn:Ea.
  - destruct (cellnum c) as [b|] eqn:Eb.
    + intros H. apply (ss_number E _ _ a b).
      * destruct x; cbn in Ea; try discriminate; injection Ea as <-; constructor.
      * destruct c; cbn in Eb; try discriminate; injection Eb as <-; constructor.
      * now apply feqb_same.
    + destruct x, c; cbn in *; try discriminate.
  - destruct x, c; cbn in *; try discriminate; intros H; try constructor.
    apply String.eqb_eq in H. subst. constructor.
Qed.

Lemma equal_sp_spec E a v c :
  match v with VDict _ => a = "ret_coefs" | VOther => False | _ => True end ->
  (equal_sp E a v c = Ok true /\ says_same E v c) \/
  (equal_sp E a v c = Ok false /\ ~ says_same E v c) \/
  (equal_sp E a v c = Err EValue /\ ~ says_same E v c /\ unreadable E v c).
Proof.
  intros T. unfold equal_sp. destruct (py_eq v c) eqn:Ep.
  - left. split; [reflexivity|]. destruct v as [x|d|]; [now apply py_eq_scalar| |contradiction].
    unfold py_eq in Ep. cbn [vnum] in Ep. destruct c; try discriminate.
    destruct (coef_eq_spec E d d0 Ep). now constructor.
  - destruct v as [x|d|]; [| |contradiction].
    + set (e1 := try_type (if is_none (VSc x) then np_isnan c else Ok false)).
      assert (H1 : (e1 = Ok true /\ says_same E (VSc x) c) \/ (e1 = Ok false /\ ~ (x = SNone /\ c = CNum NaN))).
      { subst e1. destruct x; cbn [is_none]; try (right; split; [reflexivity|intros [? _]; discriminate]).
        unfold np_isnan. destruct c as [|f|b|s|d]; cbn [cellnum try_type]; try (right; split; [reflexivity|intros [_ ?]; discriminate]).
        destruct (is_nan f) eqn:En; [apply is_nan_spec in En; subst; left; split; [reflexivity|constructor]|].
        right. split; [reflexivity|]. intros [_ K]. injection K as ->. discriminate. }
      destruct H1 as [[-> H1]|[-> H1]]; cbn [bind]; [now left|].
      assert (N : says_same E (VSc x) c -> exists f g, saved_number E (VSc x) f /\ returned_number E c g /\ same_number f g).
      { intros K. inversion K; subst.
        - discriminate Ep.
        - exfalso. now apply H1.
        - exfalso. cbn in Ep. rewrite String.eqb_refl in Ep. discriminate.
        - eauto. }
      destruct (floats_spec E x c) as [(-> & f & g & Hf & Hg & Hs)|[(-> & K)|(-> & U & K)]]; cbn [bind].
      * left. split; [reflexivity|]. now apply (ss_number E _ _ f g).
      * right; left. split.
        -- destruct (String.eqb a "ret_coefs"); reflexivity.
        -- intros S. destruct (N S) as (f & g & Hf & Hg & Hs). now apply (K f g).
      * right; right. split; [reflexivity|]. split; [|exact U].
        intros S. destruct (N S) as (f & g & Hf & Hg & Hs). now apply (K f g).
    + subst a. cbn [is_none try_type bind]. unfold floats_equal. cbn [py_float_v bind try_type].
      cbn [String.eqb Ascii.eqb Bool.eqb].
      destruct (mapM _ d) as [l|e] eqn:Em; cbn [bind].
      * apply floats_of_dict in Em.
        destruct c as [|f|b|s|m]; cbn [try_type];
          try (right; left; split; [reflexivity|]; intros S; inversion S; subst;
               match goal with K : saved_number _ (VDict _) _ |- _ => inversion K end).
        destruct (coef_eq _ m) eqn:Ec.
        -- left. split; [reflexivity|]. apply (coef_eq_floats E d l m Em) in Ec. destruct Ec. now constructor.
        -- right; left. split; [reflexivity|]. intros S. inversion S; subst.
           ++ match goal with K : saved_number _ (VDict _) _ |- _ => inversion K end.
           ++ assert (coef_eq (map (fun kv => (fst kv, SFlt (snd kv))) l) m = true); [|congruence].
              apply (coef_eq_floats E d l m Em). auto.
      * apply mapM_Err_In in Em. destruct Em as ([k x] & Hin & Hx). cbn [fst snd] in Hx.
        destruct (py_float E x) as [f|e'] eqn:Ex; cbn [bind] in Hx; [discriminate|]. injection Hx as ->.
        assert (NS : ~ says_same E (VDict d) c).
        { intros S. inversion S; subst.
          - match goal with K : saved_number _ (VDict _) _ |- _ => inversion K end.
          - match goal with K : forall k x, In (k, x) d -> _ |- _ => destruct (K _ _ Hin) as (f & g & _ & Hf & _) end.
            apply py_float_saved in Hf. congruence. }
        destruct (py_float_err _ _ _ Ex) as [[-> ->]|(s & -> & Es & ->)]; cbn [try_type].
        -- right; left. now split.
        -- right; right. split; [reflexivity|]. split; [exact NS|]. now apply (ur_coef E d c k s).
Qed.

Lemma spelled v : (exists s b, v = VSc (SStr s) /\ spells v b) \/ (forall b, ~ spells v b).
Proof.
  destruct v as [[|b|z|f|f|s]|d|]; try (right; intros b' H; inversion H; fail).
  destruct (in_dec string_dec s ["true"; "True"; "TRUE"]) as [i|n]; [left; exists s, true; split; [reflexivity|now constructor]|].
  destruct (in_dec string_dec s ["false"; "False"; "FALSE"]) as [i|n']; [left; exists s, false; split; [reflexivity|now constructor]|].
  right. intros b' H. inversion H; subst; contradiction.
Qed.

Lemma equal_rx_spec E boxed v c :
  match v with VDict _ | VOther => False | _ => True end ->
  (equal_rx E boxed v c = Ok true /\ says_same_rx E boxed v c) \/
  (equal_rx E boxed v c = Ok false /\ ~ says_same_rx E boxed v c) \/
  (equal_rx E boxed v c = Err EValue /\ ~ says_same_rx E boxed v c /\ unreadable E v c).
Proof.
  intros T. destruct v as [x|d|]; try contradiction. clear T.
  destruct (spelled (VSc x)) as [(s & b & Ev & Hb)|NB].
  - injection Ev as ->. unfold equal_rx.
    assert (NB : forall b', spells (VSc (SStr s)) b' -> b' = b).
    { intros b' Hb'. inversion Hb as [s1 A|s1 A]; subst; inversion Hb' as [s2 B|s2 B]; subst; try reflexivity; exfalso;
        cbn in A, B; intuition (subst; discriminate). }
    destruct (py_eq (VSc (SStr s)) c) eqn:Ep.
    + left. split; [reflexivity|]. unfold py_eq in Ep. cbn [vnum] in Ep.
      destruct c; try discriminate. apply String.eqb_eq in Ep. subst. apply sr_text.
    + cbn [is_none try_type bind].
      assert (HD : (if memS s ["True"; "true"; "TRUE"] then Ok (match c with CBool b => boxed && b | _ => false end)
                    else if memS s ["False"; "false"; "FALSE"] then Ok (match c with CBool b => boxed && negb b | _ => false end)
                    else try_type (floats_equal E (VSc (SStr s)) c))
                   = Ok (match c with CBool b' => boxed && Bool.eqb b b' | _ => false end)).
      { inversion Hb; subst; cbn in H0; repeat (destruct H0 as [<-|H0]; [destruct c as [| |[]| |]; reflexivity|]); contradiction. }
      rewrite HD. clear HD. destruct c as [|f|b'|t|m];
        try (right; left; split; [reflexivity|]; intros S; inversion S; subst;
             [match goal with K : forall b, ~ spells _ b |- _ => now apply (K b) end]).
      * destruct (boxed && Bool.eqb b b') eqn:Eb.
        -- left. split; [reflexivity|]. apply andb_prop in Eb. destruct Eb as [-> Eb]. apply eqb_prop in Eb. subst b'.
           now apply sr_truth.
        -- right; left. split; [reflexivity|]. intros S. inversion S; subst.
           ++ match goal with K : forall b, ~ spells _ b |- _ => now apply (K b) end.
           ++ match goal with K : spells (VSc (SStr s)) b' |- _ => apply NB in K; subst b' end.
              rewrite eqb_reflx in Eb. discriminate.
      * right; left. split; [reflexivity|]. intros S. inversion S; subst.
        -- match goal with K : forall b, ~ spells _ b |- _ => now apply (K b) end.
        -- cbn in Ep. rewrite String.eqb_refl in Ep. discriminate.
  - assert (EQ : equal_rx E boxed (VSc x) c = equal_sp E "" (VSc x) c).
    { unfold equal_rx, equal_sp. cbn [String.eqb].
      assert (R : forall e : res bool, e = (let* e' := e in if e' then Ok true else Ok false)).
      { intros [[]|]; reflexivity. }
      destruct (py_eq (VSc x) c); [reflexivity|].
      destruct (try_type (if is_none (VSc x) then np_isnan c else Ok false)) as [[]|]; cbn [bind]; try reflexivity.
      destruct x as [|b|z|f|f|s]; try apply R.
      destruct (memS s ["True"; "true"; "TRUE"]) eqn:E1.
      { exfalso. apply (NB true). constructor. apply memS_In in E1. cbn in *. tauto. }
      destruct (memS s ["False"; "false"; "FALSE"]) eqn:E2.
      { exfalso. apply (NB false). constructor. apply memS_In in E2. cbn in *. tauto. }
      apply R. }
    rewrite EQ. destruct (equal_sp_spec E "" (VSc x) c I) as [[-> H]|[[-> H]|(-> & H & U)]].
    + left. split; [reflexivity|]. now constructor.
    + right; left. split; [reflexivity|]. intros S. inversion S; subst; [contradiction| |].
      * apply H. constructor.
      * match goal with K : spells _ _ |- _ => now apply NB in K end.
    + right; right. split; [reflexivity|]. split; [|exact U]. intros S. inversion S; subst; [contradiction| |].
      * apply H. constructor.
      * match goal with K : spells _ _ |- _ => now apply NB in K end.
Qed.

Lemma subst_shows v : shows v (subst_blank v).
Proof.
  unfold shows, subst_blank. destruct v as [|f|b|s|d]; cbn.
  - left. split; [now left|reflexivity].
  - destruct (is_nan f) eqn:En.
    + apply is_nan_spec in En. subst. left. split; [now right|reflexivity].
    + right. repeat split; try discriminate. intros K. injection K as ->. discriminate.
  - right. repeat split; discriminate.
  - right. repeat split; discriminate.
  - right. repeat split; discriminate.
Qed.
