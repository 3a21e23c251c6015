(** The ion temperature above one millitorr (pygmo_fwork/pygmol/model.py
    L244-261, equations.py L344-362). *)
From Coq Require Import Reals Qreals Lra Lia.
From Verif Require Import Base BaseLemmas Chemistry Morris MorrisStats InitialGuess Tables ExtReal Equations Neutral Solution EqSpec EqPure EqReal EqExamples
  Diagnose DiagnoseSpec DiagnoseProofs DiagnoseMore IonSpec.
Open Scope R_scope.

Lemma div_real a b : b <> 0 -> xdiv (X a) (X b) = X (a / b).
Proof. intros H. unfold xdiv. destruct (Req_EM_T b 0); [contradiction|reflexivity]. Qed.

Section Ion.
  Variable power_at : static -> ext -> ext.

  Lemma ion_works K model v p e calls ids b (sol : list entry) :
    eq_init K model v p = Ok e -> bk_eq b = after calls e -> bk_primary b = Some (map at_ sol) -> sol <> [] ->
    (forall z, In z sol -> 133322 / 1000000 < pressure_of K p z) ->
    (2 <= List.length (v_names v))%nat -> List.length (v_a v) <> 1%nat ->
    diagnose power_at (v_names v) ids "ion_temperature" None false b =
      (b, Ok (map (fun z => [(LText "t"%string, fst (fst z)); (LText "value"%string, X (ion_of K p z))]) sol)).
  Proof.
    intros H B S NE HP L1 L2. unfold diagnose. rewrite S. cbn [option_map].
    assert (SE : st (bk_eq b) = st e) by (rewrite B; exact (proj2 (history_free K model v p e calls (CDensity []) H))).
    assert (PK : s_const (st e) = K /\ temp_g (st e) = p_temp p).
    { clear - H. revert H. unfold eq_init. intros H.
      repeat match type of H with bind ?r _ = _ => destruct r; cbn [bind] in H; [|discriminate H] end.
      injection H as <-. split; reflexivity. }
    destruct PK as [PK PT].
    assert (EV : forall l : list entry, (forall z, In z l -> 133322 / 1000000 < pressure_of K p z) ->
              evaluations power_at "ion_temperature" (map snd (map at_ l)) (bk_eq b) = (bk_eq b, Ok (map (fun z => DNum (X (ion_of K p z))) l))).
    { induction l as [|z l IH]; intros HL; [reflexivity|]. cbn [map evaluations]. unfold bindM at 1.
      change (evaluate power_at "ion_temperature" (snd (at_ z)) (bk_eq b)) with (bk_eq b, Ok (ion_value (st (bk_eq b)) (snd (at_ z)))).
      assert (PR : get_total_pressure (st (bk_eq b)) (snd (at_ z)) None = X (pressure_of K p z)).
      { unfold at_. cbn [snd]. rewrite real_pressure, SE, PK, PT. reflexivity. }
      specialize (HL z (or_introl eq_refl)) as HZ.
      assert (LT : xltb (X mtorr) (X (pressure_of K p z)) = true).
      { unfold xltb, mtorr. destruct (Rlt_dec _ _); [reflexivity|contradiction]. }
      assert (IV : ion_value (st (bk_eq b)) (snd (at_ z)) = DNum (X (ion_of K p z))).
      { unfold ion_value, get_ion_temperature. cbn [opt]. rewrite PR, LT. rewrite SE, PK, PT. unfold mtorr.
        rewrite div_real by lra. rewrite div_real; [reflexivity|].
        apply Rgt_not_eq. apply Rdiv_lt_0_compat; lra. }
      rewrite IV. unfold bindM. rewrite IH by (intros y Hy; apply HL; now right). reflexivity. }
    rewrite (EV sol HP). cbn [bind].
    assert (MC : forall l : list entry, mapM cells (map (fun z => DNum (X (ion_of K p z))) l) = Ok (map (fun z => [X (ion_of K p z)]) l)).
    { induction l as [|z l IH]; [reflexivity|]. cbn [map mapM cells bind]. rewrite IH. reflexivity. }
    rewrite MC. cbn [bind].
    assert (WD : match map (fun z => [X (ion_of K p z)]) sol with [] => O | l :: _ => List.length l end = 1%nat) by (destruct sol; [contradiction|reflexivity]).
    rewrite WD. destruct (init_sizes K model v p e H) as (_ & Sn & Sr).
    assert (LB : dlabels (st (bk_eq b)) (v_names v) ids 1 = [LText "value"%string]).
    { unfold dlabels. rewrite SE. fold (ns (st e)) (nr (st e)). rewrite Sn, Sr.
      rewrite (proj2 (Nat.eqb_neq _ _)) by lia. rewrite (proj2 (Nat.eqb_neq _ _)) by lia. rewrite (proj2 (Nat.eqb_neq _ _)) by lia. reflexivity. }
    rewrite LB. cbn [List.length]. rewrite !map_length, !Nat.eqb_refl. cbn [negb raise_if bind].
    rewrite (same_backend b _ S). f_equal.
    assert (FR : forall t x, finish_row false t [(LText "value"%string, x)] = Ok [(LText "t"%string, t); (LText "value"%string, x)]).
    { intros t x. rewrite (finish_spec false); [reflexivity| | |]; cbn.
      - constructor; [intros []|constructor].
      - intuition discriminate.
      - intuition discriminate. }
    set (f := fun tr : ext * list ext => finish_row false (fst tr) (combine [LText "value"%string] (snd tr))).
    assert (FF : forall z, f (fst (at_ z), [X (ion_of K p z)]) = Ok [(LText "t"%string, fst (fst z)); (LText "value"%string, X (ion_of K p z))])
      by (intros z; exact (FR _ _)).
    clearbody f. clear - FF. induction sol as [|z l IH]; [reflexivity|].
    cbn [map combine mapM]. rewrite FF. cbn [bind]. rewrite IH. reflexivity.
  Qed.
End Ion.

(** Argon again, at two times: 10^20 particles per cubic metre. *)
Definition sol_high : list entry := [(X 0, [10 ^ 20; 10 ^ 16], 3); (X 1, [2 * 10 ^ 20; 10 ^ 17], 4)].
Lemma high : sol_high <> [] /\ (forall z, In z sol_high -> 133322 / 1000000 < pressure_of K1 par1 z) /\
  (2 <= List.length (v_names view3))%nat /\ List.length (v_a view3) <> 1%nat.
Proof.
  split; [discriminate|]. split; [|split; [cbn; lia|cbn; lia]].
  intros z [<-|[<-|[]]]; unfold pressure_of, K1, par1, params1; cbn [c_k p_temp fst snd fold_right]; lra.
Qed.
