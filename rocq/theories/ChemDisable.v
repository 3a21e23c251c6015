(** Proofs about [disable] (Chemistry.v). *)
From Verif Require Import Base BaseLemmas Species Reactions Chemistry ChemSpec.
From Coq Require Import ZifyBool.

(** ** Stoichiometric coefficients count occurrences *)

Lemma zadd_get n d k j :
  zget j (zadd n d k) = if (j =? k) then option_map (fun v => v + n) (zget j d) else zget j d.
Proof.
  unfold zadd. destruct (j =? k) eqn:E.
  - apply Z.eqb_eq in E. subst j. destruct (zget k d) as [v|] eqn:G; cbn.
    + apply aget_aset_same, Zeqb_spec.
    + exact G.
  - apply Z.eqb_neq in E. destruct (zget k d) as [v|]; [|reflexivity].
    apply aget_aset_other; [apply Zeqb_spec|exact E].
Qed.

Definition cnt (x : Z) (l : list Z) : Z := Z.of_nat (count_occ Z.eq_dec l x).

Lemma cnt_cons x y l : cnt x (y :: l) = (if x =? y then 1 else 0) + cnt x l.
Proof.
  unfold cnt. cbn. destruct (Z.eq_dec y x); destruct (Z.eqb_spec x y); try congruence; lia.
Qed.

Lemma cnt_app x l m : cnt x (l ++ m) = cnt x l + cnt x m.
Proof. unfold cnt. rewrite count_occ_app. lia. Qed.

Lemma cnt_nonneg x l : 0 <= cnt x l.
Proof. unfold cnt. lia. Qed.

Lemma cnt_pos x l : 0 < cnt x l <-> In x l.
Proof. unfold cnt. rewrite (count_occ_In Z.eq_dec). lia. Qed.

Lemma cnt_zero x l : cnt x l = 0 <-> ~ In x l.
Proof. rewrite <- cnt_pos. pose proof (cnt_nonneg x l). lia. Qed.

Lemma fold_zadd n l d j :
  zget j (fold_left (zadd n) l d) = option_map (fun v => v + n * cnt j l) (zget j d).
Proof.
  revert d. induction l as [|k l IH]; cbn [fold_left]; intros d.
  - change (cnt j []) with 0. destruct (zget j d) as [v|]; cbn [option_map]; [f_equal; lia|reflexivity].
  - rewrite IH, zadd_get, cnt_cons.
    destruct (j =? k); destruct (zget j d) as [v|]; cbn [option_map]; try reflexivity; f_equal; lia.
Qed.

Lemma zget_zeros l j :
  zget j (map (fun i => (i, 0)) l) = if memZ j l then Some 0 else None.
Proof.
  induction l as [|k l IH]; cbn; [reflexivity|].
  destruct (j =? k); cbn; [reflexivity|exact IH].
Qed.

Definition lhs_ids (r : rx) := map sp_id (rx_lhs r).
Definition rhs_ids (r : rx) := map sp_id (rx_rhs r).

Lemma memZ_odedup j l : memZ j (odedupZ l) = memZ j l.
Proof.
  destruct (memZ j l) eqn:E.
  - apply memZ_In, odedupZ_In, memZ_In, E.
  - apply memZ_false. rewrite odedupZ_In. now apply memZ_false.
Qed.

Lemma stoich_entry_lhs r i : stoich_entry Lhs r i = cnt i (lhs_ids r).
Proof.
  unfold stoich_entry, rx_stoich, stoich_coefs. fold (lhs_ids r).
  rewrite fold_zadd, zget_zeros, memZ_odedup.
  destruct (memZ i (lhs_ids r)) eqn:E; cbn [option_map].
  - lia.
  - apply memZ_false in E. apply cnt_zero in E. lia.
Qed.

Lemma stoich_entry_rhs r i : stoich_entry Rhs r i = cnt i (rhs_ids r).
Proof.
  unfold stoich_entry, rx_stoich, stoich_coefs. fold (rhs_ids r).
  rewrite fold_zadd, zget_zeros, memZ_odedup.
  destruct (memZ i (rhs_ids r)) eqn:E; cbn [option_map].
  - lia.
  - apply memZ_false in E. apply cnt_zero in E. lia.
Qed.

Lemma stoich_entry_net r i : stoich_entry Net r i = cnt i (rhs_ids r) - cnt i (lhs_ids r).
Proof.
  unfold stoich_entry, rx_stoich, stoich_coefs. fold (rhs_ids r). fold (lhs_ids r).
  rewrite fold_zadd, fold_zadd, zget_zeros, memZ_odedup.
  destruct (memZ i (lhs_ids r ++ rhs_ids r)) eqn:E; cbn [option_map].
  - lia.
  - apply memZ_false in E. rewrite in_app_iff in E.
    assert (~ In i (lhs_ids r)) as H1 by tauto. assert (~ In i (rhs_ids r)) as H2 by tauto.
    apply cnt_zero in H1, H2. lia.
Qed.

Lemma network_nonneg r i : 0 <= network r i.
Proof.
  unfold network. rewrite stoich_entry_lhs, stoich_entry_rhs.
  pose proof (cnt_nonneg i (lhs_ids r)). pose proof (cnt_nonneg i (rhs_ids r)). lia.
Qed.

Lemma network_pos c r s :
  wf c -> In r (c_reactions c) -> In s (c_species c) ->
  (0 < network r (sp_id s) <-> takes_part s r).
Proof.
  intros W Hr Hs. unfold network. rewrite stoich_entry_lhs, stoich_entry_rhs.
  pose proof (cnt_nonneg (sp_id s) (lhs_ids r)) as P1.
  pose proof (cnt_nonneg (sp_id s) (rhs_ids r)) as P2.
  split.
  - intros H. assert (0 < cnt (sp_id s) (lhs_ids r) \/ 0 < cnt (sp_id s) (rhs_ids r)) as [H'|H'] by lia;
      apply cnt_pos in H'; apply in_map_iff in H'; destruct H' as (s' & E & H').
    + left. replace s with s'; [exact H'|].
      apply (NoDup_map_inj sp_id (c_species c)); auto using (wf_ids c W).
      apply (wf_inst c W r); [exact Hr|now left].
    + right. replace s with s'; [exact H'|].
      apply (NoDup_map_inj sp_id (c_species c)); auto using (wf_ids c W).
      apply (wf_inst c W r); [exact Hr|now right].
  - intros [H|H]; apply (in_map sp_id) in H; apply cnt_pos in H;
      unfold lhs_ids, rhs_ids in *; lia.
Qed.

Lemma sumZ_nonneg l : (forall x, In x l -> 0 <= x) -> 0 <= sumZ l.
Proof.
  induction l as [|a l IH]; cbn; intros H; [lia|].
  assert (0 <= a) by (apply H; now left). assert (0 <= sumZ l) by (apply IH; intros; apply H; now right).
  unfold sumZ in *. lia.
Qed.

Lemma sumZ_pos l : (forall x, In x l -> 0 <= x) -> (0 < sumZ l <-> exists x, In x l /\ 0 < x).
Proof.
  induction l as [|a l IH]; cbn; intros H.
  - split; [lia|]. intros (x & [] & _).
  - assert (0 <= a) as Ha by (apply H; now left).
    assert (Hl : forall x, In x l -> 0 <= x) by (intros; apply H; now right).
    specialize (IH Hl). pose proof (sumZ_nonneg l Hl) as Hs. unfold sumZ in *. split.
    + intros Hp. assert (0 < a \/ 0 < fold_right Z.add 0 l) as [H'|H'] by lia.
      * exists a. auto.
      * apply IH in H'. destruct H' as (x & Hx & Px). exists x. auto.
    + intros (x & [->|Hx] & Px); [lia|].
      assert (0 < fold_right Z.add 0 l) by (apply IH; eauto). lia.
Qed.

(** ** The disconnected species and reactions *)

Lemma In_get_reactions c r : In r (get_reactions c false) <-> In r (c_reactions c) /\ c_enr c (rx_id r) = true.
Proof. unfold get_reactions. rewrite filter_In. cbn. tauto. Qed.

Lemma disconnected_species_spec c i :
  wf c ->
  In i (disconnected_species c) <->
  exists s, In s (c_species c) /\ sp_id s = i /\ c_en c i = true /\
            forall r, In r (c_reactions c) -> c_enr c (rx_id r) = true -> ~ takes_part s r.
Proof.
  intros W. unfold disconnected_species. rewrite filter_In, in_map_iff.
  split.
  - intros [(s & E & H) Hz]. apply filter_In in H. destruct H as [Hs He]. exists s. subst i.
    repeat split; auto. intros r Hr Hen Htp.
    apply Z.eqb_eq in Hz.
    assert (0 < sumZ (map (fun r => network r (sp_id s)) (get_reactions c false))); [|lia].
    apply sumZ_pos.
    + intros x Hx. apply in_map_iff in Hx. destruct Hx as (r' & <- & _). apply network_nonneg.
    + exists (network r (sp_id s)). split.
      * apply in_map_iff. exists r. split; [reflexivity|]. apply In_get_reactions. auto.
      * apply (network_pos c); auto.
  - intros (s & Hs & E & He & Hno). subst i. split.
    + exists s. split; [reflexivity|]. apply filter_In. auto.
    + apply Z.eqb_eq.
      assert (N : forall x, In x (map (fun r => network r (sp_id s)) (get_reactions c false)) -> 0 <= x).
      { intros x Hx. apply in_map_iff in Hx. destruct Hx as (r' & <- & _). apply network_nonneg. }
      destruct (Z.eq_dec (sumZ (map (fun r => network r (sp_id s)) (get_reactions c false))) 0) as [E|E]; [exact E|].
      exfalso. pose proof (sumZ_nonneg _ N) as Hn.
      assert (0 < sumZ (map (fun r => network r (sp_id s)) (get_reactions c false))) as Hp by lia.
      apply sumZ_pos in Hp; [|exact N]. destruct Hp as (x & Hx & Px).
      apply in_map_iff in Hx. destruct Hx as (r & <- & Hr). apply In_get_reactions in Hr. destruct Hr as [Hr Hen].
      apply (network_pos c r s W Hr Hs) in Px. exact (Hno r Hr Hen Px).
Qed.

Lemma disconnected_reactions_spec c i :
  wf c ->
  In i (disconnected_reactions c) <->
  exists r, In r (c_reactions c) /\ rx_id r = i /\ c_enr c i = true /\
            exists s, takes_part s r /\ c_en c (sp_id s) = false.
Proof.
  intros W. unfold disconnected_reactions. rewrite in_map_iff.
  assert (N : forall r x, In x (map (fun s => network r (sp_id s)) (get_disabled_species c)) -> 0 <= x).
  { intros r x Hx. apply in_map_iff in Hx. destruct Hx as (s & <- & _). apply network_nonneg. }
  split.
  - intros (r & E & H). apply filter_In in H. destruct H as [Hr Hp]. apply In_get_reactions in Hr.
    destruct Hr as [Hr Hen]. subst i. exists r. repeat split; auto.
    assert (0 < sumZ (map (fun s => network r (sp_id s)) (get_disabled_species c))) as Hp' by lia.
    apply sumZ_pos in Hp'; [|apply N]. destruct Hp' as (x & Hx & Px).
    apply in_map_iff in Hx. destruct Hx as (s & <- & Hs). unfold get_disabled_species in Hs.
    apply filter_In in Hs. destruct Hs as [Hs Hd]. exists s. split.
    + apply (network_pos c r s W Hr Hs), Px.
    + now apply negb_true_iff.
  - intros (r & Hr & E & Hen & s & Htp & Hd). subst i. exists r. split; [reflexivity|].
    apply filter_In. split; [apply In_get_reactions; auto|].
    assert (Hs : In s (c_species c)) by (apply (wf_inst c W r); auto).
    assert (0 < sumZ (map (fun s => network r (sp_id s)) (get_disabled_species c))); [|lia].
    apply sumZ_pos; [apply N|]. exists (network r (sp_id s)). split.
    + apply in_map_iff. exists s. split; [reflexivity|]. apply filter_In. split; [exact Hs|].
      now rewrite Hd.
    + apply (network_pos c r s W Hr Hs), Htp.
Qed.

(** If nothing is disconnected the enabled part is a closed sub-network. *)
Lemma not_disconnected_closed c :
  wf c -> disconnected_species c = [] -> disconnected_reactions c = [] -> closed c.
Proof.
  intros W Es Er. split; unfold on_sp, on_r.
  - intros r s Hr Hen Htp. destruct (c_en c (sp_id s)) eqn:E; [reflexivity|].
    assert (In (rx_id r) (disconnected_reactions c)) as H.
    { apply (disconnected_reactions_spec c _ W). exists r. repeat split; auto. exists s. auto. }
    rewrite Er in H. destruct H.
  - intros s Hs Hen.
    destruct (existsb (fun r => c_enr c (rx_id r) && (0 <? network r (sp_id s))) (c_reactions c)) eqn:X.
    + apply existsb_exists in X. destruct X as (r & Hr & X). apply andb_true_iff in X. destruct X as [X1 X2].
      exists r. repeat split; auto. apply (network_pos c r s W Hr Hs). lia.
    + exfalso. assert (In (sp_id s) (disconnected_species c)) as H.
      { apply (disconnected_species_spec c _ W). exists s. repeat split; auto.
        intros r Hr Hrn Htp. rewrite existsb_false in X. specialize (X r Hr).
        rewrite Hrn in X. cbn in X. apply (network_pos c r s W Hr Hs) in Htp. lia. }
      rewrite Es in H. destruct H.
Qed.

(** ** One round of the cascade *)

Definition off (c : chem) (spids rids : list Z) : chem :=
  with_enr (with_en c (mset (filter (c_en c) spids) false (c_en c)))
           (mset (filter (c_enr c) rids) false (c_enr c)).

(** The effect of L253-260 after a round that does not raise. *)
Definition ad_step (c1 c2 : chem) : Prop :=
  (requires_charge (c_kind c1) = false /\ c2 = c1) \/
  (requires_charge (c_kind c1) = true /\
   exists ion rest, filter positive (get_species c1 false false true) = ion :: rest /\
     c2 = match rest with
          | [] => with_adprot c1 (mset [sp_id ion] true (c_adprot c1))
          | _ => c1
          end).

Definition hit (c : chem) (spids : list Z) : bool :=
  existsb (fun s => memZ (sp_id s) spids) (get_protected_species c).

Inductive round (fuel : nat) (c : chem) (spids rids : list Z) : chem * res unit -> Prop :=
| RoundNothing :
    filter (c_en c) spids = [] -> filter (c_enr c) rids = [] ->
    round fuel c spids rids (c, Ok tt)
| RoundProtected :
    (filter (c_en c) spids <> [] \/ filter (c_enr c) rids <> []) ->
    hit c spids = true ->
    round fuel c spids rids (c, Err EChemDisable)
| RoundNoIon :
    (filter (c_en c) spids <> [] \/ filter (c_enr c) rids <> []) ->
    hit c spids = false ->
    requires_charge (c_kind c) = true ->
    filter positive (get_species (off c spids rids) false false true) = [] ->
    round fuel c spids rids (off c spids rids, Err EChemDisable)
| RoundDone c2 :
    (filter (c_en c) spids <> [] \/ filter (c_enr c) rids <> []) ->
    hit c spids = false -> ad_step (off c spids rids) c2 ->
    disconnected_species c2 = [] -> disconnected_reactions c2 = [] ->
    round fuel c spids rids (c2, Ok tt)
| RoundMore c2 :
    (filter (c_en c) spids <> [] \/ filter (c_enr c) rids <> []) ->
    hit c spids = false -> ad_step (off c spids rids) c2 ->
    (disconnected_species c2 <> [] \/ disconnected_reactions c2 <> []) ->
    round fuel c spids rids
      (disable_recursively fuel c2 (disconnected_species c2) (disconnected_reactions c2)).

Lemma dr_round fuel c spids rids :
  round fuel c spids rids (disable_recursively (S fuel) c spids rids).
Proof.
  cbn [disable_recursively].
  fold (off c spids rids).
  set (dsp := filter (c_en c) spids). set (drx := filter (c_enr c) rids).
  fold (hit c spids).
  assert (Cont : forall c2, (dsp <> [] \/ drx <> []) -> hit c spids = false -> ad_step (off c spids rids) c2 ->
    round fuel c spids rids
      (match disconnected_species c2 with
       | [] => match disconnected_reactions c2 with
               | [] => (c2, Ok tt)
               | _ :: _ => disable_recursively fuel c2 (disconnected_species c2) (disconnected_reactions c2)
               end
       | _ :: _ => disable_recursively fuel c2 (disconnected_species c2) (disconnected_reactions c2)
       end)).
  { intros c2 Hne Hh Had. destruct (disconnected_species c2) as [|d ds] eqn:Ed.
    - destruct (disconnected_reactions c2) as [|d' ds'] eqn:Ed'.
      + apply RoundDone; auto.
      + rewrite <- Ed, <- Ed'. apply RoundMore; auto. right. congruence.
    - rewrite <- Ed. apply RoundMore; auto. left. congruence. }
  assert (Main : (dsp <> [] \/ drx <> []) ->
    round fuel c spids rids
     (if hit c spids then (c, Err EChemDisable)
      else if requires_charge (c_kind (off c spids rids))
       then
        match filter positive (get_species (off c spids rids) false false true) with
        | [] => (off c spids rids, Err EChemDisable)
        | [ion] =>
          match disconnected_species (with_adprot (off c spids rids) (mset [sp_id ion] true (c_adprot (off c spids rids)))) with
          | [] =>
           match disconnected_reactions (with_adprot (off c spids rids) (mset [sp_id ion] true (c_adprot (off c spids rids)))) with
           | [] => (with_adprot (off c spids rids) (mset [sp_id ion] true (c_adprot (off c spids rids))), Ok tt)
           | _ :: _ => disable_recursively fuel (with_adprot (off c spids rids) (mset [sp_id ion] true (c_adprot (off c spids rids))))
               (disconnected_species (with_adprot (off c spids rids) (mset [sp_id ion] true (c_adprot (off c spids rids)))))
               (disconnected_reactions (with_adprot (off c spids rids) (mset [sp_id ion] true (c_adprot (off c spids rids)))))
           end
          | _ :: _ => disable_recursively fuel (with_adprot (off c spids rids) (mset [sp_id ion] true (c_adprot (off c spids rids))))
               (disconnected_species (with_adprot (off c spids rids) (mset [sp_id ion] true (c_adprot (off c spids rids)))))
               (disconnected_reactions (with_adprot (off c spids rids) (mset [sp_id ion] true (c_adprot (off c spids rids)))))
          end
        | ion :: _ :: _ =>
          match disconnected_species (off c spids rids) with
          | [] =>
           match disconnected_reactions (off c spids rids) with
           | [] => (off c spids rids, Ok tt)
           | _ :: _ => disable_recursively fuel (off c spids rids) (disconnected_species (off c spids rids)) (disconnected_reactions (off c spids rids))
           end
          | _ :: _ => disable_recursively fuel (off c spids rids) (disconnected_species (off c spids rids)) (disconnected_reactions (off c spids rids))
          end
        end
       else
          match disconnected_species (off c spids rids) with
          | [] =>
           match disconnected_reactions (off c spids rids) with
           | [] => (off c spids rids, Ok tt)
           | _ :: _ => disable_recursively fuel (off c spids rids) (disconnected_species (off c spids rids)) (disconnected_reactions (off c spids rids))
           end
          | _ :: _ => disable_recursively fuel (off c spids rids) (disconnected_species (off c spids rids)) (disconnected_reactions (off c spids rids))
          end)).
  { intros Hne. destruct (hit c spids) eqn:Hh; [apply RoundProtected; auto|].
    change (c_kind (off c spids rids)) with (c_kind c).
    destruct (requires_charge (c_kind c)) eqn:Hreq.
    - destruct (filter positive (get_species (off c spids rids) false false true)) as [|ion rest] eqn:Ef.
      + apply RoundNoIon; auto.
      + destruct rest as [|ion2 rest].
        * apply Cont; auto. right. split; [exact Hreq|]. exists ion, []. auto.
        * apply Cont; auto. right. split; [exact Hreq|]. exists ion, (ion2 :: rest). auto.
    - apply Cont; auto. left. auto. }
  destruct dsp as [|d dsp'] eqn:Ed.
  - destruct drx as [|d' drx'] eqn:Ed'.
    + apply RoundNothing; auto.
    + apply Main. right. congruence.
  - apply Main. left. congruence.
Qed.

(** ** Facts about a round *)

Lemma off_en c spids rids i :
  c_en (off c spids rids) i = c_en c i && negb (memZ i spids).
Proof.
  cbn. unfold mset. destruct (memZ i (filter (c_en c) spids)) eqn:E.
  - apply memZ_In, filter_In in E. destruct E as [E1 E2]. rewrite E2.
    apply memZ_In in E1. now rewrite E1.
  - apply memZ_false in E. rewrite filter_In in E. destruct (c_en c i) eqn:F; [|reflexivity].
    cbn. symmetry. apply negb_true_iff, memZ_false. tauto.
Qed.

Lemma off_enr c spids rids i :
  c_enr (off c spids rids) i = c_enr c i && negb (memZ i rids).
Proof.
  cbn. unfold mset. destruct (memZ i (filter (c_enr c) rids)) eqn:E.
  - apply memZ_In, filter_In in E. destruct E as [E1 E2]. rewrite E2.
    apply memZ_In in E1. now rewrite E1.
  - apply memZ_false in E. rewrite filter_In in E. destruct (c_enr c i) eqn:F; [|reflexivity].
    cbn. symmetry. apply negb_true_iff, memZ_false. tauto.
Qed.

Lemma same_data_refl c : same_data c c.
Proof. repeat split. Qed.
Lemma same_data_trans a b c : same_data a b -> same_data b c -> same_data a c.
Proof.
  unfold same_data. intros (A1&A2&A3&A4&A5&A6&A7) (B1&B2&B3&B4&B5&B6&B7).
  repeat split; congruence.
Qed.
Lemma same_data_sym a b : same_data a b -> same_data b a.
Proof. unfold same_data. intros (A1&A2&A3&A4&A5&A6&A7). repeat split; congruence. Qed.

Lemma wf_same c c' : same_data c c' -> wf c -> wf c'.
Proof.
  intros (_ & Hs & Hr & _) [W1 W2 W3 W4 W5]. split; rewrite ?Hs, ?Hr; auto.
Qed.

Lemma ad_step_facts c1 c2 :
  ad_step c1 c2 ->
  same_data c1 c2 /\ c_en c2 = c_en c1 /\ c_enr c2 = c_enr c1 /\ c_prot c2 = c_prot c1 /\
  (forall i, c_adprot c1 i = true -> c_adprot c2 i = true) /\
  (forall i, c_adprot c2 i = true -> c_adprot c1 i = true \/
     requires_charge (c_kind c1) = true /\
     exists ion, filter positive (get_species c1 false false true) = [ion] /\ sp_id ion = i).
Proof.
  intros [[_ ->]|[Hreq (ion & rest & Hf & ->)]].
  - split; [apply same_data_refl|]. repeat split; auto.
  - destruct rest.
    + split; [repeat split|]. repeat split; cbn; auto.
      * intros i H. unfold mset. now destruct (memZ i [sp_id ion]).
      * intros i. unfold mset. destruct (memZ i [sp_id ion]) eqn:E; intros H; [|auto].
        apply memZ_In in E. destruct E as [E|[]]. right. split; [exact Hreq|]. exists ion. auto.
    + split; [apply same_data_refl|]. repeat split; auto.
Qed.

Lemma positive_pos_ion s : sp_special s = false -> positive s = true -> pos_ion s.
Proof.
  unfold positive, sp_special, special_names. intros Hs Hp. split.
  - intros H. apply memS_In in H. congruence.
  - destruct (sp_charge s) as [z|]; [|discriminate]. exists z. split; [reflexivity|]. lia.
Qed.

Lemma pos_ion_positive s : pos_ion s -> sp_special s = false /\ positive s = true.
Proof.
  intros [H1 (z & Hz & Hp)]. split.
  - apply memS_false. exact H1.
  - unfold positive. rewrite Hz. lia.
Qed.

Lemma In_get_species c s :
  In s (get_species c false false true) <->
  In s (c_species c) /\ c_en c (sp_id s) = true /\ sp_special s = false.
Proof.
  unfold get_species, sp_mask. rewrite filter_In.
  destruct (c_en c (sp_id s)), (sp_special s); cbn [orb andb negb]; intuition congruence.
Qed.

Lemma In_get_species_special c s :
  In s (get_species c false true true) <-> In s (c_species c) /\ c_en c (sp_id s) = true.
Proof.
  unfold get_species, sp_mask. rewrite filter_In.
  destruct (c_en c (sp_id s)); cbn [orb andb negb]; intuition congruence.
Qed.

Lemma In_positive c s :
  In s (filter positive (get_species c false false true)) <->
  In s (c_species c) /\ c_en c (sp_id s) = true /\ pos_ion s.
Proof.
  rewrite filter_In, In_get_species. split.
  - intros [(H1 & H2 & H3) H4]. auto using positive_pos_ion.
  - intros (H1 & H2 & H3). apply pos_ion_positive in H3. tauto.
Qed.

(** Whatever the outcome, the cascade never enables anything and never
    touches data or user protections. *)
Lemma dr_frame fuel : forall c spids rids c' o,
  disable_recursively fuel c spids rids = (c', o) ->
  same_data c c' /\ c_prot c' = c_prot c /\
  (forall i, c_en c' i = true -> c_en c i = true) /\
  (forall i, c_enr c' i = true -> c_enr c i = true) /\
  (forall i, c_adprot c i = true -> c_adprot c' i = true).
Proof.
  induction fuel as [|fuel IH]; intros c spids rids c' o H.
  - cbn in H. inversion H; subst. split; [apply same_data_refl|]. auto.
  - pose proof (dr_round fuel c spids rids) as R. rewrite H in R. clear H.
    inversion R as [| | |c2 Hne Hh Had Hs Hr EQ|c2 Hne Hh Had Hm EQ]; subst.
    + split; [apply same_data_refl|]. auto.
    + split; [apply same_data_refl|]. auto.
    + split; [repeat split|]. repeat split; auto; intros i; rewrite ?off_en, ?off_enr, andb_true_iff; tauto.
    + apply ad_step_facts in Had. destruct Had as (Hd & He & Her & Hp & Ha & _).
      split; [eapply same_data_trans; [|exact Hd]; repeat split|].
      split; [exact Hp|]. rewrite He, Her.
      repeat split; auto; intros i; rewrite ?off_en, ?off_enr, ?andb_true_iff; tauto.
    + apply ad_step_facts in Had. destruct Had as (Hd & He & Her & Hp & Ha & _).
      apply IH in EQ. destruct EQ as (Hd' & Hp' & He' & Her' & Ha').
      split; [eapply same_data_trans; [|exact Hd']; eapply same_data_trans; [|exact Hd]; repeat split|].
      split; [now rewrite Hp', Hp|].
      split; [|split].
      * intros i Hi. apply He' in Hi. rewrite He, off_en, andb_true_iff in Hi. tauto.
      * intros i Hi. apply Her' in Hi. rewrite Her, off_enr, andb_true_iff in Hi. tauto.
      * intros i Hi. apply Ha', Ha. exact Hi.
Qed.

(** Protected species that are enabled stay enabled, whatever the outcome. *)
Lemma dr_protected fuel : forall c spids rids c' o s,
  disable_recursively fuel c spids rids = (c', o) ->
  In s (c_species c) -> protected c s -> c_en c (sp_id s) = true -> c_en c' (sp_id s) = true.
Proof.
  induction fuel as [|fuel IH]; intros c spids rids c' o s H Hs Hp He.
  - cbn in H. inversion H; subst. auto.
  - assert (Off : hit c spids = false -> c_en (off c spids rids) (sp_id s) = true).
    { intros Hh. rewrite off_en, He. cbn. apply negb_true_iff.
      unfold hit in Hh. rewrite existsb_false in Hh. apply Hh.
      apply filter_In. split; [exact Hs|]. apply orb_true_iff. destruct Hp; auto. }
    pose proof (dr_round fuel c spids rids) as R. rewrite H in R. clear H.
    inversion R as [| | |c2 Hne Hh Had Hs' Hr EQ|c2 Hne Hh Had Hm EQ]; subst; auto.
    + apply ad_step_facts in Had. destruct Had as (Hd & Hen & _). rewrite Hen. auto.
    + apply ad_step_facts in Had. destruct Had as (Hd & Hen & Her & Hp2 & Ha & _).
      eapply IH in EQ; eauto.
      * destruct Hd as (_ & Hd & _). now rewrite Hd.
      * destruct Hp as [Hp|Hp]; [left; now rewrite Hp2|right; apply Ha; exact Hp].
      * rewrite Hen. auto.
Qed.

(** Success: the requested items are off, and either nothing happened or the
    enabled part is closed. *)
Lemma dr_ok fuel : forall c spids rids c',
  wf c -> disable_recursively fuel c spids rids = (c', Ok tt) ->
  (forall i, In i spids -> c_en c' i = false) /\
  (forall i, In i rids -> c_enr c' i = false) /\
  (c' = c \/ closed c').
Proof.
  induction fuel as [|fuel IH]; intros c spids rids c' W H.
  - cbn in H. inversion H.
  - pose proof (dr_round fuel c spids rids) as R. rewrite H in R. clear H.
    inversion R as [Hn1 Hn2| | |c2 Hne Hh Had Hs' Hr EQ|c2 Hne Hh Had Hm EQ]; subst.
    + split; [|split].
      * intros i Hi. destruct (c_en c' i) eqn:E; [|reflexivity].
        assert (In i (filter (c_en c') spids)) as X by (apply filter_In; auto). rewrite Hn1 in X. destruct X.
      * intros i Hi. destruct (c_enr c' i) eqn:E; [|reflexivity].
        assert (In i (filter (c_enr c') rids)) as X by (apply filter_In; auto). rewrite Hn2 in X. destruct X.
      * auto.
    + pose proof (ad_step_facts _ _ Had) as (Hd & Hen & Her & _).
      assert (W' : wf c') by (eapply wf_same; [exact Hd|]; eapply wf_same; [|exact W]; repeat split).
      split; [|split].
      * intros i Hi. rewrite Hen, off_en. apply memZ_In in Hi. rewrite Hi. apply andb_false_r.
      * intros i Hi. rewrite Her, off_enr. apply memZ_In in Hi. rewrite Hi. apply andb_false_r.
      * right. now apply not_disconnected_closed.
    + pose proof (ad_step_facts _ _ Had) as (Hd & Hen & Her & _).
      assert (W2 : wf c2) by (eapply wf_same; [exact Hd|]; eapply wf_same; [|exact W]; repeat split).
      pose proof (dr_frame _ _ _ _ _ _ EQ) as (Hd' & _ & He' & Her' & _).
      apply IH in EQ; [|exact W2]. destruct EQ as (I1 & I2 & I3).
      split; [|split].
      * intros i Hi. destruct (c_en c' i) eqn:E; [|reflexivity]. apply He' in E.
        rewrite Hen, off_en in E. apply memZ_In in Hi. rewrite Hi, andb_false_r in E. discriminate.
      * intros i Hi. destruct (c_enr c' i) eqn:E; [|reflexivity]. apply Her' in E.
        rewrite Her, off_enr in E. apply memZ_In in Hi. rewrite Hi, andb_false_r in E. discriminate.
      * right. destruct I3 as [->|Hc]; [|exact Hc]. exfalso.
        destruct Hm as [Hm|Hm].
        -- destruct (disconnected_species c2) as [|i l] eqn:E; [congruence|].
           assert (In i (disconnected_species c2)) as Hi by (rewrite E; now left).
           specialize (I1 i (or_introl eq_refl)).
           apply (disconnected_species_spec c2 i W2) in Hi. destruct Hi as (s & _ & _ & Hi & _). congruence.
        -- destruct (disconnected_reactions c2) as [|i l] eqn:E; [congruence|].
           assert (In i (disconnected_reactions c2)) as Hi by (rewrite E; now left).
           specialize (I2 i (or_introl eq_refl)).
           apply (disconnected_reactions_spec c2 i W2) in Hi. destruct Hi as (s & _ & _ & Hi & _). congruence.
Qed.

(** A competing sub-network that avoids the request survives every round. *)
Lemma subnet_avoids c2 (S R : Z -> Prop) :
  wf c2 -> subnetwork c2 S R ->
  (forall s, In s (c_species c2) -> S (sp_id s) -> c_en c2 (sp_id s) = true) ->
  (forall r, In r (c_reactions c2) -> R (rx_id r) -> c_enr c2 (rx_id r) = true) ->
  (forall s, In s (c_species c2) -> S (sp_id s) -> ~ In (sp_id s) (disconnected_species c2)) /\
  (forall r, In r (c_reactions c2) -> R (rx_id r) -> ~ In (rx_id r) (disconnected_reactions c2)).
Proof.
  intros W [C1 C2] HS HR. split.
  - intros s Hs HSs Hd. apply (disconnected_species_spec c2 _ W) in Hd.
    destruct Hd as (s' & Hs' & E & He & Hno).
    assert (s' = s) by (apply (NoDup_map_inj sp_id (c_species c2)); auto using (wf_ids c2 W)). subst s'.
    destruct (C2 s Hs HSs) as (r & Hr & HRr & Htp). apply (Hno r Hr); auto.
  - intros r Hr HRr Hd. apply (disconnected_reactions_spec c2 _ W) in Hd.
    destruct Hd as (r' & Hr' & E & He & s & Htp & Hoff).
    assert (r' = r) by (apply (NoDup_map_inj rx_id (c_reactions c2)); auto using (wf_rids c2 W)). subst r'.
    specialize (C1 r s Hr HRr Htp). apply HS in C1; [congruence|].
    apply (wf_inst c2 W r); auto.
Qed.

Lemma subnetwork_same c c' S R : same_data c c' -> subnetwork c S R -> subnetwork c' S R.
Proof.
  intros (_ & Hs & Hr & _) [C1 C2]. split; rewrite ?Hs, ?Hr; auto.
Qed.

Lemma dr_maximal fuel : forall c spids rids c' o (S R : Z -> Prop),
  wf c -> disable_recursively fuel c spids rids = (c', o) ->
  subnetwork c S R ->
  (forall s, In s (c_species c) -> S (sp_id s) -> c_en c (sp_id s) = true /\ ~ In (sp_id s) spids) ->
  (forall r, In r (c_reactions c) -> R (rx_id r) -> c_enr c (rx_id r) = true /\ ~ In (rx_id r) rids) ->
  (forall s, In s (c_species c) -> S (sp_id s) -> c_en c' (sp_id s) = true) /\
  (forall r, In r (c_reactions c) -> R (rx_id r) -> c_enr c' (rx_id r) = true).
Proof.
  induction fuel as [|fuel IH]; intros c spids rids c' o S R W H Hsub HS HR.
  - cbn in H. inversion H; subst. split; intros; [apply HS|apply HR]; auto.
  - assert (OS : forall s, In s (c_species c) -> S (sp_id s) -> c_en (off c spids rids) (sp_id s) = true).
    { intros s Hs HSs. rewrite off_en. destruct (HS s Hs HSs) as [-> Hn]. cbn.
      now apply negb_true_iff, memZ_false. }
    assert (OR : forall r, In r (c_reactions c) -> R (rx_id r) -> c_enr (off c spids rids) (rx_id r) = true).
    { intros r Hr HRr. rewrite off_enr. destruct (HR r Hr HRr) as [-> Hn]. cbn.
      now apply negb_true_iff, memZ_false. }
    pose proof (dr_round fuel c spids rids) as Rd. rewrite H in Rd. clear H.
    inversion Rd as [| | |c2 Hne Hh Had Hs' Hr EQ|c2 Hne Hh Had Hm EQ]; subst.
    + split; intros; [apply HS|apply HR]; auto.
    + split; intros; [apply HS|apply HR]; auto.
    + split; auto.
    + pose proof (ad_step_facts _ _ Had) as (Hd & Hen & Her & _). rewrite Hen, Her. auto.
    + pose proof (ad_step_facts _ _ Had) as (Hd & Hen & Her & _).
      assert (Hd2 : same_data c c2) by (eapply same_data_trans; [|exact Hd]; repeat split).
      assert (W2 : wf c2) by (eapply wf_same; eauto).
      destruct Hd2 as (Hk2 & Hs2 & Hr2 & Hx2).
      assert (Hsub2 : subnetwork c2 S R) by (eapply subnetwork_same; [|exact Hsub]; repeat split; tauto).
      destruct (subnet_avoids c2 S R W2 Hsub2) as [A1 A2].
      * intros s Hs HSs. rewrite Hen. apply OS; auto. now rewrite <- Hs2.
      * intros r Hr HRr. rewrite Her. apply OR; auto. now rewrite <- Hr2.
      * eapply (IH c2 _ _ c' o S R W2) in EQ; auto.
        -- rewrite Hs2, Hr2 in EQ. exact EQ.
        -- intros s Hs HSs. split; [rewrite Hen; apply OS; auto; now rewrite <- Hs2|auto].
        -- intros r Hr HRr. split; [rewrite Her; apply OR; auto; now rewrite <- Hr2|auto].
Qed.

(** A sub-network that avoids the request, contains every enabled protected
    species and (when charge is required) a positive ion rules out an error. *)
Lemma dr_succeeds fuel : forall c spids rids c' e (S R : Z -> Prop),
  wf c -> disable_recursively fuel c spids rids = (c', Err e) ->
  subnetwork c S R ->
  (forall s, In s (c_species c) -> S (sp_id s) -> c_en c (sp_id s) = true /\ ~ In (sp_id s) spids) ->
  (forall r, In r (c_reactions c) -> R (rx_id r) -> c_enr c (rx_id r) = true /\ ~ In (rx_id r) rids) ->
  (forall s, In s (c_species c) -> protected c s -> ~ In (sp_id s) spids) ->
  (forall s, In s (c_species c) -> protected c s -> c_en c (sp_id s) = true -> S (sp_id s)) ->
  (requires_charge (c_kind c) = true -> exists s, In s (c_species c) /\ S (sp_id s) /\ pos_ion s) ->
  e = EFuel.
Proof.
  induction fuel as [|fuel IH]; intros c spids rids c' e S R W H Hsub HS HR HP1 HP2 HI.
  - cbn in H. now inversion H.
  - assert (OS : forall s, In s (c_species c) -> S (sp_id s) -> c_en (off c spids rids) (sp_id s) = true).
    { intros s Hs HSs. rewrite off_en. destruct (HS s Hs HSs) as [-> Hn]. cbn.
      now apply negb_true_iff, memZ_false. }
    assert (OR : forall r, In r (c_reactions c) -> R (rx_id r) -> c_enr (off c spids rids) (rx_id r) = true).
    { intros r Hr HRr. rewrite off_enr. destruct (HR r Hr HRr) as [-> Hn]. cbn.
      now apply negb_true_iff, memZ_false. }
    pose proof (dr_round fuel c spids rids) as Rd. rewrite H in Rd. clear H.
    inversion Rd as [|Hne Hh|Hne Hh Hreq Hf|c2 Hne Hh Had Hs' Hr EQ|c2 Hne Hh Had Hm EQ]; subst.
    + exfalso. unfold hit in Hh. apply existsb_exists in Hh. destruct Hh as (s & Hs & Hin).
      apply filter_In in Hs. destruct Hs as [Hs Hp]. apply memZ_In in Hin.
      apply (HP1 s Hs); auto. unfold protected. now apply orb_true_iff.
    + exfalso. destruct (HI Hreq) as (s & Hs & HSs & Hpos).
      assert (In s (filter positive (get_species (off c spids rids) false false true))) as X.
      { apply In_positive. repeat split; auto; apply Hpos. }
      rewrite Hf in X. destruct X.
    + pose proof (ad_step_facts _ _ Had) as (Hd & Hen & Her & Hp2 & Ha & Ha').
      assert (Hd2 : same_data c c2) by (eapply same_data_trans; [|exact Hd]; repeat split).
      assert (W2 : wf c2) by (eapply wf_same; eauto).
      destruct Hd2 as (Hk2 & Hs2 & Hr2 & Hx2).
      assert (Hsub2 : subnetwork c2 S R) by (eapply subnetwork_same; [|exact Hsub]; repeat split; tauto).
      assert (OS2 : forall s, In s (c_species c2) -> S (sp_id s) -> c_en c2 (sp_id s) = true).
      { intros s Hs HSs. rewrite Hen. apply OS; auto. now rewrite <- Hs2. }
      assert (OR2 : forall r, In r (c_reactions c2) -> R (rx_id r) -> c_enr c2 (rx_id r) = true).
      { intros r Hr HRr. rewrite Her. apply OR; auto. now rewrite <- Hr2. }
      assert (P2 : forall s, In s (c_species c2) -> protected c2 s -> c_en c2 (sp_id s) = true -> S (sp_id s)).
      { intros s Hs Hp He. rewrite Hen, off_en, andb_true_iff in He. destruct He as [He _].
        rewrite Hs2 in Hs. destruct Hp as [Hp|Hp].
        - apply HP2; auto. left. now rewrite Hp2 in Hp.
        - apply Ha' in Hp. destruct Hp as [Hp|(Hreq & ion & Hf & Hid)].
          + apply HP2; auto. now right.
          + destruct (HI Hreq) as (s' & Hs'' & HSs' & Hpos).
            assert (In s' (filter positive (get_species (off c spids rids) false false true))) as X.
            { apply In_positive. repeat split; auto; apply Hpos. }
            rewrite Hf in X. destruct X as [X|[]]. subst s'. congruence. }
      destruct (subnet_avoids c2 S R W2 Hsub2 OS2 OR2) as [A1 A2].
      eapply (IH c2 _ _ c' e S R W2); eauto.
      * intros s Hs Hp Hd'. apply (A1 s Hs); auto. apply P2; auto.
        apply (disconnected_species_spec c2 _ W2) in Hd'. destruct Hd' as (_ & _ & _ & He & _). exact He.
      * rewrite Hk2, Hs2. exact HI.
Qed.

(** Fuel. *)
Definition n_on (c : chem) : nat :=
  List.length (filter (fun s => c_en c (sp_id s)) (c_species c)) +
  List.length (filter (fun r => c_enr c (rx_id r)) (c_reactions c)).

Lemma filter_len_le {A} (p q : A -> bool) l :
  (forall x, In x l -> p x = true -> q x = true) ->
  (List.length (filter p l) <= List.length (filter q l))%nat.
Proof.
  induction l as [|a l IH]; cbn; intros H; [lia|].
  assert (Hl : (List.length (filter p l) <= List.length (filter q l))%nat) by (apply IH; intros; apply H; auto).
  destruct (p a) eqn:E.
  - rewrite (H a (or_introl eq_refl) E). cbn. lia.
  - destruct (q a); cbn; lia.
Qed.

Lemma filter_len_lt {A} (p q : A -> bool) l x :
  (forall x, In x l -> p x = true -> q x = true) ->
  In x l -> p x = false -> q x = true ->
  (List.length (filter p l) < List.length (filter q l))%nat.
Proof.
  induction l as [|a l IH]; cbn; intros H Hin Hp Hq; [tauto|].
  assert (Hl : forall x, In x l -> p x = true -> q x = true) by (intros; apply H; auto).
  pose proof (filter_len_le p q l Hl) as Hle.
  destruct Hin as [->|Hin].
  - rewrite Hp, Hq. cbn. lia.
  - specialize (IH Hl Hin Hp Hq). destruct (p a) eqn:E.
    + rewrite (H a (or_introl eq_refl) E). cbn. lia.
    + destruct (q a); cbn; lia.
Qed.

Lemma off_fewer c spids rids :
  incl spids (sp_ids c) -> incl rids (r_ids c) ->
  (filter (c_en c) spids <> [] \/ filter (c_enr c) rids <> []) ->
  (n_on (off c spids rids) < n_on c)%nat.
Proof.
  intros Hs Hr Hne. unfold n_on. change (c_species (off c spids rids)) with (c_species c).
  change (c_reactions (off c spids rids)) with (c_reactions c).
  assert (M1 : forall x, In x (c_species c) -> c_en (off c spids rids) (sp_id x) = true -> c_en c (sp_id x) = true).
  { intros x _. rewrite off_en, andb_true_iff. tauto. }
  assert (M2 : forall x, In x (c_reactions c) -> c_enr (off c spids rids) (rx_id x) = true -> c_enr c (rx_id x) = true).
  { intros x _. rewrite off_enr, andb_true_iff. tauto. }
  pose proof (filter_len_le _ _ _ M1) as L1. pose proof (filter_len_le _ _ _ M2) as L2.
  destruct Hne as [Hne|Hne].
  - destruct (filter (c_en c) spids) as [|i l] eqn:E; [congruence|].
    assert (In i (filter (c_en c) spids)) as Hi by (rewrite E; now left).
    apply filter_In in Hi. destruct Hi as [Hi He]. pose proof (Hs i Hi) as Hi'.
    apply in_map_iff in Hi'. destruct Hi' as (s & Eid & Hs'). subst i.
    assert (L := filter_len_lt _ _ _ s M1 Hs').
    cbv beta in L. rewrite off_en in L. apply memZ_In in Hi. rewrite Hi, He in L. specialize (L eq_refl eq_refl). lia.
  - destruct (filter (c_enr c) rids) as [|i l] eqn:E; [congruence|].
    assert (In i (filter (c_enr c) rids)) as Hi by (rewrite E; now left).
    apply filter_In in Hi. destruct Hi as [Hi He]. pose proof (Hr i Hi) as Hi'.
    apply in_map_iff in Hi'. destruct Hi' as (s & Eid & Hs'). subst i.
    assert (L := filter_len_lt _ _ _ s M2 Hs').
    cbv beta in L. rewrite off_enr in L. apply memZ_In in Hi. rewrite Hi, He in L. specialize (L eq_refl eq_refl). lia.
Qed.

Lemma dr_errors fuel : forall c spids rids c' e,
  (n_on c < fuel)%nat -> incl spids (sp_ids c) -> incl rids (r_ids c) ->
  disable_recursively fuel c spids rids = (c', Err e) -> e = EChemDisable.
Proof.
  induction fuel as [|fuel IH]; intros c spids rids c' e Hf Hs Hr H; [lia|].
  pose proof (dr_round fuel c spids rids) as Rd. rewrite H in Rd. clear H.
  inversion Rd as [|Hne Hh|Hne Hh Hreq Hfi|c2 Hne Hh Had Hs' Hr' EQ|c2 Hne Hh Had Hm EQ]; subst; auto.
  pose proof (ad_step_facts _ _ Had) as (Hd & Hen & Her & _).
  pose proof (off_fewer c spids rids Hs Hr Hne) as L.
  assert (n_on c2 = n_on (off c spids rids)) as N2.
  { unfold n_on. destruct Hd as (_ & -> & -> & _). now rewrite Hen, Her. }
  apply IH in EQ; auto.
  - lia.
  - intros i Hi. unfold disconnected_species in Hi. apply filter_In in Hi. destruct Hi as [Hi _].
    apply in_map_iff in Hi. destruct Hi as (s & <- & Hi). apply filter_In in Hi.
    apply in_map. tauto.
  - intros i Hi. unfold disconnected_reactions in Hi. apply in_map_iff in Hi.
    destruct Hi as (r & <- & Hi). apply filter_In in Hi. destruct Hi as [Hi _].
    apply In_get_reactions in Hi. apply in_map. tauto.
Qed.

Lemma filter_length_le {A} (p : A -> bool) l : (List.length (filter p l) <= List.length l)%nat.
Proof. induction l as [|a l IH]; cbn; [lia|]. destruct (p a); cbn; lia. Qed.

Lemma n_on_fuel c : (n_on c < disable_fuel c)%nat.
Proof.
  unfold n_on, disable_fuel.
  pose proof (filter_length_le (fun s => c_en c (sp_id s)) (c_species c)).
  pose proof (filter_length_le (fun r => c_enr c (rx_id r)) (c_reactions c)). lia.
Qed.
