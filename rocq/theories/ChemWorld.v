(** * Several chemistries in one heap: copies share nothing that matters *)
From Verif Require Import Base BaseLemmas Species Reactions Chemistry ChemSpec ChemDisable ChemInv ChemHist ChemLoad.
From Verif Require Import ChemHeap.
(** ** Programs with any number of chemistries *)

(** plaschem/chemistry.py L29-92: every Series is new. *)
Definition hnew (h : heap) (c : chem) : heap * obj :=
  let n := next h in
  (new_ret [] (new_ser (c_arrh c) (new_ser (c_stick c) (new_mask (c_enr c) (new_mask (c_adprot c)
     (new_mask (c_prot c) (new_mask (c_en c) h)))))),
   MkObj (c_kind c) (c_species c) (c_reactions c) (c_xml c)
     n (S n) (S (S n)) (S (S (S n))) (S (S (S (S n)))) (S (S (S (S (S (S n)))))) (S (S (S (S (S n)))))).

(** One statement of a user program; chemistries are numbered in order of
    creation. *)
Inductive wop : Type :=
| WNew (k : kind) (species : list sp) (reactions : list rx) (xml : option string)
| WCopy (i : nat)
| WDo (i : nat) (p : hop).

Fixpoint replace {A} (i : nat) (x : A) (l : list A) {struct l} : list A :=
  match l, i with
  | [], _ => []
  | _ :: l', O => x :: l'
  | y :: l', S i' => y :: replace i' x l'
  end.

Definition wstep (E : env) (w : heap * list obj) (q : wop) : heap * list obj :=
  let '(h, os) := w in
  match q with
  | WNew k species reactions xml =>
      match init k species reactions xml with
      | Ok c => let '(h', o) := hnew h c in (h', os ++ [o])
      | Err _ => w
      end
  | WCopy i =>
      match nth_error os i with
      | Some o => match hcopy h o with Ok (h', o') => (h', os ++ [o']) | Err _ => w end
      | None => w
      end
  | WDo i p =>
      match nth_error os i with
      | Some o => let '(h', o') := hstep E h o p in (h', replace i o' os)
      | None => w
      end
  end.

(** The same program over independent values: a statement changes the value
    it addresses and no other. *)
Definition vstep (E : env) (cs : list chem) (q : wop) : list chem :=
  match q with
  | WNew k species reactions xml =>
      match init k species reactions xml with Ok c => cs ++ [c] | Err _ => cs end
  | WCopy i =>
      match nth_error cs i with
      | Some c => match copy c with Ok c' => cs ++ [c'] | Err _ => cs end
      | None => cs
      end
  | WDo i p =>
      match nth_error cs i with
      | Some c => replace i (cstep E c p) cs
      | None => cs
      end
  end.

Definition heap0 : heap := MkHeap 0 (fun _ _ => false) (fun _ => []) (fun _ => []) (fun _ => []).

Definition wrun E (l : list wop) : heap * list obj := fold_left (wstep E) l (heap0, []).
Definition vrun E (l : list wop) : list chem := fold_left (vstep E) l [].

Definition valid_op (q : wop) : Prop :=
  match q with WNew _ species reactions _ => heap_ok species reactions | _ => True end.

Record winv (h : heap) (os : list obj) : Prop := {
  w_ok : forall i o, nth_error os i = Some o -> ok h o /\ wf (decode h o);
  w_dis : forall i j o o', nth_error os i = Some o -> nth_error os j = Some o' -> i <> j -> disjoint h o o'
}.

Lemma wf_decode_static h o h' o' :
  o_species o' = o_species o -> o_reactions o' = o_reactions o -> wf (decode h o) -> wf (decode h' o').
Proof.
  intros Hs Hr [W1 W2 W3 W4 W5]. split; unfold decode in *; cbn [c_species c_reactions] in *; rewrite ?Hs, ?Hr; auto.
Qed.

Lemma nth_replace {A} i (x : A) l j :
  nth_error (replace i x l) j = if Nat.eqb i j then (if Nat.ltb i (List.length l) then Some x else None) else nth_error l j.
Proof.
  revert i j. induction l as [|y l IH]; intros i j; cbn.
  - destruct (Nat.eqb i j); destruct j; reflexivity.
  - destruct i as [|i], j as [|j]; cbn; try reflexivity. rewrite IH. destruct (Nat.eqb i j); reflexivity.
Qed.

Lemma map_replace {A B} (f : A -> B) i x l : map f (replace i x l) = replace i (f x) (map f l).
Proof. revert i. induction l as [|y l IH]; intros [|i]; cbn; f_equal; auto. Qed.

Lemma replace_ext {A B} (f g : A -> B) i x l :
  (forall j y, j <> i -> nth_error l j = Some y -> f y = g y) ->
  replace i (f x) (map f l) = replace i (f x) (map g l).
Proof.
  revert i. induction l as [|y l IH]; intros i H; [destruct i; reflexivity|].
  destruct i as [|i]; cbn.
  - f_equal. clear IH.
    assert (K : forall j z, nth_error l j = Some z -> f z = g z) by (intros j z Hz; apply (H (S j)); [discriminate|exact Hz]).
    clear H. induction l as [|z l IH]; cbn; [reflexivity|]. f_equal; [now apply (K 0%nat)|].
    apply IH. intros j u Hu. now apply (K (S j)).
  - f_equal; [now apply (H 0%nat)|]. apply IH. intros j z Hj Hz. apply (H (S j)); [lia|exact Hz].
Qed.

Lemma disjoint_sym h a b : disjoint h a b -> disjoint h b a.
Proof. intros [H1 H2]. split; intros l A B; [now apply (H1 l)|now apply (H2 l)]. Qed.

(** Adding an object made of fresh cells only. *)
Lemma winv_add h os h' o' :
  winv h os -> (next h <= next h')%nat ->
  (forall l, (l < next h)%nat -> m_mask h' l = m_mask h l /\ m_ser h' l = m_ser h l /\ m_ret h' l = m_ret h l /\
             m_dict h' l = m_dict h l) ->
  ok h' o' -> wf (decode h' o') -> (forall l, In l (locs o' ++ dlocs h' o') -> (next h <= l)%nat) ->
  winv h' (os ++ [o']) /\ map (decode h') os = map (decode h) os.
Proof.
  intros [Wo Wd] Hn Hm Hok Hwf Hfresh.
  assert (Old : forall i o, nth_error os i = Some o ->
            ok h' o /\ decode h' o = decode h o /\ m_ret h' (l_ret o) = m_ret h (l_ret o) /\
            (forall l, In l (locs o ++ dlocs h' o) -> (l < next h)%nat)).
  { intros i o Ho. destruct (Wo i o Ho) as [(O1 & O2 & O3) _].
    assert (R : m_ret h' (l_ret o) = m_ret h (l_ret o)).
    { apply Hm. apply O3, in_app_iff. left. unfold locs. cbn. tauto. }
    assert (D : dlocs h' o = dlocs h o) by (unfold dlocs; now rewrite R).
    split; [|split; [|split; [exact R|]]].
    - split; [exact O1|]. rewrite D. split; [exact O2|]. intros l Hl. apply O3 in Hl. lia.
    - apply decode_frame.
      + intros l Hl. assert (l < next h)%nat as L by (apply O3, in_app_iff; auto). destruct (Hm l L) as (A & B & C & _). auto.
      + intros l Hl. apply Hm. apply O3, in_app_iff. auto.
    - rewrite D. exact O3. }
  split.
  - split.
    + intros i o Ho. destruct (Nat.lt_ge_cases i (List.length os)) as [L|L].
      * rewrite nth_error_app1 in Ho by exact L. destruct (Old i o Ho) as (A & B & _).
        split; [exact A|]. rewrite B. now apply (Wo i).
      * rewrite nth_error_app2 in Ho by exact L. destruct (i - List.length os)%nat as [|k]; cbn in Ho.
        -- inversion Ho; subst. auto.
        -- destruct k; discriminate.
    + assert (NewOld : forall i o, nth_error os i = Some o -> disjoint h' o' o).
      { intros i o Ho. destruct (Old i o Ho) as (_ & _ & _ & B). split; intros l Hl Hx.
        - assert (next h <= l)%nat by (apply Hfresh, in_app_iff; auto).
          assert (l < next h)%nat by (apply B, in_app_iff; auto). lia.
        - assert (next h <= l)%nat by (apply Hfresh, in_app_iff; auto).
          assert (l < next h)%nat by (apply B, in_app_iff; auto). lia. }
      intros i j o1 o2 H1 H2 Hij.
      assert (Case : forall i o, nth_error (os ++ [o']) i = Some o ->
                nth_error os i = Some o \/ i = List.length os /\ o = o').
      { intros i0 o0 H0. destruct (Nat.lt_ge_cases i0 (List.length os)) as [L|L].
        - rewrite nth_error_app1 in H0 by exact L. auto.
        - rewrite nth_error_app2 in H0 by exact L. right.
          destruct (i0 - List.length os)%nat as [|k] eqn:E; cbn in H0; [inversion H0; split; [lia|reflexivity]|destruct k; discriminate]. }
      apply Case in H1. apply Case in H2. destruct H1 as [H1|[-> ->]], H2 as [H2|[-> ->]].
      * destruct (Wd i j o1 o2 H1 H2 Hij) as [D1 D2]. split; [exact D1|].
        unfold dlocs in *. destruct (Old i o1 H1) as (_ & _ & -> & _). destruct (Old j o2 H2) as (_ & _ & -> & _). exact D2.
      * apply disjoint_sym. now apply (NewOld i).
      * now apply (NewOld j).
      * congruence.
  - clear - Old. assert (K : forall i o, nth_error os i = Some o -> decode h' o = decode h o) by (intros i o Ho; now apply (Old i)).
    clear Old. induction os as [|o os IH]; cbn; [reflexivity|]. f_equal; [now apply (K 0%nat)|].
    apply IH. intros i x Hx. now apply (K (S i)).
Qed.

Lemma copy_dicts_spec l : forall h h' r,
  copy_dicts h l = (h', r) -> (forall k, In k (map snd l) -> (k < next h)%nat) ->
  (next h <= next h')%nat /\ m_mask h' = m_mask h /\ m_ser h' = m_ser h /\ m_ret h' = m_ret h /\
  (forall k, (k < next h)%nat -> m_dict h' k = m_dict h k) /\
  NoDup (map snd r) /\ (forall k, In k (map snd r) -> (next h <= k < next h')%nat) /\
  deref h' r = deref h l.
Proof.
  induction l as [|[i k] l IH]; cbn [copy_dicts]; intros h h' r H L.
  - inversion H; subst. split; [lia|]. do 4 (split; [reflexivity|]). split; [constructor|]. split; [intros k []|reflexivity].
  - destruct (copy_dicts (new_dict (m_dict h k) h) l) as [h1 r1] eqn:E. inversion H; subst.
    apply IH in E.
    2: { intros j Hj. cbn. assert (j < next h)%nat by (apply L; right; exact Hj). lia. }
    destruct E as (A1 & A2 & A3 & A4 & A5 & A6 & A7 & A8). cbn in A1, A2, A3, A4, A5, A7.
    assert (Hk : (k < next h)%nat) by (apply L; now left).
    split; [lia|]. repeat (split; [assumption|]). split; [|split; [|split]].
    + intros j Hj. rewrite A5 by lia. apply upd_other. lia.
    + cbn. constructor; [|exact A6]. intros X. apply A7 in X. lia.
    + intros j [<-|Hj]; [cbn; lia|]. apply A7 in Hj. lia.
    + cbn. f_equal.
      * f_equal. rewrite A5 by lia. apply upd_same.
      * change (map (fun kl : Z * nat => (fst kl, m_dict h' (snd kl))) r1) with (deref h' r1). rewrite A8.
        apply deref_ext. intros j Hj. cbn. apply upd_other.
        assert (j < next h)%nat by (apply L; right; exact Hj). lia.
Qed.

Lemma hcopy_copy h o :
  match hcopy h o with
  | Ok _ => exists c', copy (decode h o) = Ok c'
  | Err e => copy (decode h o) = Err e
  end.
Proof.
  unfold hcopy, copy. cbn [decode c_species c_reactions c_xml].
  destruct (init Plain (o_species o) (o_reactions o) (o_xml o)) as [c0|e]; cbn [bind]; [|reflexivity].
  destruct (copy_dicts _ _). eauto.
Qed.

Lemma copy_init h o c0 :
  init Plain (o_species o) (o_reactions o) (o_xml o) = Ok c0 -> exists c', copy (decode h o) = Ok c'.
Proof.
  intros Hi. unfold copy. cbn [decode c_species c_reactions c_xml]. rewrite Hi. cbn [bind]. eauto.
Qed.

Lemma hcopy_spec h os i o h' o' :
  winv h os -> nth_error os i = Some o -> hcopy h o = Ok (h', o') ->
  winv h' (os ++ [o']) /\ map (decode h') os = map (decode h) os /\ copy (decode h o) = Ok (decode h' o').
Proof.
  intros W Ho H. destruct (w_ok h os W i o Ho) as [(O1 & O2 & O3) Wf].
  assert (LT : forall l, In l (locs o) -> (l < next h)%nat) by (intros l Hl; apply O3, in_app_iff; auto).
  assert (Hen : (l_en o < next h)%nat) by (apply LT; unfold locs; cbn; tauto).
  assert (Hprot : (l_prot o < next h)%nat) by (apply LT; unfold locs; cbn; tauto).
  assert (Had : (l_adprot o < next h)%nat) by (apply LT; unfold locs; cbn; tauto).
  assert (Henr : (l_enr o < next h)%nat) by (apply LT; unfold locs; cbn; tauto).
  assert (Hst : (l_stick o < next h)%nat) by (apply LT; unfold locs; cbn; tauto).
  assert (Hrt : (l_ret o < next h)%nat) by (apply LT; unfold locs; cbn; tauto).
  assert (Har : (l_arrh o < next h)%nat) by (apply LT; unfold locs; cbn; tauto).
  unfold hcopy in H. apply bind_Ok in H. destruct H as (c0 & Hi & H).
  match type of H with context [copy_dicts ?x ?y] => set (h5 := x) in H; destruct (copy_dicts h5 y) as [h6 rs] eqn:CD end.
  inversion H; subst h' o'; clear H.
  apply copy_dicts_spec in CD.
  2: { intros k Hk. assert (k < next h)%nat by (apply O3, in_app_iff; right; exact Hk). cbn. lia. }
  destruct CD as (A1 & A2 & A3 & A4 & A5 & A6 & A7 & A8).
  assert (N5 : next h5 = (6 + next h)%nat) by reflexivity. rewrite N5 in *.
  set (n := next h) in *.
  assert (M5 : forall l, (l < n)%nat -> m_mask h5 l = m_mask h l /\ m_ser h5 l = m_ser h l /\ m_ret h5 l = m_ret h l /\ m_dict h5 l = m_dict h l).
  { intros l Hl. unfold h5. lsimpl. fold n. rewrite !upd_other by lia. auto. }
  set (o' := MkObj Plain (o_species o) (o_reactions o) (o_xml o)
        n (S n) (S (S n)) (S (S (S n))) (S (S (S (S n)))) (next h6) (S (S (S (S (S n)))))).
  assert (Cp : copy (decode h o) = Ok (decode (new_ret rs h6) o')).
  { assert (X : exists c', copy (decode h o) = Ok c') by exact (copy_init h o c0 Hi).
    destruct X as [c' X]. rewrite X. f_equal. rewrite (copy_fields _ _ X).
    unfold decode, o'. cbn [c_kind c_species c_reactions c_xml c_en c_prot c_adprot c_enr c_stick c_ret c_arrh]. lsimpl.
    rewrite upd_same, A2, A3. symmetry. f_equal.
    - unfold h5. lsimpl. fold n. rewrite !(upd_other _ n) by lia. apply upd_same.
    - unfold h5. lsimpl. fold n. rewrite !(upd_other _ (S n)) by lia. apply upd_same.
    - unfold h5. lsimpl. fold n. rewrite !(upd_other _ (S (S n))) by lia. apply upd_same.
    - unfold h5. lsimpl. fold n. apply upd_same.
    - unfold h5. lsimpl. fold n. rewrite !(upd_other _ (S (S (S (S n))))) by lia. apply upd_same.
    - change (deref h6 rs = deref h (m_ret h (l_ret o))). rewrite A8. apply deref_ext.
      intros k Hk. apply M5. apply O3, in_app_iff. right. exact Hk.
    - unfold h5. lsimpl. fold n. apply upd_same. }
  rewrite <- and_assoc. split; [|exact Cp]. clear Cp Hi. unfold o'; clear o'.
  apply (winv_add h os); auto.
  - lsimpl. fold n. lia.
  - intros l Hl. fold n in Hl. destruct (M5 l Hl) as (B1 & B2 & B3 & B4). lsimpl.
    rewrite A2, A3, A4, A5 by lia. rewrite upd_other by lia. auto.
  - split; [|split].
    + unfold locs. lsimpl. apply NoDup7. repeat split; lia.
    + unfold dlocs. lsimpl. rewrite upd_same. exact A6.
    + intros l Hl. apply in_app_iff in Hl. destruct Hl as [Hl|Hl].
      * unfold locs in Hl. cbn in Hl. lsimpl. spl Hl; lia.
      * unfold dlocs in Hl. cbn in Hl. rewrite upd_same in Hl. apply A7 in Hl. lsimpl. lia.
  - apply (wf_decode_static h o); [reflexivity|reflexivity|exact Wf].
  - intros l Hl. fold n. apply in_app_iff in Hl. destruct Hl as [Hl|Hl].
    + unfold locs in Hl. cbn in Hl. spl Hl; lia.
    + unfold dlocs in Hl. cbn in Hl. rewrite upd_same in Hl. apply A7 in Hl. lia.
Qed.

Lemma wstep_sim E h os q :
  winv h os -> valid_op q ->
  let '(h', os') := wstep E (h, os) q in
  winv h' os' /\ map (decode h') os' = vstep E (map (decode h) os) q.
Proof.
  intros W V. destruct q as [k species reactions xml|i|i p]; cbn [wstep vstep].
  - destruct (init k species reactions xml) as [c|e] eqn:Hi; [|split; auto].
    pose proof (init_fields _ _ _ _ _ Hi) as (I1 & I2 & I3 & I4 & _ & _ & _ & I8 & I9 & I10).
    cbn [hnew]. set (n := next h).
    match goal with |- winv ?hh (_ ++ [?oo]) /\ _ => set (h' := hh); set (o' := oo) end.
    assert (Dec : decode h' o' = c).
    { rewrite <- (chem_eta c) at 1. unfold decode, h', o'. lsimpl. fold n.
      repeat (rewrite upd_same || rewrite upd_other by lia). rewrite I9. reflexivity. }
    destruct (winv_add h os h' o' W) as [A B].
    + unfold h'. lsimpl. lia.
    + intros l Hl. unfold h'. lsimpl. fold n in Hl |- *. rewrite !upd_other by lia. auto.
    + split; [|split].
      * unfold o', locs. lsimpl. apply NoDup7. repeat split; lia.
      * unfold dlocs, h', o'. lsimpl. fold n. rewrite upd_same. constructor.
      * intros l Hl. apply in_app_iff in Hl. destruct Hl as [Hl|Hl].
        -- unfold h', o', locs in *. cbn in Hl. lsimpl. fold n in Hl |- *. spl Hl; lia.
        -- unfold dlocs, h', o' in Hl. cbn in Hl. fold n in Hl. rewrite upd_same in Hl. destruct Hl.
    + rewrite Dec. apply (i_wf c). eapply init_Inv; eauto.
    + intros l Hl. apply in_app_iff in Hl. destruct Hl as [Hl|Hl].
      * unfold o', locs in Hl. cbn in Hl. fold n. spl Hl; lia.
      * unfold dlocs, h', o' in Hl. cbn in Hl. fold n in Hl. rewrite upd_same in Hl. destruct Hl.
    + split; [exact A|]. rewrite map_app, B. cbn [map]. now rewrite Dec.
  - rewrite nth_error_map. destruct (nth_error os i) as [o|] eqn:Ho; cbn [option_map]; [|split; auto].
    pose proof (hcopy_copy h o) as HC. destruct (hcopy h o) as [[h' o']|e] eqn:Hc.
    + destruct (hcopy_spec h os i o h' o' W Ho Hc) as (A & B & C). split; [exact A|].
      rewrite C, map_app, B. reflexivity.
    + rewrite HC. split; auto.
  - rewrite nth_error_map. destruct (nth_error os i) as [o|] eqn:Ho; cbn [option_map]; [|split; auto].
    destruct (w_ok h os W i o Ho) as [Hok Hwf].
    pose proof (hstep_spec E h o p Hok Hwf) as S. destruct (hstep E h o p) as [h' o'].
    destruct S as (S1 & S2 & S3 & S4 & S5).
    assert (Oth : forall j x, nth_error os j = Some x -> j <> i ->
              decode h' x = decode h x /\ disjoint h' o' x /\
              (forall l, In l (locs x ++ dlocs h' x) -> (l < next h')%nat) /\ m_ret h' (l_ret x) = m_ret h (l_ret x)).
    { intros j x Hx Hj. apply (preserves_other h h' o o' x S3); [now apply (w_ok h os W j)|].
      apply (w_dis h os W i j); auto. }
    assert (Li : (i < List.length os)%nat) by (apply nth_error_Some; congruence).
    assert (Case : forall j x, nth_error (replace i o' os) j = Some x ->
              j = i /\ x = o' \/ j <> i /\ nth_error os j = Some x).
    { intros j x. rewrite nth_replace. destruct (Nat.eqb_spec i j) as [->|Hne].
      - apply Nat.ltb_lt in Li. rewrite Li. intros X; inversion X; auto.
      - auto. }
    split.
    + split.
      * intros j x Hx. apply Case in Hx. destruct Hx as [[-> ->]|[Hj Hx]].
        -- split; [exact S2|]. now apply (wf_decode_static h o).
        -- destruct (Oth j x Hx Hj) as (A & B & C & D). destruct (w_ok h os W j x Hx) as [(K1 & K2 & K3) Kw].
           split; [|now rewrite A]. split; [exact K1|]. split; [|exact C]. unfold dlocs. now rewrite D.
      * intros j k x y Hx Hy Hjk. apply Case in Hx. apply Case in Hy.
        destruct Hx as [[-> ->]|[Hj Hx]], Hy as [[-> ->]|[Hk Hy]].
        -- congruence.
        -- now apply (Oth k y Hy).
        -- apply disjoint_sym. now apply (Oth j x Hx).
        -- destruct (w_dis h os W j k x y Hx Hy Hjk) as [D1 D2]. split; [exact D1|]. unfold dlocs in *.
           destruct (Oth j x Hx Hj) as (_ & _ & _ & ->). destruct (Oth k y Hy Hk) as (_ & _ & _ & ->). exact D2.
    + rewrite map_replace, <- S1. apply replace_ext. intros j y Hj Hy. now apply (Oth j y Hy).
Qed.

Theorem programs_refine_values E l :
  Forall valid_op l -> map (decode (fst (wrun E l))) (snd (wrun E l)) = vrun E l.
Proof.
  intros V. unfold wrun, vrun.
  assert (G : forall h os, winv h os ->
    winv (fst (fold_left (wstep E) l (h, os))) (snd (fold_left (wstep E) l (h, os))) /\
    map (decode (fst (fold_left (wstep E) l (h, os)))) (snd (fold_left (wstep E) l (h, os))) =
    fold_left (vstep E) l (map (decode h) os)).
  { induction V as [|q l Hq V IH]; intros h os W; cbn [fold_left]; [auto|].
    pose proof (wstep_sim E h os q W Hq) as S. destruct (wstep E (h, os) q) as [h' os'].
    destruct S as [S1 S2]. rewrite <- S2. now apply IH. }
  apply (G heap0 []). split; intros i; intros; destruct i; discriminate.
Qed.
