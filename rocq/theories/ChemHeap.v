(** Object-level model of a chemistry: the pandas Series a Chemistry instance
    holds are heap cells, mutated in place or rebound exactly where
    plaschem/chemistry.py does so. It is used to show that a chemistry and its
    copy never influence each other. *)
From Verif Require Import Base BaseLemmas Species Reactions Chemistry ChemSpec ChemDisable ChemInv ChemHist ChemLoad.

(** ** Heap *)

(** One memory per kind of cell; [next] is the first unused location. *)
Record heap : Type := MkHeap {
  next : nat;
  m_mask : nat -> (Z -> bool);                (* boolean Series *)
  m_ser : nat -> list (Z * scalar);           (* Series of scalars *)
  m_ret : nat -> list (Z * nat);              (* Series of dict objects *)
  m_dict : nat -> list (string * flt)         (* dict objects *)
}.

Definition upd {A} (l : nat) (v : A) (m : nat -> A) : nat -> A := fun k => if Nat.eqb k l then v else m k.

Definition put_mask l v h := MkHeap (next h) (upd l v (m_mask h)) (m_ser h) (m_ret h) (m_dict h).
Definition put_ser l v h := MkHeap (next h) (m_mask h) (upd l v (m_ser h)) (m_ret h) (m_dict h).
Definition put_ret l v h := MkHeap (next h) (m_mask h) (m_ser h) (upd l v (m_ret h)) (m_dict h).
Definition put_dict l v h := MkHeap (next h) (m_mask h) (m_ser h) (m_ret h) (upd l v (m_dict h)).

(** Allocation: the new object's location is the old [next]. *)
Definition bump h := MkHeap (S (next h)) (m_mask h) (m_ser h) (m_ret h) (m_dict h).
Definition new_mask v h := bump (put_mask (next h) v h).
Definition new_ser v h := bump (put_ser (next h) v h).
Definition new_ret v h := bump (put_ret (next h) v h).
Definition new_dict v h := bump (put_dict (next h) v h).

(** A Chemistry instance: immutable data and references to its Series. *)
Record obj : Type := MkObj {
  o_kind : kind; o_species : list sp; o_reactions : list rx; o_xml : option string;
  l_en : nat; l_prot : nat; l_adprot : nat; l_enr : nat; l_stick : nat; l_ret : nat; l_arrh : nat
}.

Definition deref (h : heap) (l : list (Z * nat)) : list (Z * list (string * flt)) :=
  map (fun kl => (fst kl, m_dict h (snd kl))) l.

(** The state a caller sees. *)
Definition decode (h : heap) (o : obj) : chem :=
  MkChem (o_kind o) (o_species o) (o_reactions o) (o_xml o)
    (m_mask h (l_en o)) (m_mask h (l_prot o)) (m_mask h (l_adprot o)) (m_mask h (l_enr o))
    (m_ser h (l_stick o)) (deref h (m_ret h (l_ret o))) (m_ser h (l_arrh o)).

(** ** Methods on objects *)

Inductive hop : Type :=
| HOp (o : op)                                         (* a public method call *)
| HMutRet (i : Z) (d : list (string * flt)).           (* the caller mutates the dict object stored
                                                          under [i] in the public attribute
                                                          [adhoc_species_attributes['ret_coefs']] *)

(** The same call on the state, without objects. *)
Definition cstep (E : env) (c : chem) (p : hop) : chem :=
  match p with
  | HOp o => fst (step E c o)
  | HMutRet i d => if zhas i (c_ret c) then with_ret c (zset i d (c_ret c)) else c
  end.

(** plaschem/chemistry.py L280-313: the cascade writes into the three masks in
    place; on ChemistryDisableError the four attributes are rebound to the
    backup copies. *)
Definition hdisable (h : heap) (o : obj) (ss : list ref) (rs : list Z) : heap * obj :=
  let c := decode h o in
  match (let* si := mapM (fun a => let* s := get_rp c a in Ok (sp_id s)) ss in
         let* ri := mapM (fun z => let* r := get_reaction c z in Ok (rx_id r)) rs in
         Ok (si, ri)) with
  | Err _ => (h, o)
  | Ok (si, ri) =>
      let '(c1, r) := disable_recursively (disable_fuel c) c si ri in
      let h1 := put_mask (l_adprot o) (c_adprot c1)
                  (put_mask (l_enr o) (c_enr c1) (put_mask (l_en o) (c_en c1) h)) in
      match r with
      | Err EChemDisable =>
          let n := next h1 in
          (new_mask (c_adprot c) (new_mask (c_prot c) (new_mask (c_enr c) (new_mask (c_en c) h1))),
           MkObj (o_kind o) (o_species o) (o_reactions o) (o_xml o)
             n (S (S n)) (S (S (S n))) (S n) (l_stick o) (l_ret o) (l_arrh o))
      | _ => (h1, o)
      end
  end.

(** In-place assignment [series.at[i] = dict] of a freshly built dict. *)
Definition hset_ret (h : heap) (o : obj) (i : Z) (d : list (string * flt)) : heap :=
  let h1 := new_dict d h in
  put_ret (l_ret o) (zset i (next h) (m_ret h (l_ret o))) h1.

Definition hstep (E : env) (h : heap) (o : obj) (p : hop) : heap * obj :=
  let c := decode h o in
  match p with
  | HMutRet i d =>
      match zget i (m_ret h (l_ret o)) with
      | Some l => (put_dict l d h, o)
      | None => (h, o)
      end
  | HOp (ODisable ss rs) => hdisable h o ss rs
  | HOp (OProtect args) => (put_mask (l_prot o) (c_prot (fst (set_protected_species c args))) h, o)
  | HOp OReset =>                                                        (* L319-321, rebinding *)
      let n := next h in
      (new_mask (fun _ => false) (new_mask (fun _ => true) (new_mask (fun _ => true) h)),
       MkObj (o_kind o) (o_species o) (o_reactions o) (o_xml o)
         n (l_prot o) (S (S n)) (S n) (l_stick o) (l_ret o) (l_arrh o))
  | HOp (OSetSp a r v) =>                                                (* L384, in place *)
      let c' := fst (set_adhoc_species E c a r v) in
      if String.eqb a "ret_coefs" then
        match get_rp c r with
        | Ok s => match zget (sp_id s) (c_ret c'), v with
                  | Some d', VDict d =>
                      if type_in v (rp_attr_types a) && subsetS (akeys d) (name_pool c)
                         && is_ok (mapM (fun kv => let* f := py_float E (snd kv) in Ok (fst kv, f)) d)
                      then (hset_ret h o (sp_id s) d', o) else (h, o)
                  | _, _ => (h, o)
                  end
        | Err _ => (h, o)
        end
      else (put_ser (l_stick o) (c_stick c') h, o)
  | HOp (OResetSp a) =>                                                  (* L396-401, rebinding *)
      let n := next h in
      if String.eqb a "all" then
        (new_ret [] (new_ser [] h),
         MkObj (o_kind o) (o_species o) (o_reactions o) (o_xml o)
           (l_en o) (l_prot o) (l_adprot o) (l_enr o) n (S n) (l_arrh o))
      else if String.eqb a "stick_coef" then
        (new_ser [] h, MkObj (o_kind o) (o_species o) (o_reactions o) (o_xml o)
           (l_en o) (l_prot o) (l_adprot o) (l_enr o) n (l_ret o) (l_arrh o))
      else if String.eqb a "ret_coefs" then
        (new_ret [] h, MkObj (o_kind o) (o_species o) (o_reactions o) (o_xml o)
           (l_en o) (l_prot o) (l_adprot o) (l_enr o) (l_stick o) n (l_arrh o))
      else (h, o)
  | HOp (OSetRx a i v) => (put_ser (l_arrh o) (c_arrh (fst (set_adhoc_reactions c a i v))) h, o)
                                                                         (* L428, in place *)
  | HOp (OResetRx a) =>                                                  (* L438-443, rebinding *)
      if String.eqb a "all" || String.eqb a "arrh_a" then
        (new_ser [] h, MkObj (o_kind o) (o_species o) (o_reactions o) (o_xml o)
           (l_en o) (l_prot o) (l_adprot o) (l_enr o) (l_stick o) (l_ret o) (next h))
      else (h, o)
  end.

(** [copy.deepcopy] of every dict of a Series (L112-115). *)
Fixpoint copy_dicts (h : heap) (l : list (Z * nat)) : heap * list (Z * nat) :=
  match l with
  | [] => (h, [])
  | (i, k) :: l' =>
      let '(h', r) := copy_dicts (new_dict (m_dict h k) h) l' in (h', (i, next h) :: r)
  end.

(** plaschem/chemistry.py L94-119 [copy]; the Series created by [__init__]
    (L99) are replaced at once. *)
Definition hcopy (h : heap) (o : obj) : res (heap * obj) :=
  let* c0 := init Plain (o_species o) (o_reactions o) (o_xml o) in
  let n := next h in
  let h4 := new_mask (m_mask h (l_enr o)) (new_mask (m_mask h (l_adprot o))
              (new_mask (m_mask h (l_prot o)) (new_mask (m_mask h (l_en o)) h))) in
  let h5 := new_ser (m_ser h (l_arrh o)) (new_ser (m_ser h (l_stick o)) h4) in
  let '(h6, rs) := copy_dicts h5 (m_ret h (l_ret o)) in
  Ok (new_ret rs h6,
      MkObj Plain (o_species o) (o_reactions o) (o_xml o)
        n (S n) (S (S n)) (S (S (S n))) (S (S (S (S n)))) (next h6) (S (S (S (S (S n)))))).

(** ** Proofs *)

Definition locs (o : obj) : list nat := [l_en o; l_prot o; l_adprot o; l_enr o; l_stick o; l_ret o; l_arrh o].
Definition dlocs (h : heap) (o : obj) : list nat := map snd (m_ret h (l_ret o)).

(** All cells of the object are allocated and distinct. *)
Definition ok (h : heap) (o : obj) : Prop :=
  NoDup (locs o) /\ NoDup (dlocs h o) /\
  (forall l, In l (locs o ++ dlocs h o) -> (l < next h)%nat).

Definition disjoint (h : heap) (o o' : obj) : Prop :=
  (forall l, In l (locs o) -> ~ In l (locs o')) /\
  (forall l, In l (dlocs h o) -> ~ In l (dlocs h o')).

Lemma upd_same {A} l (v : A) m : upd l v m l = v.
Proof. unfold upd. now rewrite Nat.eqb_refl. Qed.
Lemma upd_other {A} l k (v : A) m : k <> l -> upd l v m k = m k.
Proof. unfold upd. intros H. now apply Nat.eqb_neq in H; rewrite H. Qed.

Lemma deref_ext h h' l :
  (forall k, In k (map snd l) -> m_dict h' k = m_dict h k) -> deref h' l = deref h l.
Proof.
  intros H. unfold deref. apply map_ext_in. intros [i k] Hin. cbn. f_equal. apply H.
  apply in_map_iff. now exists (i, k).
Qed.

Lemma deref_zset h i l d s :
  ~ In l (map snd s) ->
  deref (new_dict d h) (zset i (next h) s) = zset i d (deref (new_dict d h) s).
Proof.
  intros _. induction s as [|[j k] s IH]; cbn [aset deref map].
  - cbn. now rewrite upd_same.
  - cbn [fst snd]. destruct (i =? j) eqn:E; cbn [map deref fst snd].
    + cbn. now rewrite upd_same.
    + f_equal. exact IH.
Qed.

Ltac lsimpl := cbn [next m_mask m_ser m_ret m_dict bump put_mask put_ser put_ret put_dict
                    new_mask new_ser new_ret new_dict
                    l_en l_prot l_adprot l_enr l_stick l_ret l_arrh o_kind o_species o_reactions o_xml].

(** Frame: what a heap change must preserve for an object to look the same. *)
Lemma decode_frame h h' o :
  (forall l, In l (locs o) -> m_mask h' l = m_mask h l /\ m_ser h' l = m_ser h l /\ m_ret h' l = m_ret h l) ->
  (forall l, In l (dlocs h o) -> m_dict h' l = m_dict h l) ->
  decode h' o = decode h o.
Proof.
  intros H1 H2. unfold decode.
  assert (A : forall l, In l (locs o) -> m_mask h' l = m_mask h l) by (intros l Hl; apply H1; exact Hl).
  assert (B : forall l, In l (locs o) -> m_ser h' l = m_ser h l) by (intros l Hl; apply H1; exact Hl).
  assert (C : forall l, In l (locs o) -> m_ret h' l = m_ret h l) by (intros l Hl; apply H1; exact Hl).
  rewrite !A, !B, !C by (unfold locs; cbn; tauto). f_equal. now apply deref_ext.
Qed.

Lemma NoDup7 (a b c d e f g : nat) :
  NoDup [a; b; c; d; e; f; g] <->
  (a <> b /\ a <> c /\ a <> d /\ a <> e /\ a <> f /\ a <> g /\ b <> c /\ b <> d /\ b <> e /\ b <> f /\ b <> g /\ c <> d /\ c <> e /\ c <> f /\ c <> g /\ d <> e /\ d <> f /\ d <> g /\ e <> f /\ e <> g /\ f <> g).
Proof.
  rewrite !NoDup_cons_iff. cbn [In]. pose proof (NoDup_nil nat). split; [|intros H'; repeat (split; [intros X; repeat destruct X as [X|X]; subst; tauto|]); exact H].
  intros H'. repeat split; intros ->; tauto.
Qed.

Ltac drop_ne := repeat match goal with H : _ <> _ |- _ => clear H end.
Ltac neq := solve [congruence | drop_ne; lia].
Ltac spl H := repeat match type of H with _ \/ _ => destruct H as [H|H] end.

(** *** A step touches only the object's own cells and fresh ones. *)
Definition preserves (h h' : heap) (o o' : obj) : Prop :=
  (next h <= next h')%nat /\
  (forall l, ~ In l (locs o) -> (l < next h)%nat ->
     m_mask h' l = m_mask h l /\ m_ser h' l = m_ser h l /\ m_ret h' l = m_ret h l) /\
  (forall l, ~ In l (dlocs h o) -> (l < next h)%nat -> m_dict h' l = m_dict h l) /\
  (forall l, In l (locs o') -> In l (locs o) \/ (next h <= l)%nat) /\
  (forall l, In l (dlocs h' o') -> In l (dlocs h o) \/ (next h <= l)%nat).

Lemma preserves_other h h' o o' x :
  preserves h h' o o' -> ok h x -> disjoint h o x ->
  decode h' x = decode h x /\ disjoint h' o' x /\ (forall l, In l (locs x ++ dlocs h' x) -> (l < next h')%nat) /\
  m_ret h' (l_ret x) = m_ret h (l_ret x).
Proof.
  intros (P1 & P2 & P3 & P4 & P5) (O1 & O2 & O3) (D1 & D2).
  assert (L : forall l, In l (locs x) -> m_mask h' l = m_mask h l /\ m_ser h' l = m_ser h l /\ m_ret h' l = m_ret h l).
  { intros l Hl. apply P2; [intros X; now apply (D1 l)|]. apply O3, in_app_iff. auto. }
  assert (R : m_ret h' (l_ret x) = m_ret h (l_ret x)) by (apply L; unfold locs; cbn; tauto).
  assert (DX : dlocs h' x = dlocs h x) by (unfold dlocs; now rewrite R).
  split; [|split; [|split; [|exact R]]].
  - apply decode_frame; [exact L|]. intros l Hl. apply P3; [intros X; now apply (D2 l)|].
    apply O3, in_app_iff. auto.
  - split.
    + intros l Hl Hx. destruct (P4 l Hl) as [X|X]; [now apply (D1 l)|].
      assert (l < next h)%nat by (apply O3, in_app_iff; auto). lia.
    + rewrite DX. intros l Hl Hx. destruct (P5 l Hl) as [X|X]; [now apply (D2 l)|].
      assert (l < next h)%nat by (apply O3, in_app_iff; auto). lia.
  - rewrite DX. intros l Hl. apply O3 in Hl. lia.
Qed.

Lemma zset_snd_In i n (s : list (Z * nat)) l : In l (map snd (zset i n s)) -> l = n \/ In l (map snd s).
Proof.
  induction s as [|[j k] s IH]; cbn [aset map].
  - cbn. intros [<-|[]]. auto.
  - destruct (i =? j); cbn; intuition.
Qed.

Lemma NoDup_zset_snd i n (s : list (Z * nat)) :
  NoDup (map snd s) -> ~ In n (map snd s) -> NoDup (map snd (zset i n s)).
Proof.
  induction s as [|[j k] s IH]; cbn [aset map]; intros ND Hn.
  - constructor; [tauto|constructor].
  - cbn in *. inversion ND as [|? ? Hni ND']; subst. destruct (i =? j); cbn.
    + constructor; tauto.
    + constructor; [|apply IH; tauto]. intros X. apply zset_snd_In in X. destruct X as [->|X]; tauto.
Qed.


Lemma hstep_spec E h o p :
  ok h o -> wf (decode h o) ->
  let '(h', o') := hstep E h o p in
  decode h' o' = cstep E (decode h o) p /\ ok h' o' /\ preserves h h' o o' /\
  o_species o' = o_species o /\ o_reactions o' = o_reactions o.
Proof.
  intros (N1 & N2 & LT) W.
  assert (LTL : forall l, In l (locs o) -> (l < next h)%nat) by (intros l Hl; apply LT, in_app_iff; auto).
  assert (LTD : forall l, In l (dlocs h o) -> (l < next h)%nat) by (intros l Hl; apply LT, in_app_iff; auto).
  assert (Hen : (l_en o < next h)%nat) by (apply LTL; unfold locs; cbn; tauto).
  assert (Hprot : (l_prot o < next h)%nat) by (apply LTL; unfold locs; cbn; tauto).
  assert (Had : (l_adprot o < next h)%nat) by (apply LTL; unfold locs; cbn; tauto).
  assert (Henr : (l_enr o < next h)%nat) by (apply LTL; unfold locs; cbn; tauto).
  assert (Hst : (l_stick o < next h)%nat) by (apply LTL; unfold locs; cbn; tauto).
  assert (Hrt : (l_ret o < next h)%nat) by (apply LTL; unfold locs; cbn; tauto).
  assert (Har : (l_arrh o < next h)%nat) by (apply LTL; unfold locs; cbn; tauto).
  assert (Own : forall l, In l (locs o) <-> l = l_en o \/ l = l_prot o \/ l = l_adprot o \/ l = l_enr o \/
                  l = l_stick o \/ l = l_ret o \/ l = l_arrh o).
  { intros l. unfold locs. cbn. intuition. }
  assert (NotOwn : forall l, ~ In l (locs o) -> l <> l_en o /\ l <> l_prot o /\ l <> l_adprot o /\ l <> l_enr o /\
                  l <> l_stick o /\ l <> l_ret o /\ l <> l_arrh o).
  { intros l. rewrite Own. tauto. }
  pose proof N1 as N1'. unfold locs in N1'. apply NoDup7 in N1'.
  destruct N1' as (X0 & X1 & X2 & X3 & X4 & X5 & X6 & X7 & X8 & X9 & X10 & X11 & X12 & X13 & X14 & X15 & X16 & X17 & X18 & X19 & X20).
  (* unchanged *)
  assert (Same : ok h o /\ preserves h h o o /\ o_species o = o_species o /\ o_reactions o = o_reactions o).
  { split; [|split; [|auto]].
    - repeat split; auto.
    - split; [reflexivity|]. repeat split; auto. }
  destruct p as [q|i d].
  2: { cbn [hstep cstep]. change (c_ret (decode h o)) with (deref h (m_ret h (l_ret o))).
       destruct (zget i (m_ret h (l_ret o))) as [l|] eqn:G.
       - assert (Hin : In (i, l) (m_ret h (l_ret o))) by (now apply (aget_In Z.eqb Zeqb_spec)).
         assert (Hd : In l (dlocs h o)) by (apply in_map_iff; now exists (i, l)).
         split; [|split; [|split; [|auto]]].
         + assert (Hz : existsb (Z.eqb i) (map fst (deref h (m_ret h (l_ret o)))) = true).
           { apply existsb_exists. exists i. split; [|apply Z.eqb_refl]. unfold deref. rewrite map_map. cbn.
             apply in_map_iff. now exists (i, l). }
           change (zhas i (deref h (m_ret h (l_ret o))) = true) in Hz. rewrite Hz.
           unfold decode, with_ret. lsimpl. cbn [c_kind c_species c_reactions c_xml c_en c_prot c_adprot c_enr c_stick c_ret c_arrh]. f_equal.
           clear - G N2. unfold dlocs in N2.
           induction (m_ret h (l_ret o)) as [|[j k] s IH]; cbn in *; [discriminate|].
           inversion N2 as [|? ? Hni N2']; subst. destruct (i =? j) eqn:E.
           * inversion G; subst. apply Z.eqb_eq in E. subst. rewrite upd_same. f_equal.
             apply (deref_ext h (put_dict l d h)). intros k Hk. cbn. apply upd_other. intros ->. contradiction.
           * f_equal; [|now apply IH]. f_equal. apply upd_other. intros ->. apply Hni.
             apply (aget_In Z.eqb Zeqb_spec) in G. apply in_map_iff. now exists (i, l).
         + repeat split; auto.
         + split; [cbn; drop_ne; lia|]. split; [intros; cbn; auto|]. split.
           * intros k Hk _. cbn. apply upd_other. intros ->. contradiction.
           * split; [auto|]. intros k Hk. left. exact Hk.
       - split; [|exact Same].
         assert (Hz : zhas i (deref h (m_ret h (l_ret o))) = false).
         { destruct (zhas i (deref h (m_ret h (l_ret o)))) eqn:Y; [|reflexivity].
           apply (ahas_In Z.eqb Zeqb_spec) in Y. unfold akeys, deref in Y. rewrite map_map in Y. cbn in Y.
           apply (aget_None Z.eqb Zeqb_spec) in G. contradiction. }
         now rewrite Hz. }
  destruct q as [ss rs|args| |a r v|a|a i v|a]; cbn [hstep cstep step].
  - (* disable *)
    unfold hdisable, disable.
    destruct (let* si := _ in _) as [[si ri]|e]; [|split; [reflexivity|exact Same]].
    destruct (disable_recursively (disable_fuel (decode h o)) (decode h o) si ri) as [c1 r] eqn:D.
    pose proof (dr_frame _ _ _ _ _ _ D) as (F1 & F2 & _).
    set (h1 := put_mask (l_adprot o) (c_adprot c1)
                  (put_mask (l_enr o) (c_enr c1) (put_mask (l_en o) (c_en c1) h))).
    assert (D1 : decode h1 o = c1).
    { rewrite <- (chem_eta c1). destruct F1 as (G1 & G2 & G3 & G4 & G5 & G6 & G7).
      rewrite G1, G2, G3, G4, G5, G6, G7, F2. unfold decode, h1. lsimpl. cbn [c_kind c_species c_reactions c_xml c_prot c_stick c_ret c_arrh].
      rewrite upd_same. rewrite !(upd_other (l_adprot o)) by neq.
      rewrite upd_same. rewrite !(upd_other (l_enr o)) by neq.
      rewrite upd_same. rewrite !(upd_other (l_en o)) by neq. reflexivity. }
    assert (P1 : preserves h h1 o o).
    { split; [cbn; drop_ne; lia|]. split; [|split; [|split]].
      - intros l Hl Hlt. unfold h1. lsimpl. apply NotOwn in Hl; destruct Hl as (Y1 & Y2 & Y3 & Y4 & Y5 & Y6 & Y7). rewrite !upd_other by neq. auto.
      - intros; reflexivity.
      - auto.
      - intros l Hl. left. exact Hl. }
    assert (R1 : (h1, o) = (h1, o) -> decode h1 o = c1 /\ ok h1 o /\ preserves h h1 o o /\
                 o_species o = o_species o /\ o_reactions o = o_reactions o).
    { intros _. split; [exact D1|]. split; [repeat split; auto|]. split; [exact P1|]. auto. }
    destruct r as [u|e]; [apply R1; reflexivity|].
    destruct e; try (apply R1; reflexivity).
    assert (Nh : next h1 = next h) by reflexivity.
    lsimpl. rewrite !Nh. set (n := next h).
    split; [|split; [|split; [|auto]]].
    + destruct F1 as (G1 & G2 & G3 & G4 & G5 & G6 & G7).
      unfold with_adprot, with_prot, with_enr, with_en. cbn [c_kind c_species c_reactions c_xml c_en c_prot c_adprot c_enr c_stick c_ret c_arrh fst].
      rewrite G1, G2, G3, G4, G5, G6, G7. unfold decode. lsimpl. cbn [c_kind c_species c_reactions c_xml c_en c_prot c_adprot c_enr c_stick c_ret c_arrh].
      fold n. repeat (rewrite upd_same || rewrite upd_other by neq). reflexivity.
    + split; [|split].
      * unfold locs. lsimpl. apply NoDup7; repeat split; neq.
      * exact N2.
      * intros l Hl. apply in_app_iff in Hl. destruct Hl as [Hl|Hl].
        -- unfold locs in Hl. cbn [In] in Hl. lsimpl. rewrite ?Nh. fold n. cbn in Hl. spl Hl; drop_ne; lia.
        -- assert (l < next h)%nat by (apply LTD; exact Hl). lsimpl. rewrite ?Nh. subst n; drop_ne; lia.
    + split; [cbn; drop_ne; lia|]. split; [|split; [|split]].
      * intros l Hl Hlt. lsimpl. rewrite ?Nh. unfold h1. lsimpl. apply NotOwn in Hl; destruct Hl as (Y1 & Y2 & Y3 & Y4 & Y5 & Y6 & Y7). fold n in Hlt |- *.
        rewrite !upd_other by neq. auto.
      * intros; reflexivity.
      * intros l Hl. unfold locs in Hl. cbn [In] in Hl. cbn in Hl. fold n in Hl. rewrite Own; spl Hl; drop_ne; lia.
      * intros l Hl. left. exact Hl.
  - (* protect *)
    destruct (set_protected_cases (decode h o) args) as [(e & ->)|(ids & _ & ->)]; cbn [fst].
    + split; [|split; [repeat split; auto|split; [|auto]]].
      * unfold decode. lsimpl. cbn [c_prot]. rewrite upd_same, !upd_other by neq. reflexivity.
      * split; [cbn; drop_ne; lia|]. split; [|split; [|split]]; auto.
        intros l Hl Hlt. lsimpl. apply NotOwn in Hl; destruct Hl as (Y1 & Y2 & Y3 & Y4 & Y5 & Y6 & Y7). rewrite !upd_other by neq. auto.
    + split; [|split; [repeat split; auto|split; [|auto]]].
      * unfold decode, with_prot. lsimpl. cbn [c_kind c_species c_reactions c_xml c_en c_prot c_adprot c_enr c_stick c_ret c_arrh].
        rewrite upd_same, !upd_other by neq. reflexivity.
      * split; [cbn; drop_ne; lia|]. split; [|split; [|split]]; auto.
        intros l Hl Hlt. lsimpl. apply NotOwn in Hl; destruct Hl as (Y1 & Y2 & Y3 & Y4 & Y5 & Y6 & Y7). rewrite !upd_other by neq. auto.
  - (* reset *)
    lsimpl. set (n := next h). split; [|split; [|split; [|auto]]].
    + unfold reset, with_adprot, with_enr, with_en, decode. lsimpl. cbn [c_kind c_species c_reactions c_xml c_en c_prot c_adprot c_enr c_stick c_ret c_arrh fst].
      fold n. repeat (rewrite upd_same || rewrite upd_other by neq). reflexivity.
    + split; [|split].
      * unfold locs. lsimpl. apply NoDup7; repeat split; neq.
      * exact N2.
      * intros l Hl. apply in_app_iff in Hl. destruct Hl as [Hl|Hl].
        -- unfold locs in Hl. cbn in Hl. lsimpl. fold n in Hl |- *. spl Hl; drop_ne; lia.
        -- assert (l < next h)%nat by (apply LTD; exact Hl). lsimpl. subst n; drop_ne; lia.
    + split; [cbn; drop_ne; lia|]. split; [|split; [|split]]; auto.
      * intros l Hl Hlt. lsimpl. apply NotOwn in Hl; destruct Hl as (Y1 & Y2 & Y3 & Y4 & Y5 & Y6 & Y7). fold n in Hlt |- *.
        rewrite !upd_other by neq. auto.
      * intros l Hl. unfold locs in Hl. cbn in Hl. fold n in Hl. rewrite Own; spl Hl; drop_ne; lia.
  - (* set ad-hoc species attribute *)
    unfold set_adhoc_species.
    destruct (get_rp (decode h o) r) as [s|e] eqn:G.
    2: { destruct (String.eqb a "ret_coefs"); cbn [fst]; [split; [reflexivity|exact Same]|].
         split; [|split; [repeat split; auto|split; [|auto]]].
         - unfold decode. lsimpl. cbn [c_stick]. rewrite upd_same, !upd_other by neq. reflexivity.
         - split; [cbn; drop_ne; lia|]. split; [|split; [|split]]; auto.
           intros l Hl Hlt. lsimpl. apply NotOwn in Hl; destruct Hl as (Y1 & Y2 & Y3 & Y4 & Y5 & Y6 & Y7). rewrite !upd_other by neq. auto. }
    assert (Idem : decode (put_ser (l_stick o) (c_stick (decode h o)) h) o = decode h o /\
                   ok (put_ser (l_stick o) (c_stick (decode h o)) h) o /\
                   preserves h (put_ser (l_stick o) (c_stick (decode h o)) h) o o /\
                   o_species o = o_species o /\ o_reactions o = o_reactions o).
    { split; [|split; [repeat split; auto|split; [|auto]]].
      - unfold decode. lsimpl. cbn [c_stick]. rewrite upd_same, !upd_other by neq. reflexivity.
      - split; [cbn; drop_ne; lia|]. split; [|split; [|split]]; auto.
        intros l Hl Hlt. lsimpl. apply NotOwn in Hl; destruct Hl as (Y1 & Y2 & Y3 & Y4 & Y5 & Y6 & Y7). rewrite !upd_other by neq. auto. }
    destruct (String.eqb_spec a "ret_coefs") as [->|Hne].
    + change (memS "ret_coefs" ["stick_coef"; "ret_coefs"]) with true. cbn [negb].
      destruct (type_in v (rp_attr_types "ret_coefs")) eqn:T; cbn [negb andb].
      2: { cbn [fst]. destruct (zget (sp_id s) (c_ret (decode h o))), v; cbn [andb]; (split; [reflexivity|exact Same]). }
      destruct v as [x|d|].
      * cbn [fst]. destruct (zget (sp_id s) (c_ret (decode h o))); (split; [reflexivity|exact Same]).
      * destruct (subsetS (akeys d) (name_pool (decode h o))) eqn:Sb; cbn [negb andb].
        2: { cbn [fst]. destruct (zget (sp_id s) (c_ret (decode h o))); (split; [reflexivity|exact Same]). }
        destruct (mapM _ d) as [d'|e] eqn:M; cbn [is_ok fst].
        2: { destruct (zget (sp_id s) (c_ret (decode h o))); (split; [reflexivity|exact Same]). }
        cbn [c_ret with_ret]. rewrite (aget_aset_same Z.eqb Zeqb_spec).
        assert (Fresh : ~ In (next h) (map snd (m_ret h (l_ret o)))).
        { intros X. assert (next h < next h)%nat by (apply LTD; exact X). drop_ne; lia. }
        unfold hset_ret. split; [|split; [|split; [|auto]]].
        -- unfold decode at 1, with_ret. lsimpl. rewrite upd_same.
           cbn [decode c_kind c_species c_reactions c_xml c_en c_prot c_adprot c_enr c_stick c_ret c_arrh]. f_equal.
           change (deref (new_dict d' h) (zset (sp_id s) (next h) (m_ret h (l_ret o))) =
                   zset (sp_id s) d' (deref h (m_ret h (l_ret o)))).
           rewrite (deref_zset h (sp_id s) (next h) d') by exact Fresh. f_equal.
           apply deref_ext. intros k Hk. cbn. apply upd_other. intros ->. contradiction.
        -- split; [exact N1|]. split.
           ++ unfold dlocs. lsimpl. rewrite upd_same. apply NoDup_zset_snd; assumption.
           ++ intros l Hl. apply in_app_iff in Hl. lsimpl. destruct Hl as [Hl|Hl]; [apply LTL in Hl; drop_ne; lia|].
              unfold dlocs in Hl. cbn in Hl. rewrite upd_same in Hl. apply zset_snd_In in Hl.
              destruct Hl as [->|Hl]; [drop_ne; lia|]. apply LTD in Hl. drop_ne; lia.
        -- split; [cbn; drop_ne; lia|]. split; [|split; [|split]]; auto.
           ++ intros l Hl Hlt. lsimpl. apply NotOwn in Hl; destruct Hl as (Y1 & Y2 & Y3 & Y4 & Y5 & Y6 & Y7). rewrite !upd_other by neq. auto.
           ++ intros l Hl Hlt. lsimpl. apply upd_other. drop_ne; lia.
           ++ intros l Hl. unfold dlocs in Hl. cbn in Hl. rewrite upd_same in Hl. apply zset_snd_In in Hl.
              destruct Hl as [->|Hl]; [right; drop_ne; lia|left; exact Hl].
      * cbn [fst]. destruct (zget (sp_id s) (c_ret (decode h o))); (split; [reflexivity|exact Same]).
    + destruct (negb (memS a ["stick_coef"; "ret_coefs"])); cbn [fst]; [exact Idem|].
      destruct (negb (type_in v (rp_attr_types a))); cbn [fst]; [exact Idem|].
      destruct v as [x|d|]; cbn [fst]; try exact Idem.
      split; [|split; [repeat split; auto|split; [|auto]]].
      * unfold decode at 1, with_stick. lsimpl. cbn [decode c_kind c_species c_reactions c_xml c_en c_prot c_adprot c_enr c_stick c_ret c_arrh with_stick].
        rewrite upd_same, !upd_other by neq. reflexivity.
      * split; [cbn; drop_ne; lia|]. split; [|split; [|split]]; auto.
        intros l Hl Hlt. lsimpl. apply NotOwn in Hl; destruct Hl as (Y1 & Y2 & Y3 & Y4 & Y5 & Y6 & Y7). rewrite !upd_other by neq. auto.
  - (* reset ad-hoc species attributes *)
    unfold reset_adhoc_species. set (n := next h).
    destruct (String.eqb a "all"); [|destruct (String.eqb a "stick_coef"); [|destruct (String.eqb a "ret_coefs")]].
    + cbn [fst]. split; [|split; [|split; [|auto]]].
      * unfold decode, with_ret, with_stick. lsimpl. cbn [c_kind c_species c_reactions c_xml c_en c_prot c_adprot c_enr c_stick c_ret c_arrh].
        fold n. repeat (rewrite upd_same || rewrite upd_other by neq). reflexivity.
      * split; [|split].
        -- unfold locs. lsimpl. apply NoDup7; repeat split; neq.
        -- unfold dlocs. lsimpl. fold n. rewrite upd_same. constructor.
        -- intros l Hl. apply in_app_iff in Hl. unfold dlocs in Hl. lsimpl. fold n. cbn in Hl. fold n in Hl. rewrite upd_same in Hl. cbn in Hl. spl Hl; drop_ne; lia.
      * split; [cbn; drop_ne; lia|]. split; [|split; [|split]]; auto.
        -- intros l Hl Hlt. lsimpl. apply NotOwn in Hl; destruct Hl as (Y1 & Y2 & Y3 & Y4 & Y5 & Y6 & Y7). fold n in Hlt |- *. rewrite !upd_other by neq. auto.
        -- intros l Hl. unfold locs in Hl. cbn in Hl. fold n in Hl. rewrite Own; spl Hl; drop_ne; lia.
        -- intros l Hl. unfold dlocs in Hl. cbn in Hl. fold n in Hl. rewrite upd_same in Hl. destruct Hl.
    + cbn [fst]. split; [|split; [|split; [|auto]]].
      * unfold decode, with_stick. lsimpl. cbn [c_kind c_species c_reactions c_xml c_en c_prot c_adprot c_enr c_stick c_ret c_arrh].
        fold n. repeat (rewrite upd_same || rewrite upd_other by neq). reflexivity.
      * split; [|split].
        -- unfold locs. lsimpl. apply NoDup7; repeat split; neq.
        -- exact N2.
        -- intros l Hl. apply in_app_iff in Hl. destruct Hl as [Hl|Hl].
           ++ unfold locs in Hl. cbn in Hl. lsimpl. fold n in Hl |- *. spl Hl; drop_ne; lia.
           ++ assert (l < next h)%nat by (apply LTD; exact Hl). lsimpl. subst n; drop_ne; lia.
      * split; [cbn; drop_ne; lia|]. split; [|split; [|split]]; auto.
        -- intros l Hl Hlt. lsimpl. apply NotOwn in Hl; destruct Hl as (Y1 & Y2 & Y3 & Y4 & Y5 & Y6 & Y7). fold n in Hlt |- *. rewrite !upd_other by neq. auto.
        -- intros l Hl. unfold locs in Hl. cbn in Hl. fold n in Hl. rewrite Own; spl Hl; drop_ne; lia.
    + cbn [fst]. split; [|split; [|split; [|auto]]].
      * unfold decode, with_ret. lsimpl. cbn [c_kind c_species c_reactions c_xml c_en c_prot c_adprot c_enr c_stick c_ret c_arrh].
        fold n. repeat (rewrite upd_same || rewrite upd_other by neq). reflexivity.
      * split; [|split].
        -- unfold locs. lsimpl. apply NoDup7; repeat split; neq.
        -- unfold dlocs. lsimpl. fold n. rewrite upd_same. constructor.
        -- intros l Hl. apply in_app_iff in Hl. unfold dlocs in Hl. lsimpl. fold n. cbn in Hl. fold n in Hl. rewrite upd_same in Hl. cbn in Hl. spl Hl; drop_ne; lia.
      * split; [cbn; drop_ne; lia|]. split; [|split; [|split]]; auto.
        -- intros l Hl Hlt. lsimpl. apply NotOwn in Hl; destruct Hl as (Y1 & Y2 & Y3 & Y4 & Y5 & Y6 & Y7). fold n in Hlt |- *. rewrite !upd_other by neq. auto.
        -- intros l Hl. unfold locs in Hl. cbn in Hl. fold n in Hl. rewrite Own; spl Hl; drop_ne; lia.
        -- intros l Hl. unfold dlocs in Hl. cbn in Hl. fold n in Hl. rewrite upd_same in Hl. destruct Hl.
    + cbn [fst]. split; [reflexivity|exact Same].
  - (* set ad-hoc reaction attribute *)
    destruct (set_rx_cases (decode h o) a i v) as [(e & ->)|(x & _ & _ & _ & ->)]; cbn [fst].
    + split; [|split; [repeat split; auto|split; [|auto]]].
      * unfold decode. lsimpl. cbn [c_arrh]. rewrite upd_same, !upd_other by neq. reflexivity.
      * split; [cbn; drop_ne; lia|]. split; [|split; [|split]]; auto.
        intros l Hl Hlt. lsimpl. apply NotOwn in Hl; destruct Hl as (Y1 & Y2 & Y3 & Y4 & Y5 & Y6 & Y7). rewrite !upd_other by neq. auto.
    + split; [|split; [repeat split; auto|split; [|auto]]].
      * unfold decode at 1, with_arrh. lsimpl. cbn [decode c_kind c_species c_reactions c_xml c_en c_prot c_adprot c_enr c_stick c_ret c_arrh with_arrh].
        rewrite upd_same, !upd_other by neq. reflexivity.
      * split; [cbn; drop_ne; lia|]. split; [|split; [|split]]; auto.
        intros l Hl Hlt. lsimpl. apply NotOwn in Hl; destruct Hl as (Y1 & Y2 & Y3 & Y4 & Y5 & Y6 & Y7). rewrite !upd_other by neq. auto.
  - (* reset ad-hoc reaction attributes *)
    unfold reset_adhoc_reactions. set (n := next h).
    destruct (String.eqb a "all" || String.eqb a "arrh_a"); cbn [fst]; [|split; [reflexivity|exact Same]].
    split; [|split; [|split; [|auto]]].
    + unfold decode, with_arrh. lsimpl. cbn [c_kind c_species c_reactions c_xml c_en c_prot c_adprot c_enr c_stick c_ret c_arrh].
      fold n. repeat (rewrite upd_same || rewrite upd_other by neq). reflexivity.
    + split; [|split].
      * unfold locs. lsimpl. apply NoDup7; repeat split; neq.
      * exact N2.
      * intros l Hl. apply in_app_iff in Hl. destruct Hl as [Hl|Hl].
        -- unfold locs in Hl. cbn in Hl. lsimpl. fold n in Hl |- *. spl Hl; drop_ne; lia.
        -- assert (l < next h)%nat by (apply LTD; exact Hl). lsimpl. subst n; drop_ne; lia.
    + split; [cbn; drop_ne; lia|]. split; [|split; [|split]]; auto.
      * intros l Hl Hlt. lsimpl. apply NotOwn in Hl; destruct Hl as (Y1 & Y2 & Y3 & Y4 & Y5 & Y6 & Y7). fold n in Hlt |- *. rewrite !upd_other by neq. auto.
      * intros l Hl. unfold locs in Hl. cbn in Hl. fold n in Hl. rewrite Own; spl Hl; drop_ne; lia.
Qed.

