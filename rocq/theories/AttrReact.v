(** The table of attributes of reactions. *)
From Coq Require Import Permutation Sorted.
From Verif Require Import Base BaseLemmas Species Reactions Chemistry ChemSpec ChemDisable ChemInv ChemHist ChemLoad ChemGetters
  MolSpec SpeciesProofs XmlProofs XmlReact Views ConserveSpec Latex Classification ClassSpec ClassProofs ClassSort ClassOrder
  AttrTable AttrSpec AttrColor AttrSpecies AttrLayout.
Open Scope Z_scope.

Lemma view_rx_parts E r x : view_reaction E r = Ok x ->
  rx_id x = r_id r /\ mapM (view_rp E) (r_lhs r) = Ok (rx_lhs x) /\ mapM (view_rp E) (r_rhs r) = Ok (rx_rhs x) /\
  get_arrh_bc E "arrh_b" r = Ok (rx_arrh_b x) /\ get_arrh_bc E "arrh_c" r = Ok (rx_arrh_c x) /\
  get_rx_float E "el_en_loss" r = Ok (rx_el_en_loss x) /\ get_elastic r = Ok (rx_elastic x).
Proof.
  unfold view_reaction. intros H.
  do 9 (apply bindOk in H; let y := fresh "y" in let Ey := fresh "Ey" in destruct H as (y & Ey & H)).
  injection H as <-. cbn. auto 10.
Qed.

Lemma mapM_pick {A B} (f : A -> res B) l m a : mapM f l = Ok m -> In a l -> exists b, f a = Ok b /\ In b m.
Proof.
  intros H. apply mapM_Ok_inv in H. induction H as [|x y l m Hx F IH]; [easy|].
  intros [<-|Ha]; [exists y; auto using in_eq|]. destruct (IH Ha) as (b & ? & ?). exists b. split; [assumption|now right].
Qed.
Lemma mapM_back {A B} (f : A -> res B) l m b : mapM f l = Ok m -> In b m -> exists a, f a = Ok b /\ In a l.
Proof.
  intros H. apply mapM_Ok_inv in H. induction H as [|x y l m Hx F IH]; [easy|].
  intros [<-|Hb]; [exists x; auto using in_eq|]. destruct (IH Hb) as (a & ? & ?). exists a. split; [assumption|now right].
Qed.
Lemma mapM_proj {A B C} (f : A -> res B) (p : A -> C) (q : B -> C) l m :
  (forall a b, f a = Ok b -> q b = p a) -> mapM f l = Ok m -> map q m = map p l.
Proof.
  intros Hp H. apply mapM_Ok_inv in H. induction H as [|x y l m Hx F IH]; [reflexivity|]. cbn. now rewrite (Hp _ _ Hx), IH.
Qed.

Lemma cs_view_ids E o s : cs_view E o = Ok s -> cs_id s = rp_id o /\ cs_uid s = rp_uid o.
Proof. unfold cs_view. intros H. repeat (apply bindOk in H; destruct H as (? & _ & H)). now injection H as <-. Qed.
Lemma cr_view_parts E r x : cr_view E r = Ok x ->
  cr_id x = r_id r /\ mapM (cs_view E) (r_lhs r) = Ok (cr_lhs x) /\ mapM (cs_view E) (r_rhs r) = Ok (cr_rhs x).
Proof.
  unfold cr_view. intros H. do 4 (apply bindOk in H; let y := fresh "y" in let Ey := fresh "Ey" in destruct H as (y & Ey & H)).
  injection H as <-. cbn. auto.
Qed.

(** Every reaction has exactly one place in the classes. *)
Lemma expected_complete l : (forall r, In r l -> exists tc, classify r = Ok tc) ->
  Permutation (List.concat (map snd (filter (fun b => nonempty (snd b))
     (map (fun tc => (tc, filter (in_class tc) l)) scheme_pairs)))) l.
Proof.
  intros Hc. rewrite concat_filter_nonempty, map_map. cbn [snd].
  pose (f := fun r => match classify r with Ok p => p | Err _ => ("", "") end).
  replace (map (fun tc => filter (in_class tc) l) scheme_pairs)
    with (map (fun p => filter (fun a => pair_eqb (f a) p) l) scheme_pairs).
  - apply (filter_concat_perm f scheme_pairs l scheme_pairs_nodup).
    intros r Hx. destruct (Hc r Hx) as ([t c] & E). unfold f. rewrite E.
    destruct (classify_scheme _ _ _ E) as (cats & H1 & H2 & _). unfold scheme_pairs. apply in_flat_map.
    exists (t, cats). split; [exact H1|]. cbn [fst snd]. now apply in_map.
  - apply map_ext. intros p. apply filter_ext_in. intros r Hx. unfold f, in_class.
    destruct (Hc r Hx) as (tc & E). now rewrite E.
Qed.

(** Columns. *)
Lemma rcols_attr units ignored a : In (CAttr a) (rx_columns units ignored) <-> In a rx_attr_keys /\ ~ In a ignored.
Proof.
  unfold rx_columns. cbn [In]. rewrite in_flat_map. split.
  - intros [H|(b & Hb & Hk)]; [discriminate|]. apply filter_In in Hb. destruct Hb as [Hb Hm].
    destruct Hk as [Hk|Hk].
    + injection Hk as <-. split; [exact Hb|]. intros K. apply memS_In in K. rewrite K in Hm. discriminate.
    + destruct (units && shas b rx_default_units); [destruct Hk as [Hk|[]]; discriminate|destruct Hk].
  - intros [Ha Hn]. right. exists a. split; [|now left]. apply filter_In. split; [exact Ha|].
    destruct (memS a ignored) eqn:M; [|reflexivity]. apply memS_In in M. contradiction.
Qed.
Lemma rcols_unit units ignored a : In (CUnit a) (rx_columns units ignored) <->
  units = true /\ In a (akeys rx_default_units) /\ In a rx_attr_keys /\ ~ In a ignored.
Proof.
  unfold rx_columns. cbn [In]. rewrite in_flat_map. split.
  - intros [H|(b & Hb & Hk)]; [discriminate|]. apply filter_In in Hb. destruct Hb as [Hb Hm].
    destruct Hk as [Hk|Hk]; [discriminate|].
    destruct (units && shas b rx_default_units) eqn:Eu; [|destruct Hk]. destruct Hk as [Hk|[]]. injection Hk as <-.
    apply andb_prop in Eu. destruct Eu as [Eu Es]. apply shas_keys in Es. repeat split; auto.
    intros K. apply memS_In in K. rewrite K in Hm. discriminate.
  - intros (-> & Hd & Ha & Hn). right. exists a. split.
    + apply filter_In. split; [exact Ha|]. destruct (memS a ignored) eqn:M; [|reflexivity]. apply memS_In in M. contradiction.
    + right. apply shas_keys in Hd. rewrite Hd. now left.
Qed.
Lemma rcols_nodup units ignored : NoDup (rx_columns units ignored).
Proof.
  unfold rx_columns. constructor.
  { intros K. apply in_flat_map in K. destruct K as (b & _ & [K|K]); [discriminate|].
    destruct (units && shas b rx_default_units); [destruct K as [K|[]]; discriminate|destruct K]. }
  assert (N : NoDup (filter (fun a => negb (memS a ignored)) rx_attr_keys)).
  { apply NoDup_filter, nodupSb_NoDup. reflexivity. }
  induction N as [|a l Hn N IH]; [constructor|]. cbn [flat_map app].
  assert (X : forall k, In k (flat_map (fun a => CAttr a :: (if units && shas a rx_default_units then [CUnit a] else [])) l) ->
              k <> CAttr a /\ k <> CUnit a).
  { intros k Hk. apply in_flat_map in Hk. destruct Hk as (b & Hb & Hk). assert (a <> b) by (intros ->; contradiction).
    destruct Hk as [<-|Hk]; [split; congruence|].
    destruct (units && shas b rx_default_units); [destruct Hk as [<-|[]]; split; congruence|destruct Hk]. }
  constructor.
  - intros K. apply in_app_or in K. destruct K as [K|K]; [|now apply X in K].
    destruct (units && shas a rx_default_units); [destruct K as [K|[]]; discriminate|destruct K].
  - destruct (units && shas a rx_default_units); cbn [app]; [|exact IH]. constructor; [|exact IH].
    intros K. now apply X in K.
Qed.

Lemma header_ok units ignored : rx_header units ignored (rx_columns units ignored).
Proof.
  split; [apply rcols_nodup|]. split; [now left|]. split; [apply rcols_attr|apply rcols_unit].
Qed.

Lemma heading_cells units ignored x :
  In CString (map fst (heading (rx_columns units ignored) x)) /\
  map fst (heading (rx_columns units ignored) x) = rx_columns units ignored /\
  forall k v, In (k, v) (heading (rx_columns units ignored) x) -> (k = CString /\ v = CText x) \/ (k <> CString /\ v = CText "").
Proof.
  pose proof (rcols_nodup units ignored) as HN. assert (Q : exists ks, rx_columns units ignored = CString :: ks) by (eexists; reflexivity).
  destruct Q as (ks & Q). rewrite Q in *. clear Q. apply NoDup_cons_iff in HN. destruct HN as [Hn _].
  cbn [heading map fst]. rewrite map_map. cbn [fst]. rewrite map_id. split; [now left|]. split; [reflexivity|].
  intros k v [Q|Q]; [left; injection Q as <- <-; auto|]. apply in_map_iff in Q. destruct Q as (k' & Q & Hk). injection Q as <- <-.
  right. split; [intros ->; contradiction|reflexivity].
Qed.

Lemma paint_type_row E boxed c rxs i r row : paint_row E boxed c rxs (LType i, r) = Ok (LType i, row) -> row = paint_heading Yellow r.
Proof. unfold paint_row. cbn [fst snd]. intros H. now injection H as <-. Qed.
Lemma paint_cat_row E boxed c rxs i j r row : paint_row E boxed c rxs (LCat i j, r) = Ok (LCat i j, row) -> row = paint_heading Magenta r.
Proof. unfold paint_row. cbn [fst snd]. intros H. now injection H as <-. Qed.

Section Table.
  Variables (E : env) (boxed : bool) (objs : list rp) (rxs : list reaction) (c : chem) (disabled : bool).
  Hypothesis RE : reachable E c.
  Hypothesis OB : objects E objs rxs c.
  Hypothesis HI : forall r, In r rxs -> rx_history E r.
  Let I : Inv c := reachable_Inv E c RE.

  Lemma robject_row r : In r (rx_objects rxs c disabled) ->
    exists x, In r rxs /\ view_reaction E r = Ok x /\ In x (get_reactions c disabled).
  Proof using OB.
    unfold rx_objects. intros H. apply in_map_iff in H. destruct H as ([r' x] & <- & H).
    apply filter_In in H. destruct H as [H M]. cbn [fst snd] in *.
    destruct (combine_mapM _ _ _ _ _ (proj1 (proj2 OB)) H) as (H1 & H2 & H3).
    exists x. split; [exact H1|]. split; [exact H3|]. unfold get_reactions. apply filter_In. now split.
  Qed.
  Lemma robject_ids : map r_id (rx_objects rxs c disabled) = map rx_id (get_reactions c disabled).
  Proof using OB.
    unfold rx_objects. apply (combine_filter_ids (view_reaction E) r_id rx_id (fun x => disabled || c_enr c (rx_id x))); [|exact (proj1 (proj2 OB))].
    intros a b H. now apply view_rx_parts in H.
  Qed.
  Lemma robject_nodup : NoDup (map r_id (rx_objects rxs c disabled)).
  Proof using OB RE. rewrite robject_ids. unfold get_reactions. apply NoDup_map_filter, (i_wf c I). Qed.

  Lemma by_reaction_get {A} (f : rx -> A) x : In x (get_reactions c disabled) ->
    zget (rx_id x) (by_reaction f c disabled) = Some (f x).
  Proof using RE.
    intros H. apply (In_aget Z.eqb Zeqb_spec).
    - change (NoDup (map fst (by_reaction f c disabled))). rewrite (proj1 (reaction_rows f c disabled)).
      unfold get_reactions. apply NoDup_map_filter, (i_wf c I).
    - unfold by_reaction. apply in_map_iff. now exists x.
  Qed.

  Lemma xtypes r k : In r rxs -> In k rx_attr_keys -> type_in (xattr r k) (rx_attr_types k) = true.
  Proof using HI.
    intros Hr Hk. destruct (history_accepts E r (HI r Hr) k Hk) as (u & _ & A). now apply accepts_type in A.
  Qed.
  Lemma xattr_scalar r k : In r rxs -> In k rx_attr_keys -> match xattr r k with VDict _ | VOther => False | _ => True end.
  Proof using HI.
    intros Hr Hk. pose proof (xtypes r k Hr Hk) as T. destruct (xattr r k) as [x|d|]; [exact Logic.I| |];
      cbn in Hk; repeat (destruct Hk as [<-|Hk]; [discriminate T|]); contradiction.
  Qed.
  Lemma xtext r k : In r rxs -> In k ["doi"; "comments"] ->
    match xstr r k with Some s => xattr r k = VStr s | None => xattr r k = VNone end.
  Proof using HI.
    intros Hr Hk. assert (Hk' : In k rx_attr_keys) by (cbn in Hk |- *; tauto). pose proof (xtypes r k Hr Hk') as T.
    unfold xstr. cbn in Hk. destruct Hk as [<-|[<-|[]]];
      (destruct (xattr r _) as [[|b|z|f|f|s]|d|]; try discriminate T; reflexivity).
  Qed.

  Lemma rvalue_returns r k v : In r (rx_objects rxs c disabled) ->
    rx_value E c disabled r k = Ok v <-> rx_returns E c disabled r k v.
  Proof using OB RE HI.
    intros Ho. destruct (robject_row r Ho) as (x & Hin & Hv & Hx).
    destruct (view_rx_parts _ _ _ Hv) as (Vi & _ & _ & Vb & Vc & Vl & Ve).
    pose proof (fun A (f : rx -> A) => by_reaction_get f x Hx) as G. rewrite Vi in G.
    assert (Gg : forall A (f : rx -> A), at_id (by_reaction f c disabled) (r_id r) = Ok (f x))
      by (intros A f; unfold at_id; now rewrite G).
    split.
    - destruct k as [a|a|]; cbn [rx_value].
      3: { intros H. apply bindOk in H. destruct H as (u & Eu & H). injection H as <-. now constructor. }
      2: { intros H. apply bindOk in H. destruct H as (u & Eu & H). injection H as <-. econstructor; [exact Eu|]. now destruct u. }
      repeat match goal with
             | |- (if String.eqb a ?x then _ else _) = Ok v -> _ =>
                 destruct (String.eqb_spec a x) as [->|_]
             end.
      + intros H. apply bindOk in H. destruct H as (l & El & H). apply bindOk in H. destruct H as (y & Ey & H). injection H as <-.
        unfold at_id in Ey. destruct (zget _ _) as [z|] eqn:Ez; [|discriminate]. injection Ey as ->.
        econstructor; [exact El|exact Ez|]. now destruct y.
      + rewrite Gg. intros H. injection H as <-. econstructor; [exact Vb|]. now destruct (rx_arrh_b x).
      + rewrite Gg. intros H. injection H as <-. econstructor; [exact Vc|]. now destruct (rx_arrh_c x).
      + rewrite Gg. intros H. injection H as <-. now constructor.
      + rewrite Gg. intros H. injection H as <-. now constructor.
      + intros H. apply bindOk in H. destruct H as (y & Ey & H). injection H as <-. now constructor.
      + intros H. apply bindOk in H. destruct H as (y & Ey & H). injection H as <-. now constructor.
      + destruct (memS a ["qdb_r_id"; "qdb_ds_id"]) eqn:M1.
        * apply memS_In in M1. intros H. apply bindOk in H. destruct H as (y & Ey & H). injection H as <-.
          unfold xint in Ey. destruct (is_none (xattr r a)) eqn:En.
          -- injection Ey as <-. apply rr_id_none; [exact M1|]. now destruct (xattr r a) as [[]| |].
          -- apply bindOk in Ey. destruct Ey as (z & Ez & Ey). injection Ey as <-. now apply rr_id.
        * destruct (memS a ["doi"; "comments"]) eqn:M2.
          -- apply memS_In in M2. intros H. injection H as <-. pose proof (xtext r a Hin M2) as T.
             destruct (xstr r a); [now apply rr_text|now apply rr_text_none].
          -- destruct (String.eqb_spec a "latex") as [->|_]; [|discriminate].
             intros H. apply bindOk in H. destruct H as (y & Ey & H). injection H as <-. now constructor.
    - intros H. inversion H; subst; cbn [rx_value String.eqb Ascii.eqb Bool.eqb].
      + match goal with K : reaction_str r = _ |- _ => now rewrite K end.
      + match goal with K : get_reactions_arrh_a _ _ _ = _ |- _ => rewrite K end. cbn [bind]. unfold at_id.
        match goal with K : zget _ _ = _ |- _ => rewrite K end. cbn [bind].
        match goal with K : adhoc_cell ?y v |- _ => destruct y; cbn in K; now subst end.
      + rewrite Gg. cbn [bind]. match goal with K : get_arrh_bc _ _ _ = Ok ?y, C : number_cell ?y _ |- _ => rewrite Vb in K; injection K as <-; destruct (rx_arrh_b x); cbn in C; now subst end.
      + rewrite Gg. cbn [bind]. match goal with K : get_arrh_bc _ _ _ = Ok ?y, C : number_cell ?y _ |- _ => rewrite Vc in K; injection K as <-; destruct (rx_arrh_c x); cbn in C; now subst end.
      + rewrite Gg. cbn [bind]. congruence.
      + rewrite Gg. cbn [bind]. congruence.
      + match goal with K : get_rx_float _ _ _ = _ |- _ => now rewrite K end.
      + match goal with K : get_special_number _ _ = _ |- _ => now rewrite K end.
      + match goal with K : In a _ |- _ => destruct K as [<-|[<-|[]]] end; cbn [rx_value String.eqb Ascii.eqb Bool.eqb memS existsb orb];
          unfold xint; match goal with K : xattr r _ = VNone |- _ => now rewrite K end.
      + match goal with K : In a _ |- _ => destruct K as [<-|[<-|[]]] end; cbn [rx_value String.eqb Ascii.eqb Bool.eqb memS existsb orb];
          unfold xint; match goal with K : py_int_v _ ?y = _ |- _ => destruct (is_none y) eqn:En; [destruct y as [[]| |]; discriminate|now rewrite K] end.
      + match goal with K : In a _ |- _ => destruct K as [<-|[<-|[]]] end; cbn [rx_value String.eqb Ascii.eqb Bool.eqb memS existsb orb];
          unfold xstr; match goal with K : xattr r _ = _ |- _ => now rewrite K end.
      + match goal with K : In a _ |- _ => destruct K as [<-|[<-|[]]] end; cbn [rx_value String.eqb Ascii.eqb Bool.eqb memS existsb orb];
          unfold xstr; match goal with K : xattr r _ = _ |- _ => now rewrite K end.
      + match goal with K : rx_get_latex _ = _ |- _ => now rewrite K end.
      + match goal with K : rx_get_unit _ _ = _ |- _ => rewrite K end. cbn [bind].
        match goal with K : text_cell ?y v |- _ => destruct y; cbn in K; now subst end.
  Qed.

  (** The frame before sorting. *)
  Lemma frame_ok cols f :
    mapM (fun r => let* row := mapM (fun k => let* v := rx_value E c disabled r k in Ok (k, v)) cols in
                   Ok (LRx (r_id r), row)) (rx_objects rxs c disabled) = Ok f ->
    map fst f = map (fun r => LRx (r_id r)) (rx_objects rxs c disabled) /\
    forall l row, In (l, row) f -> exists r, In r (rx_objects rxs c disabled) /\ l = LRx (r_id r) /\ map fst row = cols /\
      forall k v, In (k, v) row -> rx_value E c disabled r k = Ok v.
  Proof using.
    intros H. apply mapM_Ok_inv in H. induction H as [|r y rs f Hx F [IH1 IH2]]; [easy|].
    apply bindOk in Hx. destruct Hx as (row & Er & Hx). injection Hx as <-. split; [cbn; now rewrite IH1|].
    intros l row' [Hin|Hin].
    - injection Hin as <- <-. exists r. split; [now left|]. split; [reflexivity|]. clear -Er.
      apply mapM_Ok_inv in Er. induction Er as [|k y cols row Hk F [IH1 IH2]]; [easy|].
      apply bindOk in Hk. destruct Hk as (v & Ev & Hk). injection Hk as <-. split; [cbn; now rewrite IH1|].
      intros k' v' [Hin|Hin]; [injection Hin as <- <-; exact Ev|auto].
    - destruct (IH2 _ _ Hin) as (r' & Hr' & R). exists r'. split; [now right|exact R].
  Qed.

  (** The species of the reactions shown are known to the classifier. *)
  Lemma views_known css crs :
    mapM (cs_view E) (sp_objects objs c disabled true) = Ok css ->
    mapM (cr_view E) (rx_objects rxs c disabled) = Ok crs ->
    NoDup (map cr_id crs) /\ species_known css crs.
  Proof using OB RE.
    intros HS HR. split.
    { rewrite (mapM_proj _ r_id cr_id _ _ (fun a b H => proj1 (cr_view_parts E a b H)) HR). apply robject_nodup. }
    split; [|split].
    - rewrite (mapM_proj _ rp_id cs_id _ _ (fun a b H => proj1 (cs_view_ids E a b H)) HS).
      apply (object_ids_nodup E objs rxs c disabled true RE OB).
    - rewrite (mapM_proj _ rp_uid cs_uid _ _ (fun a b H => proj2 (cs_view_ids E a b H)) HS).
      unfold sp_objects. rewrite map_map.
      assert (U : map (fun p : rp * sp => rp_uid (fst p)) (filter (fun p => sp_mask c disabled true true (snd p)) (combine objs (c_species c))) =
                  map sp_uid (filter (sp_mask c disabled true true) (c_species c))).
      { pose proof (proj1 OB) as H. apply mapM_Ok_inv in H. clear -H. induction H as [|o s l m Hx F IH]; [reflexivity|].
        cbn [combine filter snd]. destruct (sp_mask c disabled true true s); [|exact IH]. cbn [map fst]. rewrite IH. f_equal.
        unfold view_rp in Hx. repeat (apply bindOk in Hx; destruct Hx as (? & _ & Hx)). now injection Hx as <-. }
      rewrite U. apply NoDup_map_filter, (i_wf c I).
    - intros r s Hr Hs. destruct (mapM_back _ _ _ _ HR Hr) as (x & Ex & Hx).
      destruct (robject_row x Hx) as (v & Hxr & Hv & Hsel). destruct (view_rx_parts _ _ _ Hv) as (_ & Vl & Vr & _).
      destruct (cr_view_parts _ _ _ Ex) as (_ & Cl & Cr).
      assert (P : exists p t, In p (r_lhs x ++ r_rhs x) /\ cs_view E p = Ok s /\ view_rp E p = Ok t /\ In t (rx_lhs v ++ rx_rhs v)).
      { apply in_app_or in Hs. destruct Hs as [Hs|Hs];
          [destruct (mapM_back _ _ _ _ Cl Hs) as (p & Ep & Hp); destruct (mapM_pick _ _ _ _ Vl Hp) as (t & Et & Ht)
          |destruct (mapM_back _ _ _ _ Cr Hs) as (p & Ep & Hp); destruct (mapM_pick _ _ _ _ Vr Hp) as (t & Et & Ht)];
          exists p, t; (split; [apply in_or_app; auto|]; split; [exact Ep|]; split; [exact Et|apply in_or_app; auto]). }
      destruct P as (p & t & Hp & Ep & Et & Ht).
      apply selected_r_iff in Hsel. destruct Hsel as [Hvr Hen].
      assert (TP : takes_part t v) by (unfold takes_part; apply in_app_or in Ht; tauto).
      assert (Htc : In t (c_species c)) by now apply (wf_inst c (i_wf c I) v).
      destruct (mapM_back _ _ _ _ (proj1 OB) Htc) as (o & Eo & Ho).
      assert (p = o).
      { apply (proj2 (proj2 OB)); [right; now exists x|now left|].
        clear -Et Eo. unfold view_rp in Et, Eo.
        repeat (apply bindOk in Et; destruct Et as (? & _ & Et)). repeat (apply bindOk in Eo; destruct Eo as (? & _ & Eo)).
        injection Et as <-. now injection Eo as <-. }
      subst p.
      assert (HO : In o (sp_objects objs c disabled true)).
      { unfold sp_objects. apply in_map_iff. exists (o, t). split; [reflexivity|]. apply filter_In. split.
        - pose proof (proj1 OB) as H. apply mapM_Ok_inv in H. clear -H Eo Ho. induction H as [|o' s' l m Hx F IH]; [destruct Ho|].
          cbn [combine In]. destruct Ho as [->|Ho]; [left; congruence|right; auto].
        - cbn [snd]. unfold sp_mask. cbn [orb negb]. rewrite !andb_true_r. destruct disabled; [reflexivity|].
          destruct Hen as [Hen|Hen]; [discriminate|]. apply (proj1 (i_closed c I) v t Hvr Hen TP). }
      destruct (mapM_pick _ _ _ _ HS HO) as (s' & Es' & Hs'). rewrite Ep in Es'. injection Es' as <-. exact Hs'.
  Qed.

  Lemma orders_shown sort css crs species order :
    mapM (cs_view E) (sp_objects objs c disabled true) = Ok css ->
    mapM (cr_view E) (rx_objects rxs c disabled) = Ok crs ->
    orders css crs sort species order -> shown_order E objs rxs c disabled sort species order.
  Proof using OB.
    intros HS HR (P1 & P2 & S).
    pose proof (mapM_proj _ rp_id cs_id _ _ (fun a b H => proj1 (cs_view_ids E a b H)) HS) as I1.
    rewrite (object_ids E objs rxs c disabled true OB) in I1.
    pose proof (mapM_proj _ r_id cr_id _ _ (fun a b H => proj1 (cr_view_parts E a b H)) HR) as I2. rewrite robject_ids in I2.
    split; [rewrite <- I1; now apply Permutation_map|]. split.
    { intros s Hs. apply (Permutation_in s P1) in Hs. destruct (mapM_back _ _ _ _ HS Hs) as (o & Eo & Ho). exists o. split; [|exact Eo].
      now destruct (object_row E objs rxs c disabled true OB o Ho) as (? & ? & _). }
    split; [rewrite <- I2; now apply Permutation_map|]. split.
    { intros r Hr. apply (Permutation_in r P2) in Hr. destruct (mapM_back _ _ _ _ HR Hr) as (x & Ex & Hx). exists x. split; [|exact Ex].
      now destruct (robject_row x Hx) as (? & ? & _). }
    destruct sort; [|destruct S as [-> ->]; auto]. destruct S as (k & Ek & -> & So). split; [|exact So].
    intros SO. destruct (sort_species_spec (clf_new css crs)) as (k' & Ek' & _ & SS & _).
    { intros s Hs. apply SO. cbn in Hs. now apply (Permutation_in s (Permutation_sym P1)). }
    rewrite Ek in Ek'. injection Ek' as <-. exact SS.
  Qed.

  (** The table is a painted arrangement of the frame. *)
  Lemma painted pretty sort classify units ignored t :
    reactions_attributes E boxed objs rxs c disabled pretty sort classify units ignored = Ok t ->
    exists f g,
      map fst f = map (fun r => LRx (r_id r)) (rx_objects rxs c disabled) /\
      (forall l row, In (l, row) f -> exists r, In r (rx_objects rxs c disabled) /\ l = LRx (r_id r) /\
         map fst row = rx_columns units ignored /\ forall k v, In (k, v) row -> rx_value E c disabled r k = Ok v) /\
      (if sort || classify
       then exists css crs, mapM (cs_view E) (sp_objects objs c disabled true) = Ok css /\
            mapM (cr_view E) (rx_objects rxs c disabled) = Ok crs /\
            arrange (rx_columns units ignored) css crs sort classify f = Ok g
       else g = f) /\
      map fst t = map fst g /\
      forall l row, In (l, row) t -> exists r, In (l, r) g /\
        (if pretty then paint_row E boxed c (rx_objects rxs c disabled) (l, r) = Ok (l, row) else row = plain r).
  Proof using.
    unfold reactions_attributes. intros H. apply bindOk in H. destruct H as (f & Hf & H).
    apply bindOk in H. destruct H as (g & Hg & H). apply frame_ok in Hf. destruct Hf as [F1 F2].
    exists f, g. split; [exact F1|]. split; [exact F2|]. split.
    { destruct (sort || classify); [|congruence]. apply bindOk in Hg. destruct Hg as (css & ES & Hg).
      apply bindOk in Hg. destruct Hg as (crs & ER & Hg). exists css, crs. auto. }
    destruct pretty.
    - apply mapM_Ok_inv in H. clear -H. induction H as [|[l r] y g t Hx F [IH1 IH2]]; [easy|].
      assert (L : fst y = l).
      { unfold paint_row in Hx. cbn [fst snd] in Hx. destruct l; [|now injection Hx as <-|now injection Hx as <-].
        destruct (find _ _); [|discriminate]. apply bindOk in Hx. destruct Hx as (row & _ & Hx). now injection Hx as <-. }
      split; [cbn; now rewrite IH1, L|]. intros l' row' [Hin|Hin].
      + subst y. cbn [fst] in L. subst l'. exists r. split; [now left|exact Hx].
      + destruct (IH2 _ _ Hin) as (r' & ? & ?). exists r'. split; [now right|assumption].
    - injection H as <-. split; [now rewrite map_map|]. intros l row Hin. apply in_map_iff in Hin.
      destruct Hin as ([l' r] & Q & Hin). cbn in Q. injection Q as <- <-. exists r. auto.
  Qed.

  Lemma text_row s row : In CString (map fst row) -> NoDup (map fst row) ->
    map fst (aset col_eqb CString (CText s) row) = map fst row /\
    forall k v, In (k, v) (aset col_eqb CString (CText s) row) ->
      (k = CString /\ v = CText s) \/ (k <> CString /\ In (k, v) row).
  Proof using.
    intros Hc Hn. pose proof (akeys_aset_in col_eqb col_eqb_spec CString (CText s) row Hc) as K. split; [exact K|].
    intros k v Hin. assert (Hg : aget col_eqb k (aset col_eqb CString (CText s) row) = Some v).
    { apply (In_aget col_eqb col_eqb_spec); [|exact Hin]. rewrite K. exact Hn. }
    destruct (col_eqb k CString) eqn:Ek.
    - apply col_eqb_spec in Ek. subst k. rewrite (aget_aset_same col_eqb col_eqb_spec) in Hg. injection Hg as <-. now left.
    - assert (k <> CString) by (intros Q; apply col_eqb_spec in Q; congruence).
      rewrite (aget_aset_other col_eqb col_eqb_spec) in Hg by assumption. right. split; [assumption|].
      now apply (aget_In col_eqb col_eqb_spec).
  Qed.

  (** Rows of reactions of the arranged frame. *)
  Lemma arranged_rows units ignored (sort classify : bool) f g i row :
    map fst f = map (fun r => LRx (r_id r)) (rx_objects rxs c disabled) ->
    (forall l row, In (l, row) f -> exists r, In r (rx_objects rxs c disabled) /\ l = LRx (r_id r) /\
       map fst row = rx_columns units ignored /\ forall k v, In (k, v) row -> rx_value E c disabled r k = Ok v) ->
    (if sort || classify
     then exists css crs, mapM (cs_view E) (sp_objects objs c disabled true) = Ok css /\
          mapM (cr_view E) (rx_objects rxs c disabled) = Ok crs /\
          arrange (rx_columns units ignored) css crs sort classify f = Ok g
     else g = f) ->
    In (LRx i, row) g ->
    exists r, In r (rx_objects rxs c disabled) /\ i = r_id r /\ map fst row = rx_columns units ignored /\
      forall k v, In (k, v) row ->
        (k <> CString \/ classify = false -> rx_value E c disabled r k = Ok v) /\
        (k = CString -> exists s, v = CText s).
  Proof using OB RE.
    intros F1 F2 G Hin.
    assert (P : In (LRx i, row) f -> exists r, In r (rx_objects rxs c disabled) /\ i = r_id r /\ map fst row = rx_columns units ignored /\
      forall k v, In (k, v) row -> (k <> CString \/ classify = false -> rx_value E c disabled r k = Ok v) /\
        (k = CString -> exists s, v = CText s)).
    { intros H. destruct (F2 _ _ H) as (r & Hr & Q & C & V). injection Q as ->. exists r. split; [exact Hr|]. split; [reflexivity|].
      split; [exact C|]. intros k v Hk. split; [intros _; now apply V|]. intros ->. apply V in Hk. cbn in Hk.
      apply bindOk in Hk. destruct Hk as (s & _ & Hk). injection Hk as <-. eauto. }
    destruct (sort || classify) eqn:SC.
    2: { subst g. now apply P. }
    destruct G as (css & crs & ES & ER & G). destruct (views_known css crs ES ER) as [ND KN].
    assert (FK : map fst f = map (fun r => LRx (cr_id r)) crs).
    { rewrite F1. change (fun r => LRx (r_id r)) with (fun r => (fun z => LRx z) (r_id r)).
      change (fun r => LRx (cr_id r)) with (fun r => (fun z => LRx z) (cr_id r)).
      rewrite <- (map_map r_id (fun z => LRx z)), <- (map_map cr_id (fun z => LRx z)). f_equal.
      symmetry. apply (mapM_proj _ r_id cr_id _ _ (fun a b H => proj1 (cr_view_parts E a b H)) ER). }
    destruct classify eqn:Ecl.
    - destruct (arrange_classified _ _ _ _ _ ND KN FK g G) as (d & species & order & W & _ & _ & _ & _ & _ & _ & R).
      destruct (R i row Hin) as (r0 & row0 & s & _ & _ & Hf & _ & ->).
      destruct (F2 _ _ Hf) as (r & Hr & Q & C & V). injection Q as ->.
      destruct (header_ok units ignored) as (HN & HS & _).
      destruct (text_row s row0) as [T1 T2]; [now rewrite C|now rewrite C|].
      exists r. split; [exact Hr|]. split; [reflexivity|]. split; [congruence|].
      intros k v Hk. destruct (T2 k v Hk) as [[-> ->]|[Hn Hk']].
      + split; [intros [?|?]; [contradiction|discriminate]|eauto].
      + split; [intros _; now apply V|intros; contradiction].
    - destruct (arrange_plain _ _ _ _ _ ND KN FK g G) as (_ & _ & R). apply P. now apply R.
  Qed.

  Lemma find_reaction r : In r (rx_objects rxs c disabled) ->
    find (fun q => r_id q =? r_id r) (rx_objects rxs c disabled) = Some r.
  Proof using OB RE.
    intros Hr. destruct (find _ _) as [q|] eqn:Ef.
    - apply find_some in Ef. destruct Ef as [Hq Q]. apply Z.eqb_eq in Q. f_equal.
      apply (NoDup_map_inj r_id (rx_objects rxs c disabled)); auto. apply robject_nodup.
    - exfalso. apply (find_none _ _ Ef) in Hr. now rewrite Z.eqb_refl in Hr.
  Qed.

  (** The cells of reactions. *)
  Theorem rx_cells sort classify units ignored t :
    reactions_attributes E boxed objs rxs c disabled true sort classify units ignored = Ok t ->
    forall i row, In (LRx i, row) t ->
      exists r, In r rxs /\ r_id r = i /\ rx_header units ignored (map fst row) /\
        forall k cl w, In (k, (cl, w)) row ->
          (cl = Red <-> c_enr c i = false) /\ (cl = Red \/ cl = Blue \/ cl = Reset) /\
          (k = CString -> cl <> Blue) /\
          (k <> CString \/ classify = false ->
           exists v, rx_returns E c disabled r k v /\ shows v w /\
             (cl = Blue <-> c_enr c i = true /\
                match k with
                | CAttr a => ~ says_same_rx E boxed (xattr r a) v
                | CUnit a => exists u, sget a (r_units r) = Some u /\ ~ text_cell u v
                | CString => False
                end)).
  Proof using OB RE HI.
    intros H i row Hin. destruct (painted true sort classify units ignored t H) as (f & g & F1 & F2 & G & _ & P).
    destruct (P _ _ Hin) as (row0 & Hg & Hp).
    destruct (arranged_rows units ignored sort classify f g i row0 F1 F2 G Hg) as (r & Hr & -> & C & V).
    destruct (robject_row r Hr) as (x & Hrx & _). exists r. split; [exact Hrx|]. split; [reflexivity|].
    unfold paint_row in Hp. cbn [fst snd] in Hp. rewrite (find_reaction r Hr) in Hp.
    apply bindOk in Hp. destruct Hp as (row1 & Hp & Q). injection Q as ->.
    destruct (paint_cells _ _ _ Hp) as [P1 P2]. rewrite P1, C. split; [apply header_ok|].
    intros k cl w Hk. destruct (P2 _ _ _ Hk) as (v & Hv & Hc & ->). destruct (V k v Hv) as [V1 V2].
    unfold rx_color in Hc. destruct (c_enr c (r_id r)) eqn:Een; cbn [negb] in Hc.
    2: { injection Hc as <-. split; [tauto|]. split; [auto|]. split; [discriminate|]. intros K. exists v.
         split; [apply rvalue_returns; auto|]. split; [apply subst_shows|]. split; [discriminate|intros [? _]; discriminate]. }
    assert (KC : In k (rx_columns units ignored)).
    { rewrite <- C. apply in_map_iff. now exists (k, v). }
    destruct k as [a|a|].
    - apply bindOk in Hc. destruct Hc as (e & Ee & Hc). injection Hc as <-.
      apply rcols_attr in KC. destruct KC as [KC _].
      split; [destruct e; split; discriminate|]. split; [destruct e; auto|]. split; [discriminate|]. intros K. exists v.
      split; [apply rvalue_returns; auto|]. split; [apply subst_shows|].
      destruct (equal_rx_spec E boxed (xattr r a) v (xattr_scalar r a Hrx KC)) as [[Eq S]|[[Eq S]|(Eq & _)]]; rewrite Eq in Ee; [| |discriminate];
        injection Ee as <-.
      + split; [discriminate|intros [_ ?]; contradiction].
      + split; [auto|reflexivity].
    - unfold unit_color in Hc. destruct (sget a (r_units r)) as [u|] eqn:Eu; [|discriminate]. injection Hc as <-.
      assert (CL : exists b : bool, (match u, v with None, CNone => Reset | Some s, CText t => if String.eqb s t then Reset else Blue | _, _ => Blue end)
                   = (if b then Reset else Blue) /\ (b = true <-> text_cell u v)).
      { destruct u as [y|], v as [| | |z|]; cbn; try (exists false; split; [reflexivity|]; split; discriminate).
        - exists (String.eqb y z). split; [reflexivity|]. rewrite String.eqb_eq. split; congruence.
        - exists true. tauto. }
      destruct CL as (b & -> & TB). split; [destruct b; split; discriminate|]. split; [destruct b; auto|]. split; [discriminate|].
      intros K. exists v. split; [apply rvalue_returns; auto|]. split; [apply subst_shows|]. destruct b.
      + split; [discriminate|]. intros (_ & u' & Eu' & N). injection Eu' as <-. exfalso. now apply N, TB.
      + split; [|reflexivity]. intros _. split; [reflexivity|]. exists u. split; [reflexivity|]. intros N. apply TB in N. discriminate.
    - injection Hc as <-. split; [split; discriminate|]. split; [auto|]. split; [discriminate|]. intros K. exists v.
      split; [apply rvalue_returns; auto|]. split; [apply subst_shows|]. split; [discriminate|intros [_ []]].
  Qed.

  Theorem rx_plain sort classify units ignored t :
    reactions_attributes E boxed objs rxs c disabled false sort classify units ignored = Ok t ->
    forall i row, In (LRx i, row) t ->
      exists r, In r rxs /\ r_id r = i /\ rx_header units ignored (map fst row) /\
        forall k cl w, In (k, (cl, w)) row ->
          cl = Reset /\ (k <> CString \/ classify = false -> rx_returns E c disabled r k w).
  Proof using OB RE HI.
    intros H i row Hin. destruct (painted false sort classify units ignored t H) as (f & g & F1 & F2 & G & _ & P).
    destruct (P _ _ Hin) as (row0 & Hg & ->).
    destruct (arranged_rows units ignored sort classify f g i row0 F1 F2 G Hg) as (r & Hr & -> & C & V).
    destruct (robject_row r Hr) as (x & Hrx & _). exists r. split; [exact Hrx|]. split; [reflexivity|].
    destruct (plain_cells row0) as [P1 P2]. rewrite P1, C. split; [apply header_ok|].
    intros k cl w Hk. apply P2 in Hk. destruct Hk as [-> Hk]. split; [reflexivity|]. intros K.
    apply rvalue_returns; [exact Hr|]. now apply (V k w Hk).
  Qed.

  (** The rows, when the table is not classified. *)
  Theorem rx_order pretty sort units ignored t :
    reactions_attributes E boxed objs rxs c disabled pretty sort false units ignored = Ok t ->
    (sort = false -> map fst t = map (fun x => LRx (rx_id x)) (get_reactions c disabled)) /\
    (sort = true -> exists species order, shown_order E objs rxs c disabled true species order /\ map fst t = map (fun r => LRx (cr_id r)) order).
  Proof using OB RE.
    intros H. destruct (painted pretty sort false units ignored t H) as (f & g & F1 & F2 & G & T & _). rewrite T.
    destruct sort; cbn [orb] in G; (split; [intros K|intros K]); try discriminate.
    - destruct G as (css & crs & ES & ER & G). destruct (views_known css crs ES ER) as [ND KN].
      assert (FK : map fst f = map (fun r => LRx (cr_id r)) crs).
      { rewrite F1. rewrite <- (map_map r_id LRx), <- (map_map cr_id LRx). f_equal.
        symmetry. apply (mapM_proj _ r_id cr_id _ _ (fun a b H => proj1 (cr_view_parts E a b H)) ER). }
      destruct (arrange_plain _ _ _ _ _ ND KN FK g G) as (_ & R & _). destruct (R eq_refl) as (species & order & O & Q).
      exists species, order. split; [|exact Q]. now apply (orders_shown true css crs).
    - subst g. rewrite F1, <- (map_map r_id LRx), <- (map_map rx_id LRx). f_equal. apply robject_ids.
  Qed.

  (** The layout of a classified table. *)
  Theorem rx_layout pretty sort units ignored t :
    reactions_attributes E boxed objs rxs c disabled pretty sort true units ignored = Ok t ->
    exists d species order W,
      shown_order E objs rxs c disabled sort species order /\
      NoDup (map fst d) /\ (forall tc, In tc d -> snd tc <> []) /\
      buckets d = filter (fun b => nonempty (snd b)) (map (fun tc => (tc, filter (in_class tc) order)) scheme_pairs) /\
      Permutation (List.concat (map snd (buckets d))) order /\
      map fst t = layout (ids_of d) /\
      (forall i row, In (LType i, row) t -> exists n ty cats,
         i = (1 + n)%nat /\ nth_error d n = Some (ty, cats) /\ rx_header units ignored (map fst row) /\
         heading_row (if pretty then Yellow else Reset) ty row) /\
      (forall i j row, In (LCat i j, row) t -> exists n ty cats m cat l s,
         i = (1 + n)%nat /\ j = (1 + m)%nat /\ nth_error d n = Some (ty, cats) /\ nth_error cats m = Some (cat, l) /\ cat <> "None" /\
         padded cat s /\ rx_header units ignored (map fst row) /\
         heading_row (if pretty then Magenta else Reset) s row) /\
      (forall i row, In (LRx i, row) t -> exists r s cl,
         In r order /\ i = cr_id r /\ text_ok species W r s /\ In (CString, (cl, CText s)) row).
  Proof using OB RE.
    intros H. destruct (painted pretty sort true units ignored t H) as (f & g & F1 & F2 & G & T & P).
    rewrite orb_true_r in G. destruct G as (css & crs & ES & ER & G). destruct (views_known css crs ES ER) as [ND KN].
    assert (FK : map fst f = map (fun r => LRx (cr_id r)) crs).
    { rewrite F1. rewrite <- (map_map r_id LRx), <- (map_map cr_id LRx). f_equal.
      symmetry. apply (mapM_proj _ r_id cr_id _ _ (fun a b H => proj1 (cr_view_parts E a b H)) ER). }
    destruct (arrange_classified _ _ _ _ _ ND KN FK g G) as (d & species & order & W & OO & CL & Ed & L & RT & RC & RR).
    exists d, species, order, W. split; [now apply (orders_shown sort css crs)|].
    pose proof OO as (_ & PO & _).
    pose proof (heading_cells units ignored) as HD.
    assert (HR : forall cl x row0 row,
               map fst row0 = rx_columns units ignored ->
               (forall k v, In (k, v) row0 -> (k = CString /\ v = CText x) \/ (k <> CString /\ v = CText "")) ->
               (if pretty then row = paint_heading cl row0 else row = plain row0) ->
               rx_header units ignored (map fst row) /\ heading_row (if pretty then cl else Reset) x row).
    { intros cl x row0 row C V Q. destruct pretty; subst row; (split; [unfold paint_heading, plain; rewrite map_map; match goal with |- rx_header _ _ ?l => replace l with (rx_columns units ignored) by (symmetry; exact C) end; apply header_ok|]);
        intros k y w Hk; unfold paint_heading, plain in Hk; apply in_map_iff in Hk; destruct Hk as ([k' v] & Q & Hk); cbn in Q;
        injection Q as <- <- <-; destruct (V _ _ Hk) as [[-> ->]|[Hn ->]]; [now left| |now left|]; right; (split; [exact Hn|]);
        [|split; reflexivity]. destruct k'; [split; reflexivity|split; reflexivity|contradiction]. }
    split.
    { rewrite Ed. unfold prune. apply NoDup_map_filter. rewrite map_map. unfold classes, tab. rewrite map_map.
      apply (proj1 scheme_ok). }
    split; [intros tc Htc; rewrite Ed in Htc; now apply prune_tab_no_empty in Htc|].
    assert (BU : buckets d = filter (fun b => nonempty (snd b)) (map (fun tc => (tc, filter (in_class tc) order)) scheme_pairs)).
    { rewrite Ed, buckets_classes. reflexivity. }
    split; [exact BU|]. split.
    { rewrite BU. apply expected_complete. intros r Hr. apply CL. now apply (Permutation_in r PO). }
    split; [now rewrite T|]. split; [|split].
    - intros i row Hin. destruct (P _ _ Hin) as (row0 & Hg & Hp). destruct (RT i row0 Hg) as (n & ty & cats & -> & Hn & ->).
      exists n, ty, cats. split; [reflexivity|]. split; [exact Hn|]. destruct (HD ty) as (_ & D1 & D2).
      apply (HR Yellow ty _ row D1 D2). destruct pretty; [|exact Hp]. apply paint_type_row in Hp. exact Hp.
    - intros i j row Hin. destruct (P _ _ Hin) as (row0 & Hg & Hp). destruct (RC i j row0 Hg) as (n & ty & cats & m & cat & l & w & -> & -> & Hn & Hm & Hc & ->).
      exists n, ty, cats, m, cat, l, (ljust cat w). do 2 (split; [reflexivity|]). split; [exact Hn|]. split; [exact Hm|]. split; [exact Hc|].
      split; [unfold ljust; eexists; reflexivity|]. destruct (HD cat) as (D0 & D1 & D2).
      destruct (text_row (ljust cat w) _ D0) as [T1 T2]; [rewrite D1; apply header_ok|].
      apply (HR Magenta (ljust cat w) (aset col_eqb CString (CText (ljust cat w)) (heading (rx_columns units ignored) cat)) row); [now rewrite T1| |].
      + intros k v Hk. destruct (T2 k v Hk) as [Q|[Hn' Hk']]; [left; exact Q|]. right. split; [exact Hn'|].
        destruct (D2 _ _ Hk') as [[Q _]|[_ Q]]; [exfalso; exact (Hn' Q)|exact Q].
      + destruct pretty; [|exact Hp]. apply paint_cat_row in Hp. exact Hp.
    - intros i row Hin. destruct (P _ _ Hin) as (row0 & Hg & Hp). destruct (RR i row0 Hg) as (r & row1 & s & Hr & -> & Hf & TO & ->).
      exists r, s. destruct (F2 _ _ Hf) as (x & Hx & Q & C & _). injection Q as Q.
      assert (HC : In (CString, CText s) (aset col_eqb CString (CText s) row1)).
      { apply (aget_In col_eqb col_eqb_spec). apply (aget_aset_same col_eqb col_eqb_spec). }
      destruct pretty.
      + unfold paint_row in Hp. cbn [fst snd] in Hp. rewrite Q, (find_reaction x Hx) in Hp. apply bindOk in Hp.
        destruct Hp as (row2 & Hp & Q2). injection Q2 as ->. unfold paint in Hp.
        destruct (mapM_pick _ _ _ _ Hp HC) as (y & Ey & Hy). cbn [fst snd] in Ey. apply bindOk in Ey. destruct Ey as (cl & _ & Ey).
        injection Ey as <-. exists cl. split; [now apply (Permutation_in r (Permutation_sym PO))|]. split; [reflexivity|].
        split; [exact TO|exact Hy].
      + subst row. exists Reset. split; [now apply (Permutation_in r (Permutation_sym PO))|]. split; [reflexivity|].
        split; [exact TO|]. unfold plain. apply in_map_iff. exists (CString, CText s). split; [reflexivity|exact HC].
  Qed.
End Table.
