(** The table of attributes of species. *)
From Coq Require Import Permutation Sorted.
From Verif Require Import Base BaseLemmas Species Reactions Chemistry ChemSpec ChemDisable ChemInv ChemHist ChemLoad ChemGetters
  MolSpec SpeciesProofs XmlProofs Views ConserveSpec Latex Classification ClassSpec ClassProofs ClassSort
  AttrTable AttrSpec AttrColor.
Open Scope Z_scope.

Lemma bindOk {A B} (x : res A) (f : A -> res B) b : bind x f = Ok b -> exists a, x = Ok a /\ f a = Ok b.
Proof. destruct x; cbn; [eauto|discriminate]. Qed.
Lemma bindErr {A B} (x : res A) (f : A -> res B) e : bind x f = Err e ->
  x = Err e \/ exists a, x = Ok a /\ f a = Err e.
Proof. destruct x; cbn; [eauto|intros H; injection H as ->; now left]. Qed.

Lemma view_parts E o s : view_rp E o = Ok s ->
  sp_id s = rp_id o /\ get_name o = Ok (sp_name s) /\ get_charge E o = Ok (sp_charge s) /\
  get_mass E o = Ok (sp_mass s) /\ get_stick_coef E o = Ok (sp_stick s) /\ get_ret_coefs E o = Ok (sp_ret s).
Proof.
  unfold view_rp. intros H.
  apply bindOk in H. destruct H as (n & En & H). apply bindOk in H. destruct H as (q & Eq & H).
  apply bindOk in H. destruct H as (m & Em & H). apply bindOk in H. destruct H as (k & Ek & H).
  apply bindOk in H. destruct H as (d & Ed & H). injection H as <-. cbn. auto 10.
Qed.

Lemma combine_mapM {A B} (f : A -> res B) l m a b : mapM f l = Ok m -> In (a, b) (combine l m) -> In a l /\ In b m /\ f a = Ok b.
Proof.
  intros H. apply mapM_Ok_inv in H. induction H as [|x y l m Hx F IH]; cbn; [easy|].
  intros [Hin|Hin]; [injection Hin as <- <-; auto|]. destruct (IH Hin) as (? & ? & ?). auto.
Qed.

Lemma combine_filter_ids {A B} (f : A -> res B) (ia : A -> Z) (ib : B -> Z) (p : B -> bool) l m :
  (forall a b, f a = Ok b -> ib b = ia a) -> mapM f l = Ok m ->
  map ia (map fst (filter (fun q => p (snd q)) (combine l m))) = map ib (filter p m).
Proof.
  intros Hi H. apply mapM_Ok_inv in H. induction H as [|x y l m Hx F IH]; cbn; [reflexivity|].
  destruct (p y); cbn; [|exact IH]. rewrite IH. f_equal. symmetry. now apply Hi.
Qed.

Section Table.
  Variables (E : env) (objs : list rp) (rxs : list reaction) (c : chem) (disabled special : bool).
  Hypothesis RE : reachable E c.
  Hypothesis OB : objects E objs rxs c.
  Hypothesis HI : forall o, In o objs -> sp_history o.
  Let I : Inv c := reachable_Inv E c RE.

  Lemma object_row o : In o (sp_objects objs c disabled special) ->
    exists s, In o objs /\ view_rp E o = Ok s /\ In s (get_species c disabled special true).
  Proof using OB.
    unfold sp_objects. intros H. apply in_map_iff in H. destruct H as ([o' s] & <- & H).
    apply filter_In in H. destruct H as [H M]. cbn [fst snd] in *.
    destruct (combine_mapM _ _ _ _ _ (proj1 OB) H) as (H1 & H2 & H3).
    exists s. split; [exact H1|]. split; [exact H3|]. unfold get_species. apply filter_In. now split.
  Qed.

  Lemma object_ids : map rp_id (sp_objects objs c disabled special) = map sp_id (get_species c disabled special true).
  Proof using OB.
    unfold sp_objects. apply (combine_filter_ids (view_rp E)); [|exact (proj1 OB)].
    intros a b H. now apply view_parts in H.
  Qed.

  Lemma object_ids_nodup : NoDup (map rp_id (sp_objects objs c disabled special)).
  Proof using OB RE. rewrite object_ids. unfold get_species. apply NoDup_map_filter, (i_wf c I). Qed.

  Lemma value_returns o k v : In o (sp_objects objs c disabled special) ->
    sp_value E c disabled special o k = Ok v <-> sp_returns E c disabled special o k v.
  Proof using OB RE.
    intros Ho. destruct (object_row o Ho) as (s & Hin & Hv & Hs).
    destruct (view_parts _ _ _ Hv) as (Vi & Vn & Vq & Vm & Vk & Vd).
    pose proof (fun A (f : sp -> A) => by_species_get f c disabled special true s (i_wf c I) Hs) as G. rewrite Vi in G.
    assert (Gn : at_id (get_species_name c disabled special true) (rp_id o) = Ok (sp_name s))
      by (unfold at_id, get_species_name; now rewrite G).
    assert (Gq : at_id (get_species_charge c disabled special true) (rp_id o) = Ok (sp_charge s))
      by (unfold at_id, get_species_charge; now rewrite G).
    assert (Gm : at_id (get_species_mass c disabled special true) (rp_id o) = Ok (sp_mass s))
      by (unfold at_id, get_species_mass; now rewrite G).
    split.
    - destruct k as [a|a|]; cbn [sp_value]; [| |discriminate].
      2: { intros H. apply bindOk in H. destruct H as (u & Eu & H). injection H as <-. now constructor. }
      repeat match goal with
             | |- (if String.eqb a ?x then _ else _) = Ok v -> _ =>
                 destruct (String.eqb_spec a x) as [->|_]
             end; try discriminate; rewrite ?Gn, ?Gq, ?Gm; intros H;
        try (apply bindOk in H; destruct H as (x & Ex & H)); injection H as <-;
        try (econstructor; eassumption || (injection Ex as <-; eassumption)).
      + econstructor; [exact Ex|]. now destruct x.
      + injection Ex as <-. apply (gr_mass _ _ _ _ _ (sp_mass s)); [exact Vm|]. now destruct (sp_mass s).
      + injection Ex as <-. apply (gr_charge _ _ _ _ _ (sp_charge s)); [exact Vq|]. now destruct (sp_charge s).
      + econstructor; [exact Ex|]. now destruct x.
      + econstructor; [exact Ex|]. now destruct x.
      + econstructor; [exact Ex|]. now destruct x.
      + constructor. now destruct (get_hpem_name o).
      + econstructor; [exact Ex|]. now destruct x.
      + unfold at_id in Ex. destruct (zget _ _) as [y|] eqn:Ey; [|discriminate]. injection Ex as ->.
        econstructor; [exact Ey|]. now destruct x.
      + unfold at_id in Ex. destruct (zget _ _) as [y|] eqn:Ey; [|discriminate]. injection Ex as ->.
        destruct x; constructor; exact Ey.
      + constructor. now destruct (get_comments o).
    - intros H. inversion H; subst; cbn [sp_value String.eqb Ascii.eqb Bool.eqb]; rewrite ?Gn, ?Gq, ?Gm; unfold at_id;
        repeat match goal with
               | K : ?x = Ok _ |- context [bind ?x _] => rewrite K
               | K : zget _ _ = Some _ |- _ => rewrite K; clear K
               end; cbn [bind]; try reflexivity;
        repeat match goal with
               | K : ?x = Ok ?a, K' : ?x = Ok ?b |- _ => rewrite K in K'; injection K' as K'; try subst
               end;
        try (match goal with
             | K : number_cell ?x v |- _ => destruct x; cbn in K; subst; reflexivity
             | K : integer_cell ?x v |- _ => destruct x; cbn in K; subst; reflexivity
             | K : text_cell ?x v |- _ => destruct x eqn:?; cbn in K |- *; subst; reflexivity
             | K : adhoc_cell ?x v |- _ => destruct x; cbn in K; subst; reflexivity
             end).
      + congruence.
  Qed.

  Lemma rows_of sps cols rows :
    mapM (fun o => let* r := sp_row E c disabled special cols o in Ok (rp_id o, (o, r))) sps = Ok rows ->
    map fst rows = map rp_id sps /\
    forall i o r, In (i, (o, r)) rows -> In o sps /\ i = rp_id o /\ sp_row E c disabled special cols o = Ok r.
  Proof using.
    intros H. apply mapM_Ok_inv in H. induction H as [|o y sps rows Hx F [IH1 IH2]]; [easy|].
    apply bindOk in Hx. destruct Hx as (r & Er & Hx). injection Hx as <-. split; [cbn; now rewrite IH1|].
    intros i o' r' [Hin|Hin]; [injection Hin as <- <- <-; auto using in_eq|].
    destruct (IH2 _ _ _ Hin) as (? & ? & ?). split; [now right|auto].
  Qed.

  Lemma locs_spec {A B} (eqb : A -> A -> bool) (sp : forall x y, eqb x y = true <-> x = y) l (f g : list (A * B)) :
    locs eqb l f = Ok g -> map fst g = l /\ (forall i r, In (i, r) g -> aget eqb i f = Some r).
  Proof using.
    unfold locs. intros H. apply mapM_Ok_inv in H. induction H as [|i y l g Hx F [IH1 IH2]]; [easy|].
    destruct (aget eqb i f) as [r|] eqn:Er; [|discriminate]. injection Hx as <-. split; [cbn; now rewrite IH1|].
    intros i' r' [Hin|Hin]; [injection Hin as <- <-; exact Er|auto].
  Qed.

  Lemma cols_nodup units ignored : NoDup (sp_columns units ignored).
  Proof using.
    unfold sp_columns. assert (N : NoDup (filter (fun a => negb (memS a ignored)) rp_attr_keys)).
    { apply NoDup_filter, nodupSb_NoDup. reflexivity. }
    induction N as [|a l Hn N IH]; [constructor|]. cbn [flat_map app].
    assert (X : forall k, In k (flat_map (fun a => CAttr a :: (if units && shas a rp_default_units then [CUnit a] else [])) l) ->
                k <> CAttr a /\ k <> CUnit a).
    { intros k Hk. apply in_flat_map in Hk. destruct Hk as (b & Hb & Hk). assert (a <> b) by (intros ->; contradiction).
      destruct Hk as [<-|Hk]; [split; congruence|].
      destruct (units && shas b rp_default_units); [destruct Hk as [<-|[]]; split; congruence|destruct Hk]. }
    constructor.
    - intros K. apply in_app_or in K. destruct K as [K|K]; [|now apply X in K].
      destruct (units && shas a rp_default_units); [destruct K as [K|[]]; discriminate|destruct K].
    - destruct (units && shas a rp_default_units); cbn [app]; [|exact IH]. constructor; [|exact IH].
      intros K. now apply X in K.
  Qed.

  Lemma cols_attr units ignored a : In (CAttr a) (sp_columns units ignored) <-> In a rp_attr_keys /\ ~ In a ignored.
  Proof using.
    unfold sp_columns. rewrite in_flat_map. split.
    - intros (b & Hb & Hk). apply filter_In in Hb. destruct Hb as [Hb Hm].
      destruct Hk as [Hk|Hk].
      + injection Hk as <-. split; [exact Hb|]. intros K. apply memS_In in K. rewrite K in Hm. discriminate.
      + destruct (units && shas b rp_default_units); [destruct Hk as [Hk|[]]; discriminate|destruct Hk].
    - intros [Ha Hn]. exists a. split; [|now left]. apply filter_In. split; [exact Ha|].
      destruct (memS a ignored) eqn:M; [|reflexivity]. apply memS_In in M. contradiction.
  Qed.

  Lemma shas_keys {V} a (d : list (string * V)) : shas a d = true <-> In a (akeys d).
  Proof using. apply (ahas_In String.eqb Seqb_spec). Qed.

  Lemma cols_unit units ignored a : In (CUnit a) (sp_columns units ignored) <->
    units = true /\ In a (akeys rp_default_units) /\ In a rp_attr_keys /\ ~ In a ignored.
  Proof using.
    unfold sp_columns. rewrite in_flat_map. split.
    - intros (b & Hb & Hk). apply filter_In in Hb. destruct Hb as [Hb Hm].
      destruct Hk as [Hk|Hk]; [discriminate|].
      destruct (units && shas b rp_default_units) eqn:Eu; [|destruct Hk]. destruct Hk as [Hk|[]]. injection Hk as <-.
      apply andb_prop in Eu. destruct Eu as [Eu Es]. apply shas_keys in Es. repeat split; auto.
      intros K. apply memS_In in K. rewrite K in Hm. discriminate.
    - intros (-> & Hd & Ha & Hn). exists a. split.
      + apply filter_In. split; [exact Ha|]. destruct (memS a ignored) eqn:M; [|reflexivity]. apply memS_In in M. contradiction.
      + right. apply shas_keys in Hd. rewrite Hd. now left.
  Qed.

  Lemma row_cols cols o r : sp_row E c disabled special cols o = Ok r ->
    map fst r = cols /\ forall k v, In (k, v) r -> sp_value E c disabled special o k = Ok v.
  Proof using.
    unfold sp_row. intros H. apply mapM_Ok_inv in H. induction H as [|k y cols r Hx F [IH1 IH2]]; [easy|].
    apply bindOk in Hx. destruct Hx as (v & Ev & Hx). injection Hx as <-. split; [cbn; now rewrite IH1|].
    intros k' v' [Hin|Hin]; [injection Hin as <- <-; exact Ev|auto].
  Qed.

  Lemma paint_cells f r row : paint f r = Ok row ->
    map fst row = map fst r /\
    forall k cl w, In (k, (cl, w)) row -> exists v, In (k, v) r /\ f k v = Ok cl /\ w = subst_blank v.
  Proof using.
    unfold paint. intros H. apply mapM_Ok_inv in H. induction H as [|[k v] y r row Hx F [IH1 IH2]]; [easy|].
    cbn [fst snd] in Hx. apply bindOk in Hx. destruct Hx as (cl & Ec & Hx). injection Hx as <-. split; [cbn; now rewrite IH1|].
    intros k' cl' w' [Hin|Hin]; [injection Hin as <- <- <-; exists v; auto using in_eq|].
    destruct (IH2 _ _ _ Hin) as (v' & ? & ? & ?). exists v'. split; [now right|auto].
  Qed.

  Lemma plain_cells r : map fst (plain r) = map fst r /\
    forall k cl w, In (k, (cl, w)) (plain r) -> cl = Reset /\ In (k, w) r.
  Proof using.
    unfold plain. split; [now rewrite map_map|]. intros k cl w H. apply in_map_iff in H.
    destruct H as ([k' v] & H & Hin). cbn in H. injection H as <- <- <-. auto.
  Qed.

  (** What one obtains from a table. *)
  Lemma table_rows pretty sort units ignored t :
    species_attributes E objs c disabled special pretty sort units ignored = Ok t ->
    Permutation (map fst t) (map sp_id (get_species c disabled special true)) /\
    (sort = false -> map fst t = map sp_id (get_species c disabled special true)) /\
    (sort = true -> exists cs k, mapM (cs_view E) (sp_objects objs c disabled special) = Ok cs /\
       sort_species (clf_new cs []) = (k, Ok tt) /\ map fst t = map cs_id (k_species k)) /\
    forall i row, In (i, row) t ->
      exists o r, In o (sp_objects objs c disabled special) /\ i = rp_id o /\
        sp_row E c disabled special (sp_columns units ignored) o = Ok r /\
        (if pretty then paint (sp_color E c o) r = Ok row else row = plain r).
  Proof using OB.
    unfold species_attributes. intros H. apply bindOk in H. destruct H as (rows & Hr & H).
    apply bindOk in H. destruct H as (rows1 & Hs & H). apply rows_of in Hr. destruct Hr as [Hf Hr].
    assert (S : (sort = false -> rows1 = rows) /\
                (sort = true -> exists cs k, mapM (cs_view E) (sp_objects objs c disabled special) = Ok cs /\
                   sort_species (clf_new cs []) = (k, Ok tt) /\ map fst rows1 = map cs_id (k_species k)) /\
                Permutation (map fst rows1) (map fst rows) /\ forall x, In x rows1 -> In x rows).
    { destruct sort.
      - apply bindOk in Hs. destruct Hs as (cs & Ecs & Hs). apply bindOk in Hs. destruct Hs as ([] & Ek & Hs).
        destruct (locs_spec Z.eqb Zeqb_spec _ _ _ Hs) as [L1 L2].
        destruct (sort_species (clf_new cs [])) as [k o] eqn:Es. cbn [fst snd] in *. subst o.
        split; [discriminate|]. split; [intros _; exists cs, k; auto|]. split.
        + rewrite L1, Hf. destruct (sort_species_frame _ _ _ Es) as (P & _). cbn in P. rewrite P.
          apply mapM_Ok_inv in Ecs. clear -Ecs. induction Ecs as [|o s l m Hx F IH]; [constructor|]. cbn.
          assert (cs_id s = rp_id o) as ->; [|now constructor].
          unfold cs_view in Hx. repeat (apply bindOk in Hx; destruct Hx as (? & _ & Hx)). now injection Hx as <-.
        + intros [i x] Hin. apply L2 in Hin. now apply (aget_In Z.eqb Zeqb_spec) in Hin.
      - injection Hs as <-. split; [reflexivity|]. split; [discriminate|]. split; [reflexivity|auto]. }
    destruct S as (S1 & S2 & S3 & S4).
    assert (T : map fst t = map fst rows1 /\ forall i row, In (i, row) t -> exists o r, In (i, (o, r)) rows1 /\
                (if pretty then paint (sp_color E c o) r = Ok row else row = plain r)).
    { apply mapM_Ok_inv in H. clear -H. induction H as [|[i [o r]] y rows1 t Hx F [IH1 IH2]]; [easy|]. cbn [fst snd] in Hx.
      apply bindOk in Hx. destruct Hx as (row & Ep & Hx). injection Hx as <-. split; [cbn; now rewrite IH1|].
      intros i' row' [Hin|Hin].
      - injection Hin as <- <-. exists o, r. split; [now left|]. destruct pretty; [exact Ep|now injection Ep as <-].
      - destruct (IH2 _ _ Hin) as (o' & r' & ? & ?). exists o', r'. split; [now right|assumption]. }
    destruct T as [T1 T2]. rewrite T1. rewrite <- object_ids, <- Hf. repeat split; [exact S3| |exact S2|].
    - intros K. now rewrite (S1 K).
    - intros i row Hin. destruct (T2 _ _ Hin) as (o & r & Hin1 & Hp). apply S4 in Hin1. apply Hr in Hin1.
      destruct Hin1 as (Ho & -> & Er). exists o, r. auto.
  Qed.

  (** C143 *)
  Theorem table_cells sort units ignored t :
    species_attributes E objs c disabled special true sort units ignored = Ok t ->
    forall i row, In (i, row) t ->
      exists o, In o objs /\ rp_id o = i /\ NoDup (map fst row) /\
        (forall a, In (CAttr a) (map fst row) <-> In a rp_attr_keys /\ ~ In a ignored) /\
        (forall a, In (CUnit a) (map fst row) <->
           units = true /\ In a (akeys rp_default_units) /\ In a rp_attr_keys /\ ~ In a ignored) /\
        forall k cl w, In (k, (cl, w)) row ->
          exists v, sp_returns E c disabled special o k v /\ shows v w /\
            (cl = Red <-> c_en c i = false) /\
            (cl = Blue <-> c_en c i = true /\
               match k with
               | CAttr a => ~ says_same E (rattr o a) v
               | CUnit a => exists u, sget a (rp_units o) = Some u /\ ~ text_cell u v
               | CString => False
               end) /\
            (cl = Red \/ cl = Blue \/ cl = Reset).
  Proof using OB RE HI.
    intros H i row Hin. destruct (table_rows true sort units ignored t H) as (_ & _ & _ & R).
    destruct (R i row Hin) as (o & r & Ho & -> & Er & Ep). exists o.
    destruct (object_row o Ho) as (s & Hob & _). split; [exact Hob|]. split; [reflexivity|].
    destruct (row_cols _ _ _ Er) as [C1 C2]. destruct (paint_cells _ _ _ Ep) as [P1 P2].
    rewrite P1, C1. split; [apply cols_nodup|]. split; [apply cols_attr|]. split; [apply cols_unit|].
    intros k cl w Hk. destruct (P2 _ _ _ Hk) as (v & Hv & Hc & ->). exists v.
    pose proof (C2 _ _ Hv) as Hval.
    split; [now apply value_returns|]. split; [apply subst_shows|].
    unfold sp_color in Hc. destruct (c_en c (rp_id o)) eqn:Een; cbn [negb] in Hc.
    2: { injection Hc as <-. split; [tauto|]. split; [|auto]. split; [discriminate|intros [? _]; discriminate]. }
    assert (KC : In k (sp_columns units ignored)).
    { rewrite <- C1. apply in_map_iff. now exists (k, v). }
    destruct k as [a|a|].
    - apply bindOk in Hc. destruct Hc as (e & Ee & Hc). injection Hc as <-.
      apply cols_attr in KC. destruct KC as [KC _].
      pose proof (history_types o (HI o Hob) a KC) as T.
      assert (TT : match rattr o a with VDict _ => a = "ret_coefs" | VOther => False | _ => True end).
      { destruct (rattr o a) as [x|d|]; [exact Logic.I| |].
        - clear -T KC. cbn in KC. repeat (destruct KC as [<-|KC]; [try discriminate T; try reflexivity|]). contradiction.
        - clear -T KC. cbn in KC. repeat (destruct KC as [<-|KC]; [try discriminate T|]). contradiction. }
      destruct (equal_sp_spec E a (rattr o a) v TT) as [[Eq S]|[[Eq S]|(Eq & S & _)]]; rewrite Eq in Ee; [| |discriminate];
        injection Ee as <-.
      + split; [split; discriminate|]. split; [|auto]. split; [discriminate|intros [_ K]; contradiction].
      + split; [split; discriminate|]. split; [|auto]. split; [auto|reflexivity].
    - unfold unit_color in Hc. destruct (sget a (rp_units o)) as [u|] eqn:Eu; [|discriminate]. injection Hc as <-.
      assert (TC : text_cell u v \/ ~ text_cell u v).
      { destruct u as [x|]; cbn; destruct v as [| | |y|]; try (right; discriminate); try now left.
        destruct (string_dec y x) as [->|n]; [now left|right; congruence]. }
      assert (CL : (match u, v with None, CNone => Reset | Some s, CText t => if String.eqb s t then Reset else Blue | _, _ => Blue end)
                   = if (match u, v with None, CNone => true | Some s, CText t => String.eqb s t | _, _ => false end) then Reset else Blue).
      { destruct u, v; try reflexivity. }
      rewrite CL. clear CL.
      assert (TB : (match u, v with None, CNone => true | Some s, CText t => String.eqb s t | _, _ => false end) = true <-> text_cell u v).
      { destruct u as [x|], v as [| | |y|]; cbn; split; try discriminate; try reflexivity.
        - intros K. apply String.eqb_eq in K. now subst.
        - intros K. injection K as ->. apply String.eqb_refl. }
      destruct (match u, v with None, CNone => true | Some s, CText t => String.eqb s t | _, _ => false end).
      + split; [split; discriminate|]. split; [|auto]. split; [discriminate|].
        intros (_ & u' & Eu' & N). injection Eu' as <-. exfalso. now apply N, TB.
      + split; [split; discriminate|]. split; [|auto]. split; [|reflexivity]. intros _. split; [reflexivity|].
        exists u. split; [reflexivity|]. intros N. apply TB in N. discriminate.
    - discriminate Hval.
  Qed.

  Theorem plain_table sort units ignored t :
    species_attributes E objs c disabled special false sort units ignored = Ok t ->
    forall i row, In (i, row) t ->
      exists o, In o objs /\ rp_id o = i /\
        forall k cl w, In (k, (cl, w)) row -> cl = Reset /\ sp_returns E c disabled special o k w.
  Proof using OB RE.
    intros H i row Hin. destruct (table_rows false sort units ignored t H) as (_ & _ & _ & R).
    destruct (R i row Hin) as (o & r & Ho & -> & Er & ->). exists o.
    destruct (object_row o Ho) as (s & Hob & _). split; [exact Hob|]. split; [reflexivity|].
    intros k cl w Hk. apply (proj2 (plain_cells r)) in Hk. destruct Hk as [-> Hk]. split; [reflexivity|].
    apply value_returns; [exact Ho|]. now apply (row_cols _ _ _ Er).
  Qed.

  (** The order of the rows. *)
  Theorem table_sorted pretty units ignored t :
    species_attributes E objs c disabled special pretty true units ignored = Ok t ->
    exists l, map fst t = map cs_id l /\ (forall s, In s l -> exists o, In o objs /\ cs_view E o = Ok s) /\
      ((forall s, In s l -> sortable s) -> StronglySorted (fun a b => ~ before b a) l).
  Proof using OB.
    intros H. destruct (table_rows pretty true units ignored t H) as (_ & _ & S & _).
    destruct (S eq_refl) as (cs & k & Ecs & Es & Ef). exists (k_species k). split; [exact Ef|].
    destruct (sort_species_frame _ _ _ Es) as (P & _). cbn [clf_new k_species] in P. split.
    - intros s Hs. apply (Permutation_in s P) in Hs. apply mapM_Ok_inv in Ecs. clear -Ecs Hs OB.
      assert (X : exists o, In o (sp_objects objs c disabled special) /\ cs_view E o = Ok s).
      { induction Ecs as [|o x l m Hx F IH]; [destruct Hs|]. destruct Hs as [<-|Hs]; [exists o; split; [now left|exact Hx]|].
        destruct (IH Hs) as (o' & ? & ?). exists o'. split; [now right|assumption]. }
      destruct X as (o & Ho & Eo). exists o. split; [|exact Eo]. now destruct (object_row o Ho) as (? & ? & _).
    - intros So. destruct (sort_species_spec (clf_new cs [])) as (k' & Ek & _ & SS & _).
      { intros s Hs. apply So. cbn in Hs. now apply (Permutation_in s (Permutation_sym P)). }
      rewrite Es in Ek. injection Ek as <-. exact SS.
  Qed.

  Lemma none_readable v : ~ unreadable E (VSc SNone) v.
  Proof using. intros H. inversion H; subst. match goal with K : saved_number _ _ _ |- _ => inversion K end. Qed.

  Lemma text_attr o k : In o objs -> In k ["name"; "stateless"; "state"; "hpem_name"; "comments"; "latex"] ->
    match rstr o k with Some s => rattr o k = VSc (SStr s) | None => rattr o k = VSc SNone end.
  Proof using HI.
    intros Ho Hk. assert (K : In k rp_attr_keys) by (cbn in *; tauto).
    pose proof (history_types o (HI o Ho) k K) as T. unfold rstr.
    assert (R : rp_attr_types k = [TStr; TNone]) by (cbn in Hk; repeat (destruct Hk as [<-|Hk]; [reflexivity|]); contradiction).
    rewrite R in T. destruct (rattr o k) as [[]| |]; try discriminate T; reflexivity.
  Qed.

  Lemma number_attr E' v w f : py_float_v E' v = Ok f -> (forall s, w <> CText s) -> ~ unreadable E' v w.
  Proof using.
    intros H N U. inversion U; subst.
    - cbn in H. match goal with K : fparse _ _ = None |- _ => rewrite K in H end. discriminate.
    - now apply (N s).
    - discriminate.
  Qed.

  Hypothesis IR : forall s z, iparse E s = Some z -> exists f, fparse E s = Some f.

  Lemma integer_attr v w z : py_int_v E v = Ok z -> (forall s, w <> CText s) -> ~ unreadable E v w.
  Proof using IR.
    intros H N U. inversion U; subst.
    - cbn in H. destruct (iparse E s) eqn:Es; [|discriminate]. apply IR in Es. destruct Es as (f & Ef). congruence.
    - now apply (N s).
    - discriminate.
  Qed.

  (** A cell that cannot be compared is one of a special species, or shows an
      ad-hoc text. *)
  Lemma unreadable_special o a v : In o (sp_objects objs c disabled special) ->
    sp_returns E c disabled special o (CAttr a) v -> ~ says_same E (rattr o a) v -> unreadable E (rattr o a) v ->
    (exists n, get_name o = Ok n /\ In n ["e"; "M"]) \/
    (exists s, zget (rp_id o) (c_stick c) = Some (SStr s) /\ fparse E s = None).
  Proof using OB RE HI IR.
    intros Ho R NS U. destruct (object_row o Ho) as (s & Hob & Hv & Hs).
    destruct (view_parts _ _ _ Hv) as (Vi & Vn & Vq & Vm & Vk & Vd).
    destruct (in_dec string_dec (sp_name s) ["e"; "M"]) as [i|n]; [left; exists (sp_name s); auto|].
    assert (IS : is_special o = Ok false).
    { unfold is_special. rewrite Vn. cbn [bind]. f_equal. destruct (memS (sp_name s) special_names) eqn:M; [|reflexivity].
      apply memS_In in M. contradiction. }
    assert (NM : String.eqb (sp_name s) "M" = false).
    { apply String.eqb_neq. intros K. apply n. rewrite K. cbn. tauto. }
    assert (TX : forall k, In k ["name"; "stateless"; "state"; "hpem_name"; "comments"; "latex"] -> a = k ->
                 text_cell (rstr o k) v \/ rstr o k = None -> False).
    { intros k Hk -> T. pose proof (text_attr o k Hob Hk) as A. destruct (rstr o k) as [t|].
      - destruct T as [T|T]; [|discriminate]. cbn in T. subst v. rewrite A in NS. apply NS. constructor.
      - rewrite A in U. now apply none_readable in U. }
    assert (NUM : forall f, py_float_v E (rattr o a) = Ok f -> (forall t, v <> CText t) -> False).
    { intros f K N. exact (number_attr E _ _ _ K N U). }
    assert (NON : is_none (rattr o a) = true -> False).
    { intros K. destruct (rattr o a) as [[]| |]; try discriminate K. now apply none_readable in U. }
    inversion R; subst.
    - exfalso. apply (TX "name"); [cbn; tauto|reflexivity|]. left. unfold get_name in *. destruct (rstr o "name"); [|discriminate].
      cbn. congruence.
    - exfalso. apply (TX "stateless"); [cbn; tauto|reflexivity|].
      match goal with K : get_stateless o = _ |- _ => unfold get_stateless in K; rewrite IS in K; cbn [bind] in K end.
      destruct (rstr o "stateless"); [left; cbn; congruence|now right].
    - exfalso. apply (TX "state"); [cbn; tauto|reflexivity|].
      match goal with K : get_state o = _ |- _ => unfold get_state in K; rewrite IS in K; cbn [bind] in K; injection K as <- end.
      now left.
    - exfalso. match goal with K : get_mass E o = _ |- _ => unfold get_mass in K; rewrite Vn in K; cbn [bind] in K; rewrite NM in K end.
      destruct (is_none (rattr o "mass")) eqn:N; [discriminate|].
      match goal with K : bind _ _ = Ok _ |- _ => apply bindOk in K; destruct K as (f & Ef & K); injection K as <- end.
      match goal with K : number_cell _ _ |- _ => cbn in K; subst v end. apply (NUM f Ef). discriminate.
    - exfalso. match goal with K : get_charge E o = _ |- _ => unfold get_charge in K; rewrite Vn in K; cbn [bind] in K; rewrite NM in K end.
      destruct (is_none (rattr o "charge")) eqn:N; [now apply NON|].
      match goal with K : bind _ _ = Ok _ |- _ => apply bindOk in K; destruct K as (z & Ez & K); injection K as <- end.
      match goal with K : integer_cell _ _ |- _ => cbn in K; subst v end. apply (integer_attr _ _ _ Ez) in U; [exact U|discriminate].
    - exfalso. match goal with K : get_h_form E o = _ |- _ => unfold get_h_form, get_float_default in K; rewrite IS in K; cbn [bind] in K end.
      destruct (is_none (rattr o "h_form")) eqn:N; [now apply NON|].
      match goal with K : bind _ _ = Ok _ |- _ => apply bindOk in K; destruct K as (f & Ef & K); injection K as <- end.
      match goal with K : number_cell _ _ |- _ => cbn in K; subst v end. apply (NUM f Ef). discriminate.
    - exfalso. match goal with K : get_lj_epsilon E o = _ |- _ => unfold get_lj_epsilon, get_float_default in K; rewrite IS in K; cbn [bind] in K end.
      destruct (is_none (rattr o "lj_epsilon")) eqn:N; [now apply NON|].
      match goal with K : bind _ _ = Ok _ |- _ => apply bindOk in K; destruct K as (f & Ef & K); injection K as <- end.
      match goal with K : number_cell _ _ |- _ => cbn in K; subst v end. apply (NUM f Ef). discriminate.
    - exfalso. match goal with K : get_lj_sigma E o = _ |- _ => unfold get_lj_sigma, get_float_default in K; rewrite IS in K; cbn [bind] in K end.
      destruct (is_none (rattr o "lj_sigma")) eqn:N; [now apply NON|].
      match goal with K : bind _ _ = Ok _ |- _ => apply bindOk in K; destruct K as (f & Ef & K); injection K as <- end.
      match goal with K : number_cell _ _ |- _ => cbn in K; subst v end. apply (NUM f Ef). discriminate.
    - exfalso. apply (TX "hpem_name"); [cbn; tauto|reflexivity|]. now left.
    - exfalso. match goal with K : get_qdb_id E o = _ |- _ => unfold get_qdb_id in K; cbv zeta in K end.
      destruct (is_none (rattr o "qdb_id")) eqn:N; [now apply NON|].
      match goal with K : bind _ _ = Ok _ |- _ => apply bindOk in K; destruct K as (z' & Ez & K); injection K as <- end.
      match goal with K : integer_cell _ _ |- _ => cbn in K; subst v end. apply (integer_attr _ _ _ Ez) in U; [exact U|discriminate].
    - match goal with K : zget _ (get_species_stick_coef _ _ _ _) = _ |- _ => rename K into Kx end.
      rewrite stick_values, <- Vi, (by_species_get _ _ _ _ _ _ (i_wf c I) Hs) in Kx. injection Kx as Kx.
      unfold get_stick_coef in Vk. rewrite IS in Vk. cbn [bind] in Vk. cbv zeta in Vk.
      assert (FL : exists f, py_float_v E (rattr o "stick_coef") = Ok f).
      { destruct (is_none (rattr o "stick_coef")) eqn:N; [exfalso; now apply NON|].
        apply bindOk in Vk. destruct Vk as (f & Ef & _). eauto. }
      destruct FL as (f & Ef).
      assert (exists t, v = CText t /\ fparse E t = None) as (t & -> & Et).
      { inversion U; subst.
        - match goal with K : _ = rattr o "stick_coef" |- _ => rewrite <- K in Ef end. cbn in Ef.
          match goal with K : fparse _ _ = None |- _ => rewrite K in Ef end. discriminate.
        - eauto.
        - match goal with K : _ = rattr o "stick_coef" |- _ => rewrite <- K in Ef end. discriminate. }
      right. exists t. split; [|exact Et]. rewrite <- Vi.
      unfold eff_stick in Kx. destruct (zget (sp_id s) (c_stick c)) as [y|] eqn:Ey.
      + destruct (notna y) eqn:Ny.
        * subst x. destruct y; cbn in *; congruence.
        * subst x. destruct (sp_stick s); cbn in *; congruence.
      + subst x. destruct (sp_stick s); cbn in *; congruence.
    - exfalso. unfold get_ret_coefs in Vd. rewrite IS in Vd. cbn [bind] in Vd.
      pose proof (history_types o (HI o Hob) "ret_coefs" (proj1 (memS_In "ret_coefs" rp_attr_keys) eq_refl)) as T.
      inversion U as [t y Et Ea|y f t Hf Et Ea|d y k t Hin Et Ea]; subst.
      + rewrite <- Ea in T. discriminate.
      + rewrite <- Ea in Vd. apply bindOk in Vd. destruct Vd as (l & El & _). clear -El Hin Et.
        apply mapM_Ok_inv in El. induction El as [|[k' x] z d l Hx F IH]; [destruct Hin|].
        destruct Hin as [Hin|Hin]; [|now apply IH]. injection Hin as -> ->. cbn in Hx. rewrite Et in Hx. discriminate.
    - exfalso. unfold get_ret_coefs in Vd. rewrite IS in Vd. cbn [bind] in Vd.
      pose proof (history_types o (HI o Hob) "ret_coefs" (proj1 (memS_In "ret_coefs" rp_attr_keys) eq_refl)) as T.
      inversion U as [t y Et Ea|y f t Hf Et Ea|d y k t Hin Et Ea]; subst.
      + rewrite <- Ea in T. discriminate.
      + rewrite <- Ea in Vd. apply bindOk in Vd. destruct Vd as (l & El & _). clear -El Hin Et.
        apply mapM_Ok_inv in El. induction El as [|[k' x] z d l Hx F IH]; [destruct Hin|].
        destruct Hin as [Hin|Hin]; [|now apply IH]. injection Hin as -> ->. cbn in Hx. rewrite Et in Hx. discriminate.
    - exfalso. apply (TX "comments"); [cbn; tauto|reflexivity|]. now left.
    - exfalso. apply (TX "latex"); [cbn; tauto|reflexivity|].
      match goal with K : rp_get_latex o = _ |- _ => rename K into Kl end. unfold rp_get_latex in Kl. unfold rstr.
      destruct (rattr o "latex") as [[]| |]; auto. left. cbn. congruence.
  Qed.

  Theorem table_raises units ignored e :
    species_attributes E objs c disabled special true false units ignored = Err e ->
    exists o, In o objs /\
      ((exists a, In a ["stateless"; "h_form"; "lj_epsilon"; "lj_sigma"; "qdb_id"; "latex"] /\ ~ In a ignored /\
          forall v, ~ sp_returns E c disabled special o (CAttr a) v) \/
       (e = EValue /\ c_en c (rp_id o) = true /\
        ((exists n, get_name o = Ok n /\ In n ["e"; "M"]) \/
         (exists s, zget (rp_id o) (c_stick c) = Some (SStr s) /\ fparse E s = None)))).
  Proof using OB RE HI IR.
    unfold species_attributes. intros H. apply bindErr in H. destruct H as [H|(rows & Hr & H)].
    - apply mapM_Err_In in H. destruct H as (o & Ho & H). destruct (object_row o Ho) as (s & Hob & Hv & Hs).
      exists o. split; [exact Hob|]. left. apply bindErr in H. destruct H as [H|(? & _ & H)]; [|discriminate].
      unfold sp_row in H. apply mapM_Err_In in H. destruct H as (k & Hk & H).
      apply bindErr in H. destruct H as [H|(? & _ & H)]; [|discriminate].
      assert (NV : forall v, ~ sp_returns E c disabled special o k v).
      { intros v R. apply value_returns in R; [congruence|exact Ho]. }
      destruct (view_parts _ _ _ Hv) as (Vi & Vn & Vq & Vm & Vk & Vd).
      destruct k as [a|a|].
      + apply cols_attr in Hk. destruct Hk as [Hk Hn]. exists a. split; [|auto].
        pose proof (fun x K => NV x K) as NV'. cbn in Hk. cbn [In].
        repeat (destruct Hk as [<-|Hk]); try tauto; exfalso.
        * apply (NV (CText (sp_name s))). now constructor.
        * assert (X : exists t, get_state o = Ok t).
          { unfold get_state, is_special. rewrite Vn. cbn [bind]. destruct (memS _ _); eauto. }
          destruct X as (t & Et). apply (NV (ctext t)). apply (gr_state _ _ _ _ _ _ _ Et). now destruct t.
        * apply (NV (cnum (sp_mass s))). apply (gr_mass _ _ _ _ _ _ _ Vm). now destruct (sp_mass s).
        * apply (NV (cint (sp_charge s))). apply (gr_charge _ _ _ _ _ _ _ Vq). now destruct (sp_charge s).
        * apply (NV (ctext (get_hpem_name o))). apply gr_hpem. now destruct (get_hpem_name o).
        * apply (NV (num_of_scalar (eff_stick c s))). apply (gr_stick _ _ _ _ _ (eff_stick c s)).
          -- rewrite stick_values, <- Vi. apply by_species_get; [apply (i_wf c I)|exact Hs].
          -- now destruct (eff_stick c s).
        * pose proof (ret_value c disabled special true s I Hs) as RV. rewrite Vi in RV.
          destruct (shown_ret c s) as [m|]; [apply (NV (CMap m))|apply (NV CNone)]; now constructor.
        * apply (NV (ctext (get_comments o))). apply gr_comments. now destruct (get_comments o).
      + exfalso. apply cols_unit in Hk. destruct Hk as (_ & Hd & Ha & _).
        destruct (history_units o (HI o Hob)) as (_ & Hu). destruct (Hu a Ha) as (u & Eu & _).
        apply (aget_key String.eqb Seqb_spec) in Hd. destruct Hd as (d & Ed).
        apply (NV (CText (match u with Some x => x | None => d end))). constructor. unfold rp_get_unit. rewrite Ed, Eu.
        now destruct u.
      + exfalso. unfold sp_columns in Hk. apply in_flat_map in Hk. destruct Hk as (b & _ & [Hk|Hk]); [discriminate|].
        destruct (units && shas b rp_default_units); [destruct Hk as [Hk|[]]; discriminate|destruct Hk].
    - cbn [bind] in H. apply rows_of in Hr. destruct Hr as [_ Hr].
      apply mapM_Err_In in H. destruct H as ([i [o r]] & Hin & H). cbn [fst snd] in H.
      apply Hr in Hin. destruct Hin as (Ho & -> & Er). destruct (object_row o Ho) as (s & Hob & _).
      exists o. split; [exact Hob|]. right. apply bindErr in H. destruct H as [H|(? & _ & H)]; [|discriminate].
      unfold paint in H. apply mapM_Err_In in H. destruct H as ([k v] & Hk & H). cbn [fst snd] in H.
      apply bindErr in H. destruct H as [H|(? & _ & H)]; [|discriminate].
      destruct (row_cols _ _ _ Er) as [C1 C2]. pose proof (C2 _ _ Hk) as Hval.
      assert (KC : In k (sp_columns units ignored)) by (rewrite <- C1; apply in_map_iff; now exists (k, v)).
      unfold sp_color in H. destruct (c_en c (rp_id o)) eqn:Een; cbn [negb] in H; [|discriminate].
      destruct k as [a|a|].
      + apply cols_attr in KC. destruct KC as [KC _].
        apply bindErr in H. destruct H as [H|(? & _ & H)]; [|discriminate].
        pose proof (history_types o (HI o Hob) a KC) as T.
        assert (TT : match rattr o a with VDict _ => a = "ret_coefs" | VOther => False | _ => True end).
        { destruct (rattr o a) as [x|d|]; [exact Logic.I| |].
          - clear -T KC. cbn in KC. repeat (destruct KC as [<-|KC]; [try discriminate T; try reflexivity|]). contradiction.
          - clear -T KC. cbn in KC. repeat (destruct KC as [<-|KC]; [try discriminate T|]). contradiction. }
        destruct (equal_sp_spec E a (rattr o a) v TT) as [[Eq _]|[[Eq _]|(Eq & S & U)]]; rewrite Eq in H; try discriminate.
        injection H as <-. split; [reflexivity|]. split; [reflexivity|].
        apply (unreadable_special o a v Ho); auto. now apply value_returns.
      + exfalso. apply cols_unit in KC. destruct KC as (_ & _ & Ha & _).
        destruct (history_units o (HI o Hob)) as (_ & Hu). destruct (Hu a Ha) as (u & Eu & _).
        unfold unit_color in H. rewrite Eu in H. discriminate.
      + discriminate.
  Qed.
End Table.

Lemma table_ids E objs rxs c disabled special pretty sort units ignored t :
  objects E objs rxs c -> species_attributes E objs c disabled special pretty sort units ignored = Ok t ->
  Permutation (map fst t) (map sp_id (get_species c disabled special true)) /\
  (sort = false -> map fst t = map sp_id (get_species c disabled special true)).
Proof.
  intros OB H. destruct (table_rows E objs rxs c disabled special OB pretty sort units ignored t H) as (A & B & _). auto.
Qed.
