(** Sorted reactions and the tables of attributes: theorems about the model in
    Classification.v and AttrTable.v, with the vocabulary of ClassSpec.v and
    AttrSpec.v. *)
From Coq Require Import Permutation Sorted.
From Verif Require Import Base Species Reactions Chemistry ChemSpec MolSpec ConserveSpec Classification ClassSpec ClassOrder
  AttrTable AttrSpec AttrSpecies AttrReact ClassExamples AttrExamples.
Open Scope Z_scope.

(** C142 *)
Theorem C142_sorted sps rs h :
  species_known sps rs -> ops_of rs h ->
  exists k', sort_reactions (run (clf_new sps rs) h) = (k', Ok tt) /\
    k_species k' = k_species (run (clf_new sps rs) h) /\ Permutation (k_reactions k') rs /\
    StronglySorted (fun a b => ~ earlier (k_species k') b a) (k_reactions k') /\
    (forall p : cr -> bool,
       (forall a b, In a rs -> In b rs -> p a = true -> p b = true -> ~ earlier (k_species k') b a) ->
       filter p (k_reactions k') = filter p (k_reactions (run (clf_new sps rs) h))).
Proof. exact (fun KN => reactions_sorted sps rs KN h). Qed.

Example C142_not_vacuous :
  species_known sp0 rs0 /\ ops_of rs0 [OSortSpecies; OAligned r_CC] /\
  map cr_id (k_reactions (run (clf_new sp0 rs0) [OSortSpecies; OAligned r_CC])) = [1; 2; 3] /\
  map cr_id (k_reactions (fst (sort_reactions (run (clf_new sp0 rs0) [OSortSpecies; OAligned r_CC])))) = [3; 1; 2].
Proof. exact sorted_example. Qed.

(** C143: the table of species. *)
Theorem C143_rows E objs rxs c disabled special pretty sort units ignored t :
  objects E objs rxs c -> species_attributes E objs c disabled special pretty sort units ignored = Ok t ->
  Permutation (map fst t) (map sp_id (get_species c disabled special true)) /\
  (sort = false -> map fst t = map sp_id (get_species c disabled special true)).
Proof. exact (table_ids E objs rxs c disabled special pretty sort units ignored t). Qed.

Theorem C143_sorted E objs rxs c disabled special pretty units ignored t :
  objects E objs rxs c -> species_attributes E objs c disabled special pretty true units ignored = Ok t ->
  exists l, map fst t = map cs_id l /\ (forall s, In s l -> exists o, In o objs /\ cs_view E o = Ok s) /\
    ((forall s, In s l -> sortable s) -> StronglySorted (fun a b => ~ before b a) l).
Proof. exact (fun OB => table_sorted E objs rxs c disabled special OB pretty units ignored t). Qed.

Theorem C143_cells E objs rxs c disabled special sort units ignored t :
  reachable E c -> objects E objs rxs c -> (forall o, In o objs -> sp_history o) ->
  species_attributes E objs c disabled special true sort units ignored = Ok t ->
  forall i row, In (i, row) t ->
    exists o, In o objs /\ rp_id o = i /\ NoDup (map fst row) /\
      (forall a, In (CAttr a) (map fst row) <-> In a rp_attr_keys /\ ~ In a ignored) /\
      (forall a, In (CUnit a) (map fst row) <->
         units = true /\ In a (akeys rp_default_units) /\ In a rp_attr_keys /\ ~ In a ignored) /\
      forall k cl w, In (k, (cl, w)) row ->
        exists v, sp_returns E c disabled special o k v /\ shows v w /\
          (cl = Red <-> c_en c i = false) /\
          (cl = Blue <-> c_en c i = true /\
             match k with
             | CAttr a => ~ says_same E (rattr o a) v
             | CUnit a => exists u, sget a (rp_units o) = Some u /\ ~ text_cell u v
             | CString => False
             end) /\
          (cl = Red \/ cl = Blue \/ cl = Reset).
Proof. exact (fun RE OB HI => table_cells E objs rxs c disabled special RE OB HI sort units ignored t). Qed.

Theorem C143_plain E objs rxs c disabled special sort units ignored t :
  reachable E c -> objects E objs rxs c ->
  species_attributes E objs c disabled special false sort units ignored = Ok t ->
  forall i row, In (i, row) t ->
    exists o, In o objs /\ rp_id o = i /\
      forall k cl w, In (k, (cl, w)) row -> cl = Reset /\ sp_returns E c disabled special o k w.
Proof. exact (fun RE OB => plain_table E objs rxs c disabled special RE OB sort units ignored t). Qed.

Example C143_not_vacuous :
  (reachable ET cT /\ objects ET objsT rxsT cT /\ (forall o, In o objsT -> sp_history o) /\
   (forall r, In r rxsT -> rx_history ET r) /\ (forall s z, iparse ET s = Some z -> exists f, fparse ET s = Some f)) /\
  species_attributes ET objsT cT true true true true true some_columns = Ok
    [(0, [(CAttr "name", (Reset, CText "e")); (CAttr "mass", (Reset, CNum (Fin (1 # 1836)))); (CUnit "mass", (Blue, CText "amu"));
          (CAttr "charge", (Reset, CNum (Fin (-1)))); (CUnit "charge", (Blue, CText "e")); (CAttr "stick_coef", (Reset, CText "..."))]);
     (1, [(CAttr "name", (Reset, CText "O")); (CAttr "mass", (Reset, CNum (Fin 16))); (CUnit "mass", (Blue, CText "amu"));
          (CAttr "charge", (Blue, CNum (Fin 0))); (CUnit "charge", (Blue, CText "e")); (CAttr "stick_coef", (Blue, CNum (Fin (1 # 2))))]);
     (3, [(CAttr "name", (Reset, CText "O+")); (CAttr "mass", (Reset, CNum (Fin 16))); (CUnit "mass", (Blue, CText "amu"));
          (CAttr "charge", (Reset, CNum (Fin 1))); (CUnit "charge", (Blue, CText "e")); (CAttr "stick_coef", (Blue, CNum (Fin 1)))]);
     (2, [(CAttr "name", (Red, CText "O*")); (CAttr "mass", (Red, CNum (Fin 16))); (CUnit "mass", (Red, CText "amu"));
          (CAttr "charge", (Red, CNum (Fin 0))); (CUnit "charge", (Red, CText "e")); (CAttr "stick_coef", (Red, CNum (Fin 1)))])].
Proof. exact (conj tables_hypotheses species_table). Qed.

(** C144: when the table of species cannot be had. *)
Theorem C144_raises E objs rxs c disabled special units ignored e :
  reachable E c -> objects E objs rxs c -> (forall o, In o objs -> sp_history o) ->
  (forall s z, iparse E s = Some z -> exists f, fparse E s = Some f) ->
  species_attributes E objs c disabled special true false units ignored = Err e ->
  exists o, In o objs /\
    ((exists a, In a ["stateless"; "h_form"; "lj_epsilon"; "lj_sigma"; "qdb_id"; "latex"] /\ ~ In a ignored /\
        forall v, ~ sp_returns E c disabled special o (CAttr a) v) \/
     (e = EValue /\ c_en c (rp_id o) = true /\
      ((exists n, get_name o = Ok n /\ In n ["e"; "M"]) \/
       (exists s, zget (rp_id o) (c_stick c) = Some (SStr s) /\ fparse E s = None)))).
Proof. exact (fun RE OB HI IR => table_raises E objs rxs c disabled special RE OB HI IR units ignored e). Qed.

(** A table that can be had without colours. *)
Theorem C144_electron_refuted : exists E objs rxs c,
  reachable E c /\ objects E objs rxs c /\ (forall o, In o objs -> sp_history o) /\
  species_attributes E objs c true true true false false ["latex"] = Err EValue /\
  exists t, species_attributes E objs c true true false false false ["latex"] = Ok t.
Proof. exact electron_fails. Qed.

Theorem C144_adhoc_refuted : exists E objs rxs c c',
  reachable E c /\ objects E objs rxs c /\ (forall o, In o objs -> sp_history o) /\
  Chemistry.step E c (OSetSp "stick_coef" (RName "O") (VStr "unknown")) = (c', Ok tt) /\
  (exists t, species_attributes E objs c true true true false false ["latex"] = Ok t) /\
  species_attributes E objs c' true true true false false ["latex"] = Err EValue.
Proof. exact adhoc_fails. Qed.

(** C145: the table of reactions. *)
Theorem C145_rows E boxed objs rxs c disabled pretty sort units ignored t :
  reachable E c -> objects E objs rxs c ->
  reactions_attributes E boxed objs rxs c disabled pretty sort false units ignored = Ok t ->
  (sort = false -> map fst t = map (fun x => LRx (rx_id x)) (get_reactions c disabled)) /\
  (sort = true -> exists species order, shown_order E objs rxs c disabled true species order /\
                    map fst t = map (fun r => LRx (cr_id r)) order).
Proof. exact (fun RE OB => rx_order E boxed objs rxs c disabled RE OB pretty sort units ignored t). Qed.

Theorem C145_cells E boxed objs rxs c disabled sort classify units ignored t :
  reachable E c -> objects E objs rxs c -> (forall r, In r rxs -> rx_history E r) ->
  reactions_attributes E boxed objs rxs c disabled true sort classify units ignored = Ok t ->
  forall i row, In (LRx i, row) t ->
    exists r, In r rxs /\ r_id r = i /\ rx_header units ignored (map fst row) /\
      forall k cl w, In (k, (cl, w)) row ->
        (cl = Red <-> c_enr c i = false) /\ (cl = Red \/ cl = Blue \/ cl = Reset) /\
        (k = CString -> cl <> Blue) /\
        (k <> CString \/ classify = false ->
         exists v, rx_returns E c disabled r k v /\ shows v w /\
           (cl = Blue <-> c_enr c i = true /\
              match k with
              | CAttr a => ~ says_same_rx E boxed (xattr r a) v
              | CUnit a => exists u, sget a (r_units r) = Some u /\ ~ text_cell u v
              | CString => False
              end)).
Proof. exact (fun RE OB HI => rx_cells E boxed objs rxs c disabled RE OB HI sort classify units ignored t). Qed.

Theorem C145_plain E boxed objs rxs c disabled sort classify units ignored t :
  reachable E c -> objects E objs rxs c -> (forall r, In r rxs -> rx_history E r) ->
  reactions_attributes E boxed objs rxs c disabled false sort classify units ignored = Ok t ->
  forall i row, In (LRx i, row) t ->
    exists r, In r rxs /\ r_id r = i /\ rx_header units ignored (map fst row) /\
      forall k cl w, In (k, (cl, w)) row ->
        cl = Reset /\ (k <> CString \/ classify = false -> rx_returns E c disabled r k w).
Proof. exact (fun RE OB HI => rx_plain E boxed objs rxs c disabled RE OB HI sort classify units ignored t). Qed.

Example C145_not_vacuous : exists t u,
  species_attributes ET objsT cT false true false false true [] = Ok t /\ map fst t = [3; 0; 1] /\
  reactions_attributes ET true objsT rxsT cT false false true false true [] = Ok u /\ map fst u = [LRx 1; LRx 2].
Proof. exact plain_tables. Qed.

(** C146: the layout of the classified table. *)
Theorem C146_layout E boxed objs rxs c disabled pretty sort units ignored t :
  reachable E c -> objects E objs rxs c ->
  reactions_attributes E boxed objs rxs c disabled pretty sort true units ignored = Ok t ->
  exists d species order W,
    shown_order E objs rxs c disabled sort species order /\
    NoDup (map fst d) /\ (forall tc, In tc d -> snd tc <> []) /\
    buckets d = filter (fun b => nonempty (snd b)) (map (fun tc => (tc, filter (in_class tc) order)) scheme_pairs) /\
    Permutation (List.concat (map snd (buckets d))) order /\
    map fst t = layout (ids_of d) /\
    (forall i row, In (LType i, row) t -> exists n ty cats,
       i = (1 + n)%nat /\ nth_error d n = Some (ty, cats) /\ rx_header units ignored (map fst row) /\
       heading_row (if pretty then Yellow else Reset) ty row) /\
    (forall i j row, In (LCat i j, row) t -> exists n ty cats m cat l s,
       i = (1 + n)%nat /\ j = (1 + m)%nat /\ nth_error d n = Some (ty, cats) /\ nth_error cats m = Some (cat, l) /\ cat <> "None" /\
       padded cat s /\ rx_header units ignored (map fst row) /\
       heading_row (if pretty then Magenta else Reset) s row) /\
    (forall i row, In (LRx i, row) t -> exists r s cl,
       In r order /\ i = cr_id r /\ text_ok species W r s /\ In (CString, (cl, CText s)) row).
Proof. exact (fun RE OB => rx_layout E boxed objs rxs c disabled RE OB pretty sort units ignored t). Qed.

Example C146_not_vacuous :
  (reachable ET cT /\ objects ET objsT rxsT cT /\ (forall o, In o objsT -> sp_history o) /\
   (forall r, In r rxsT -> rx_history ET r) /\ (forall s z, iparse ET s = Some z -> exists f, fparse ET s = Some f)) /\
  reactions_attributes ET true objsT rxsT cT true true true true true few_columns = Ok
    [(LType 1, [(CString, (Yellow, CText "ELECTRON IMPACT COLLISIONS")); (CAttr "arrh_a", (Reset, CText ""));
                (CUnit "arrh_a", (Reset, CText "")); (CAttr "elastic", (Reset, CText ""))]);
     (LCat 1 1, [(CString, (Magenta, CText "elastic and momentum transfer")); (CAttr "arrh_a", (Reset, CText ""));
                 (CUnit "arrh_a", (Reset, CText "")); (CAttr "elastic", (Reset, CText ""))]);
     (LRx 2, [(CString, (Reset, CText "e + O > e + O                ")); (CAttr "arrh_a", (Reset, CNum (Fin 3)));
              (CUnit "arrh_a", (Reset, CText "cm3.s-1")); (CAttr "elastic", (Reset, CBool true))]);
     (LCat 1 2, [(CString, (Magenta, CText "excitation                   ")); (CAttr "arrh_a", (Reset, CText ""));
                 (CUnit "arrh_a", (Reset, CText "")); (CAttr "elastic", (Reset, CText ""))]);
     (LRx 3, [(CString, (Red, CText "e + O > e + O*               ")); (CAttr "arrh_a", (Red, CNum (Fin 3)));
              (CUnit "arrh_a", (Red, CText "cm3.s-1")); (CAttr "elastic", (Red, CBool false))]);
     (LCat 1 3, [(CString, (Magenta, CText "ionization                   ")); (CAttr "arrh_a", (Reset, CText ""));
                 (CUnit "arrh_a", (Reset, CText "")); (CAttr "elastic", (Reset, CText ""))]);
     (LRx 1, [(CString, (Reset, CText "e + O > e + e + O+           ")); (CAttr "arrh_a", (Blue, CNum (Fin 7)));
              (CUnit "arrh_a", (Reset, CText "cm3.s-1")); (CAttr "elastic", (Blue, CBool false))])].
Proof. exact (conj tables_hypotheses reactions_table). Qed.

(** C147 *)
Theorem C147_width_refuted : exists E objs rxs c t i j row row' x y s s',
  reachable E c /\ objects E objs rxs c /\ (forall o, In o objs -> sp_history o) /\ (forall r, In r rxs -> rx_history E r) /\
  reactions_attributes E true objs rxs c true true false true false text_only = Ok t /\
  In (LRx i, row) t /\ In (LRx j, row') t /\ In (CString, (x, CText s)) row /\ In (CString, (y, CText s')) row' /\
  String.length s <> String.length s'.
Proof. exact uneven. Qed.

(** All theorems of this file at once (one traversal instead of one per
    theorem). *)
Definition all_theorems := (
  @C142_sorted,
  @C143_rows,
  @C143_sorted,
  @C143_cells,
  @C143_plain,
  @C144_raises,
  @C144_electron_refuted,
  @C144_adhoc_refuted,
  @C145_rows,
  @C145_cells,
  @C145_plain,
  @C146_layout,
  @C147_width_refuted).
Print Assumptions all_theorems.
