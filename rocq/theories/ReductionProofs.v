(** Every removal of a reduction keeps the history consistent. *)
From Coq Require Import Permutation Lqa.
From Verif Require Import Base BaseLemmas Species Reactions Chemistry ChemSpec ChemDisable ChemInv ChemHist ChemLoad ChemMain ChemGetters ChemMore
  Morris MorrisStats Tables InitialGuess GlobalModel GlobalSpec GlobalFiles GlobalLog GlobalProofs GlobalMore
  Reduction ReductionSpec ReductionChem ReductionRun.
Open Scope list_scope.

(** * The limit *)
Lemma over_iff k e : over k e = true <-> over_limit k e.
Proof.
  unfold over, over_limit. destruct e as [q| | |]; cbn [fltb]; try (split; [discriminate|contradiction]); [|now split].
  rewrite negb_true_iff. split.
  - intros H. apply Qnot_le_lt. intros L. apply Qle_bool_iff in L. congruence.
  - intros H. destruct (Qle_bool q (rc_max k / 100)) eqn:L; [|reflexivity]. apply Qle_bool_iff in L. exfalso. lra.
Qed.
Lemma within_iff k e : fleb e (Fin (rc_max k / 100)) = true <-> within_limit k e.
Proof.
  unfold within_limit, fleb. destruct e as [q| | |]; cbn [fltb feqb orb]; try (split; [discriminate|contradiction]); [|now split].
  rewrite orb_true_iff, negb_true_iff. split.
  - intros [H|H]; [|apply Qeq_bool_iff in H; lra]. apply Qlt_le_weak, Qnot_le_lt. intros L. apply Qle_bool_iff in L. congruence.
  - intros H. destruct (Qeq_bool q (rc_max k / 100)) eqn:X; [now right|left].
    destruct (Qle_bool (rc_max k / 100) q) eqn:L; [|reflexivity]. apply Qle_bool_iff in L. apply Qeq_bool_neq in X. exfalso. apply X. lra.
Qed.
Lemma within_not_over k e : e <> NaN -> (within_limit k e <-> over k e = false).
Proof.
  intros N. assert (over k e = false <-> ~ over_limit k e) as ->.
  { rewrite <- over_iff. destruct (over k e); split; congruence. }
  unfold within_limit, over_limit. destruct e as [q| | |]; [|tauto|tauto|congruence].
  split; [lra|apply Qnot_lt_le].
Qed.

(** * Lists of names *)
Lemma minus_In x l m : In x (minus l m) <-> In x l /\ ~ In x m.
Proof.
  unfold minus. rewrite filter_In, negb_true_iff. split; intros [A B]; (split; [exact A|]).
  - now apply memS_false.
  - now apply memS_false.
Qed.
Lemma set_remove_sub x l l' : set_remove x l = Ok l' -> In x l /\ forall y, In y l' <-> In y l /\ y <> x.
Proof.
  unfold set_remove. destruct (memS x l) eqn:M; [|discriminate]. intros H. injection H as <-. split; [now apply memS_In|].
  intros y. rewrite minus_In. cbn [In]. intuition.
Qed.
Lemma set_remove_all_sub xs : forall l l', set_remove_all xs l = (l', Ok tt) ->
  (forall x, In x xs -> In x l) /\ forall y, In y l' <-> In y l /\ ~ In y xs.
Proof.
  induction xs as [|x xs IH]; intros l l'; cbn [set_remove_all].
  - intros H. injection H as <-. split; [intros x []|]. intros y. cbn. tauto.
  - destruct (set_remove x l) as [l1|e] eqn:S; [|discriminate]. intros H. apply set_remove_sub in S. destruct S as [S1 S2].
    destruct (IH _ _ H) as [A B]. split.
    + intros y [<-|I]; [exact S1|]. now apply S2, A.
    + intros y. rewrite B, S2. cbn [In]. intuition.
Qed.

(** * Which run to go back to *)
Definition some_id (o : option string) : bool := match o with Some _ => true | None => false end.
Lemma last_some (l : list (option string)) rid m : rev (filter some_id l) = Some rid :: m ->
  exists l1 l2, l = l1 ++ Some rid :: l2 /\ forall o, In o l2 -> o = None.
Proof.
  revert m. induction l as [|o l IH] using rev_ind; intros m; [discriminate|].
  rewrite filter_app, rev_app_distr. destruct o as [s|]; cbn [filter some_id rev app].
  - intros H. injection H as -> _. exists l, []. split; [reflexivity|]. intros o [].
  - intros H. destruct (IH _ H) as (l1 & l2 & -> & N). exists l1, (l2 ++ [None]). split; [now rewrite <- app_assoc|].
    intros o I. apply in_app_iff in I. destruct I as [I|[<-|[]]]; auto.
Qed.
Lemma restore_id_row k bt h rid : restore_id k bt h = Ok rid ->
  exists r, In r h /\ h_success r = Some true /\ h_run r = Some rid.
Proof.
  unfold restore_id. destruct (existsb _ h); [discriminate|].
  destruct (rev _) as [|[x|] m] eqn:R; [discriminate| |discriminate]. intros H. injection H as ->.
  apply last_some in R. destruct R as (l1 & l2 & E & _). assert (I : In (Some rid) (map h_run (filter (restorable k bt) h))).
  { rewrite E. apply in_app_iff. right. now left. }
  apply in_map_iff in I. destruct I as (r & Hr & I). apply filter_In in I. destruct I as [I M]. exists r. split; [exact I|].
  split; [|exact Hr]. unfold restorable in M. destruct (h_success r) as [[]|]; [reflexivity|discriminate|discriminate].
Qed.
Lemma restore_id_snoc k bt h r : (forall q, In q h -> h_success q <> None) -> h_success r <> None ->
  (h_success r = Some true -> exists rid, h_run r = Some rid) ->
  restore_id k bt (h ++ [r]) = if restorable k bt r then match h_run r with Some rid => Ok rid | None => Err EIndex end else restore_id k bt h.
Proof.
  intros A B C. unfold restore_id.
  assert (N : forall l, (forall q : hrow, In q l -> h_success q <> None) ->
              existsb (fun r => match h_success r with None => true | Some _ => false end) l = false).
  { intros l HL. destruct (existsb _ l) eqn:X; [|reflexivity]. apply existsb_exists in X. destruct X as (q & I & X).
    specialize (HL q I). destruct (h_success q); [discriminate|congruence]. }
  rewrite !N; [|exact A|intros q I; apply in_app_iff in I; destruct I as [I|[<-|[]]]; auto].
  rewrite filter_app. cbn [filter]. destruct (restorable k bt r) eqn:R.
  - rewrite map_app, filter_app, rev_app_distr. cbn [map filter].
    assert (S : h_success r = Some true) by (unfold restorable in R; destruct (h_success r) as [[]|]; [reflexivity|discriminate|discriminate]).
    destruct (C S) as (rid & ->). reflexivity.
  - now rewrite app_nil_r.
Qed.

Section R.
  Variables (E : env) (fhash : string -> option string) (default_dir : string -> res path) (scan : list path -> list path).
  Variable backend : nat -> solving.
  Variable k : rconf.
  Hypothesis scan_perm : forall l, Permutation (scan l) l.
  Variable c0 : chem.
  Hypothesis c0_reachable : reachable E c0.
  Hypothesis c0_declared : declared_exist c0.
  Let remove_one := remove_one E fhash default_dir scan backend k.

  Definition good (c : chem) : Prop := version_of E c0 c /\ reachable E c.

  Lemma good_declared c : good c -> declared_exist c.
  Proof using c0_declared. intros [[[_ [S _]] _] _]. now apply (declared_same c0). Qed.
  Lemma good_input c d : good c -> good d -> same_input c d /\ c_xml c = c_xml d.
  Proof. intros [[(A & B & C) [D _]] _] [[(A' & B' & C') [D' _]] _]. repeat split; congruence. Qed.
  Lemma good_disable c ss rs : good c -> good (fst (disable c ss rs)).
  Proof.
    intros [[(A & B & C) (D & P & S & T & U)] R]. pose proof (i_wf _ (reachable_Inv E c R)) as W.
    split; [|exact (reach_step E c (ODisable ss rs) R)].
    destruct (disable c ss rs) as [c1 o] eqn:H. cbn [fst]. destruct (disable_frame c ss rs c1 o W H) as ((F1 & F2 & F3 & F4 & F5 & F6 & F7) & F8 & _).
    unfold version_of. rewrite F5, F6, F7, F8, F4. split; [repeat split; congruence|auto].
  Qed.
  Lemma good_same c d : good d -> same_chem E d c -> reachable E c -> good c.
  Proof.
    intros [[(A & B & C) (D & P & S & T & U)] _] (X1 & X2 & X3 & X4 & X5 & X6 & X7 & X8 & X9) R. split; [|exact R].
    split; [repeat split; congruence|]. split; [congruence|]. split.
    - intros s I. rewrite <- (P s I). symmetry. apply X5. congruence.
    - unfold same_values in *. repeat split; congruence.
  Qed.

  (** Files of runs stay. *)
  Definition runs_kept (s s' : gfs) : Prop :=
    fs_ok s' /\ forall rid name c, rid <> ""%string ->
      fget (run_path (rc_dir k) rid ++ [name]) (fs_files s) = Some c ->
      fget (run_path (rc_dir k) rid ++ [name]) (fs_files s') = Some c.
  Lemma runs_kept_trans a b c : runs_kept a b -> runs_kept b c -> runs_kept a c.
  Proof. intros [_ A] [O B]. split; auto. Qed.
  Lemma untouched_runs s s' : untouched s s' -> runs_kept s s'.
  Proof. intros [O [_ K]]. split; auto. Qed.
  Lemma run_file_not_hist rid name : rid <> ""%string -> run_path (rc_dir k) rid ++ [name] <> hist_path k.
  Proof.
    intros N H. unfold run_path, hist_path in H. destruct (String.eqb_spec rid ""); [contradiction|].
    rewrite <- app_assoc in H. cbn [app] in H. apply app_inv_head in H. discriminate.
  Qed.
  Lemma log_history_spec st st' : fs_ok (r_fs st) -> log_history k st = (st', Ok tt) ->
    exists s, st' = with_fs st s /\ runs_kept (r_fs st) s /\ fget (hist_path k) (fs_files s) = Some (CHist (r_hist st)).
  Proof.
    intros O. unfold log_history. pose proof (put_ok (hist_path k) (CHist (r_hist st)) (r_fs st) O) as PO.
    destruct (put_inv (hist_path k) (CHist (r_hist st)) (r_fs st)) as [P|(P & _ & _)]; rewrite P in *; [discriminate|].
    intros H. injection H as <-. eexists. split; [reflexivity|]. split.
    - split; [exact PO|]. intros rid name c N F. cbn [fs_files]. rewrite fget_other; [exact F|now apply run_file_not_hist].
    - cbn [fs_files]. apply fget_same.
  Qed.
  Lemma base_id_ne : base_id <> ""%string. Proof. discriminate. Qed.
  Lemma model_id_ne n sp : model_id E n sp <> ""%string.
  Proof.
    unfold model_id. destruct (two_digits E n); cbn; discriminate.
  Qed.

  (** Going back. *)
  Lemma restore_spec st rid c d a st' : gm_chem (r_gm st) = Some c -> good c -> good d -> chemistry_attributes E fhash d = Ok a ->
    fget (attrs_path k rid) (fs_files (r_fs st)) = Some (CAttrs a) -> restore E fhash k st rid = (st', Ok tt) ->
    exists c' g, st' = with_gm st g /\ gm_chem g = Some c' /\ good c' /\ same_chem E d c'.
  Proof using c0_declared.
    intros C G D A F. unfold restore. rewrite C, F. destruct (load E fhash c a true) as [c' o] eqn:L.
    intros H. injection H as <- ->. exists c', (set_chem (r_gm st) c'). split; [reflexivity|]. split.
    { unfold gm_chem in *. unfold set_chem. cbn. destruct (gm_model (r_gm st)); [reflexivity|discriminate]. }
    destruct (good_input c d G D) as [SI X].
    enough (SC : same_chem E d c').
    { split; [|exact SC]. apply (good_same c' d D SC). pose proof (reach_load E fhash fhash c d a true (proj2 G) (proj2 D) SI A) as Y. now rewrite L in Y. }
    apply (load_restores E fhash c d a c'); [apply (reachable_Inv E), G|apply (reachable_Inv E), D|now apply good_declared|exact SI|exact X|exact A|exact L].
  Qed.

  (** The chemistry [c] is the one logged under the run to go back to. *)
  Definition can_go_back (bt : bool) (st : rstate) : Prop :=
    exists c rid d a, gm_chem (r_gm st) = Some c /\ restore_id k bt (r_hist st) = Ok rid /\ rid <> ""%string /\ good d /\
      chemistry_attributes E fhash d = Ok a /\ fget (attrs_path k rid) (fs_files (r_fs st)) = Some (CAttrs a) /\ same_chem E c d.

  Record inv (bt : bool) (st : rstate) : Prop := {
    v_fs : fs_ok (r_fs st);
    v_all : r_all st = names_of c0;
    v_chem : exists c, gm_chem (r_gm st) = Some c /\ good c;
    v_eligible : forall x, In x (r_eligible st) -> removable k c0 x;
    v_dumps : forall r, In r (r_hist st) -> h_success r = Some true ->
      exists rid d a, h_run r = Some rid /\ rid <> ""%string /\ good d /\ chemistry_attributes E fhash d = Ok a /\
        fget (attrs_path k rid) (fs_files (r_fs st)) = Some (CAttrs a);
    v_success : forall r, In r (r_hist st) -> h_success r <> None;
    v_back : numbers bt (r_hist st) -> can_go_back bt st;
    v_base : exists base, r_base st = Some base;
    v_nonempty : r_hist st <> []
  }.

  (** The successful and the unsuccessful removals. *)
  Inductive step_of (bt : bool) (st : rstate) (sp : string) (st' : rstate) (row : hrow) (c c' : chem) : Prop :=
  | so_failed : h_success row = Some false -> h_more row = [] -> r_eligible st' = r_eligible st -> h_base row = NaN ->
      (numbers bt (r_hist st) -> same_chem E c c') -> step_of bt st sp st' row c c'
  | so_done rid c1 base sol : h_success row = Some true -> h_run row = Some rid -> rid <> ""%string ->
      disable c [RName sp] [] = (c1, Ok tt) -> good c1 ->
      logged_run E fhash k (r_fs st') rid c1 sol ->
      h_left row = Z.of_nat (List.length (names_of c1)) ->
      h_removed row = (Z.of_nat (List.length (names_of c0)) - h_left row)%Z ->
      r_base st = Some base -> get_error_max base sol (rc_outs k) (rc_times k) = Ok (h_base row) ->
      (forall x, removed_by row x <-> In x (names_of c) /\ ~ In x (names_of c1)) ->
      (forall x, In x (h_more row) -> In x (r_eligible st)) ->
      ((bt && over k (h_base row) = false /\ c' = c1 /\ (forall x, In x (r_eligible st') <-> In x (r_eligible st) /\ ~ removed_by row x)) \/
       (bt && over k (h_base row) = true /\ (numbers bt (r_hist st) -> same_chem E c c') /\
        (forall x, In x (r_eligible st') <-> In x (r_eligible st)))) ->
      step_of bt st sp st' row c c'.

  Lemma restore_back bt st0 st rid c1 st' : inv bt st0 -> restore_id k bt (r_hist st0) = Ok rid ->
    runs_kept (r_fs st0) (r_fs st) -> gm_chem (r_gm st) = Some c1 -> good c1 -> restore E fhash k st rid = (st', Ok tt) ->
    exists c' g, st' = with_gm st g /\ gm_chem g = Some c' /\ good c' /\
      (numbers bt (r_hist st0) -> forall c, gm_chem (r_gm st0) = Some c -> same_chem E c c').
  Proof using c0_declared.
    intros I B [_ K] C G H. destruct (restore_id_row _ _ _ _ B) as (r & Ir & Sr & Rr).
    destruct (v_dumps _ _ I r Ir Sr) as (rid' & d & a & R' & N & Gd & A & F). rewrite Rr in R'. injection R' as <-.
    destruct (restore_spec st rid c1 d a st' C G Gd A (K rid _ _ N F) H) as (c' & g & E1 & E2 & E3 & _).
    exists c', g. repeat (split; [assumption|]). intros NU c HC.
    destruct (v_back _ _ I NU) as (c2 & rid2 & d2 & a2 & C2 & B2 & N2 & G2 & A2 & F2 & S2).
    rewrite HC in C2. injection C2 as <-. rewrite B in B2. injection B2 as <-.
    destruct (restore_spec st rid c1 d2 a2 st' C G G2 A2 (K rid _ _ N F2) H) as (c3 & g3 & X1 & X2 & X3 & X4).
    assert (g3 = g) by (rewrite E1 in X1; unfold with_gm in X1; now injection X1 as ->). subst g3.
    rewrite E2 in X2. injection X2 as <-. now apply (same_chem_trans E c d2).
  Qed.

  Lemma names_sub c c1 : good c -> forall ss rs, disable c ss rs = (c1, Ok tt) -> forall x, In x (names_of c1) -> In x (names_of c).
  Proof.
    intros [_ R] ss rs H x. destruct (disable_closed_r E c R _ _ _ H) as (_ & _ & _ & _ & M & _ & (_ & S & _) & _).
    rewrite !present_names. intros (s & I & Nm & En & NS). exists s. rewrite S in I. repeat split; auto.
  Qed.

  Lemma set_chem_chem g c c1 : gm_chem g = Some c -> gm_chem (set_chem g c1) = Some c1.
  Proof. unfold gm_chem, set_chem. cbn. destruct (gm_model g); [reflexivity|discriminate]. Qed.

  Theorem remove_one_step bt st sp score st' row : inv bt st -> remove_one st sp score bt = (st', Ok row) ->
    In sp (r_eligible st) /\ ~ In sp (r_tried st) /\ r_tried st' = r_tried st ++ [sp] /\ r_hist st' = r_hist st ++ [row] /\
    List.length (r_hist st) = S (List.length (r_tried st)) /\
    h_species row = Some sp /\ h_score row = Some score /\
    runs_kept (r_fs st) (r_fs st') /\ fget (hist_path k) (fs_files (r_fs st')) = Some (CHist (r_hist st')) /\
    r_all st' = r_all st /\ r_base st' = r_base st /\
    exists c c', gm_chem (r_gm st) = Some c /\ gm_chem (r_gm st') = Some c' /\ good c' /\ step_of bt st sp st' row c c'.
  Proof using scan_perm c0_declared.
    intros I. unfold remove_one, Reduction.remove_one.
    destruct (v_chem _ _ I) as (c & C & G).
    destruct (r_hist st) as [|r0 h0] eqn:HH; [discriminate|]. rewrite <- HH. clear r0 h0 HH.
    match goal with |- _ -> ?x => set (GOAL := x) end.
    destruct (memS sp (r_eligible st)) eqn:EL; cbn [negb]; [|discriminate].
    destruct (memS sp (r_tried st)) eqn:TR; [discriminate|].
    destruct (check_meta k (r_fs st)) as [[]|]; [|discriminate].
    cbn [with_tried r_tried r_hist r_gm].
    destruct (Nat.eqb_spec (List.length (r_tried st ++ [sp])) (List.length (r_hist st))) as [LEN|]; cbn [negb]; [|discriminate].
    destruct (restore_id k bt (r_hist st)) as [back|] eqn:B; [|discriminate].
    cbn [with_hist with_tried r_gm]. rewrite C. set (rid := model_id E _ sp).
    assert (RN : rid <> ""%string) by apply model_id_ne. clearbody rid.
    apply memS_In in EL. apply memS_false in TR. rewrite app_length in LEN. cbn [List.length] in LEN. 
    match goal with |- context [attempt _ _ _ _ _ _ ?s sp rid back] => set (st2 := s) end.
    assert (ST2 : r_fs st2 = r_fs st) by reflexivity.
    destruct (attempt E fhash default_dir scan backend k st2 sp rid back) as [st3 [success|e]] eqn:AT; [|discriminate].
    (* the attempt *)
    assert (AS : exists c3, gm_chem (r_gm st3) = Some c3 /\ good c3 /\ runs_kept (r_fs st) (r_fs st3) /\
        r_tried st3 = r_tried st ++ [sp] /\ r_all st3 = r_all st /\ r_base st3 = r_base st /\
        (success = false -> r_eligible st3 = r_eligible st /\ (numbers bt (r_hist st) -> same_chem E c c3)) /\
        (success = true -> disable c [RName sp] [] = (c3, Ok tt) /\ (forall x, In x (r_eligible st3) <-> In x (r_eligible st) /\ x <> sp) /\
           exists r, get_solution (r_gm st3) = Ok (rw_sol r) /\ logged_run E fhash k (r_fs st3) rid c3 (rw_sol r))).
    { unfold attempt in AT. change (r_gm st2) with (r_gm st) in AT. rewrite C in AT.
      pose proof (good_disable c [RName sp] [] G) as G1.
      destruct (consistent_r E c (proj2 G) (good_declared c G)) as (CON & _).
      destruct (disable c [RName sp] []) as [c1 [[]|e]] eqn:D; cbn [fst] in G1.
      2: { destruct (disable_failed_r E c (proj2 G) _ _ _ _ CON D) as [-> [->|[->| ->]]]; [discriminate|discriminate|].
           injection AT as <- <-. exists c. cbn [with_gm r_gm r_fs r_tried r_all r_base r_eligible st2]. split; [now apply (set_chem_chem _ c)|].
           split; [exact G|]. split; [split; [apply I|auto]|]. repeat (split; [reflexivity|]). split; [|discriminate].
           intros _. split; [reflexivity|]. intros _. apply same_chem_refl. }
      pose proof (set_chem_chem _ _ c1 C) as SC.
      set (st2' := with_gm st2 _) in AT.
      destruct (run_model E fhash default_dir scan backend k st2' rid) as [st4 o] eqn:RM.
      destruct (run_model_spec E fhash default_dir scan backend k scan_perm st2' rid st4 o (v_fs _ _ I) RN RM)
        as (UN & GC & E1 & E2 & E3 & E4 & E5 & E6 & FIN).
      apply untouched_runs in UN. cbn [st2' with_gm r_gm] in GC. rewrite SC in GC.
      destruct o as [[]|e].
      - destruct (set_remove sp (r_eligible st4)) as [l|] eqn:SR; [|discriminate]. injection AT as <- <-.
        exists c1. cbn [with_eligible r_gm r_fs r_tried r_all r_base r_eligible]. split; [exact GC|]. split; [exact G1|].
        split; [exact UN|]. split; [exact E2|]. split; [exact E1|]. split; [exact E5|]. split; [discriminate|]. intros _. split; [reflexivity|].
        destruct (set_remove_sub _ _ _ SR) as [_ SS]. rewrite E3 in SS. split; [exact SS|].
        destruct (FIN eq_refl) as (c1' & r & a & t & X1 & X2 & _ & X4 & X5 & X6 & X7). cbn [st2' with_gm r_gm] in X1. rewrite SC in X1. injection X1 as <-.
        exists r. split; [exact X4|]. exists a, t. repeat (split; [assumption|]). exact X7.
      - assert (RS : exists st5, restore E fhash k st4 back = (st5, Ok tt) /\ st3 = st5 /\ success = false).
        { destruct e; try discriminate AT; destruct (restore E fhash k st4 back) as [st5 [[]|]]; try discriminate AT; injection AT as <- <-; eauto. }
        destruct RS as (st5 & RS & -> & ->). clear AT.
        destruct (restore_back bt st st4 back c1 st5 I B UN GC G1 RS) as (c' & g & -> & GG & G' & SM).
        exists c'. cbn [with_gm r_gm r_fs r_tried r_all r_base r_eligible]. split; [exact GG|]. split; [exact G'|]. split; [exact UN|].
        split; [exact E2|]. split; [exact E1|]. split; [exact E5|]. split; [|discriminate]. intros _. split; [exact E3|].
        intros NU. now apply SM. }
    clear AT. destruct AS as (c3 & C3 & G3 & K3 & T3 & A3 & B3 & AF & AD). rewrite C3.
    destruct success.
    2: { destruct (AF eq_refl) as [EL3 SM]. clear AD AF.
         set (row0 := MkRow _ _ _ _ _ _ _ _ _).
         destruct (log_history k (with_hist st3 (r_hist st ++ [row0]))) as [st4 [[]|]] eqn:L; [|discriminate].
         intros H. injection H as <- <-. apply log_history_spec in L; [|apply K3]. unfold GOAL. destruct L as (s & -> & KS & FS).
         cbn [with_fs with_hist r_hist r_tried r_fs r_all r_base r_gm] in *.
         split; [exact EL|]. split; [exact TR|]. split; [exact T3|]. split; [reflexivity|]. split; [lia|]. split; [reflexivity|]. split; [reflexivity|].
         split; [now apply (runs_kept_trans _ (r_fs st3))|]. split; [exact FS|]. split; [exact A3|]. split; [exact B3|].
         exists c, c3. split; [exact C|]. split; [exact C3|]. split; [exact G3|]. apply so_failed; auto. }
    destruct (AD eq_refl) as (DIS & EL3 & r & GS & LR). clear AF AD.
    unfold assess. cbn [h_species h_score h_success h_removed h_left].
    destruct (memS sp (minus (names_of c) (names_of c3))) eqn:MS; cbn [negb]; [|discriminate].
    apply memS_In in MS. set (more := minus (minus (names_of c) (names_of c3)) [sp]).
    destruct (set_remove_all more (r_eligible st3)) as [l [[]|]] eqn:SA; [|discriminate].
    destruct (set_remove_all_sub _ _ _ SA) as [SA1 SA2]. cbn [with_eligible r_gm r_base r_last]. rewrite GS, B3.
    destruct (r_base st) as [base|] eqn:RB; [|discriminate]. destruct (r_last st3) as [lastt|]; [|discriminate].
    destruct (get_error_max base (rw_sol r) (rc_outs k) (rc_times k)) as [eb|] eqn:EB; [|discriminate].
    destruct (get_error_max lastt (rw_sol r) (rc_outs k) (rc_times k)) as [el|] eqn:EE; [|discriminate].
    set (row3 := MkRow _ _ _ _ _ _ _ _ _). assert (A3' : r_all st3 = names_of c0) by (rewrite A3; apply I).
    assert (RBY : forall x, removed_by row3 x <-> In x (names_of c) /\ ~ In x (names_of c3)).
    { intros x. unfold removed_by. cbn [row3 h_species h_more]. unfold more. rewrite !minus_In. rewrite minus_In in MS. cbn [In].
      split.
      - intros [X|X]; [injection X as <-; exact MS|tauto].
      - intros X. destruct (string_dec sp x) as [<-|N]; [now left|right]. intuition. }
    set (st5 := with_hist _ _).
    assert (LASTSTEP : forall st4 c' (P : (bt && over k eb = false /\ c' = c3 /\ (forall x, In x (r_eligible st4) <-> In x (r_eligible st) /\ ~ removed_by row3 x)) \/
       (bt && over k eb = true /\ (numbers bt (r_hist st) -> same_chem E c c') /\ (forall x, In x (r_eligible st4) <-> In x (r_eligible st)))),
       gm_chem (r_gm st4) = Some c' -> good c' -> r_fs st4 = r_fs st3 -> r_tried st4 = r_tried st3 -> r_all st4 = r_all st3 -> r_base st4 = Some base ->
       r_hist st4 = r_hist st ++ [row3] ->
       (let (st5, r) := log_history k st4 in match r with Ok _ => (st5, Ok row3) | Err e => (st5, Err e) end) = (st', Ok row) ->
       GOAL).
    { intros st4 c' P H1 H2 H3 H4 H5 H6 H7 H. unfold GOAL. clear GOAL.
      destruct (log_history k st4) as [st6 [[]|]] eqn:L; [|discriminate]. injection H as <- <-.
      apply log_history_spec in L; [|rewrite H3; apply K3]. destruct L as (s & -> & KS & FS). rewrite H3 in KS. rewrite H7 in FS.
      cbn [with_fs r_hist r_tried r_fs r_all r_base r_gm r_eligible].
      split; [exact EL|]. split; [exact TR|]. split; [congruence|]. split; [exact H7|]. split; [lia|]. split; [reflexivity|]. split; [reflexivity|].
      split; [now apply (runs_kept_trans _ (r_fs st3))|]. split; [rewrite H7; exact FS|]. split; [congruence|]. split; [exact H6|].
      exists c, c'. split; [exact C|]. split; [exact H1|]. split; [exact H2|].
      apply (so_done _ _ _ _ _ _ _ rid c3 base (rw_sol r)); try assumption; try reflexivity.
      - destruct LR as (a & t & X1 & X2 & X3 & X4). exists a, t. split; [exact X1|]. split; [now apply KS|]. split; [exact X3|]. now apply KS.
      - cbn [row3 h_removed h_left]. now rewrite A3'.
      - intros x X. now apply SA1, EL3 in X. }
    destruct (bt && over k eb) eqn:OV.
    - destruct (restore E fhash k st5 back) as [st6 [[]|]] eqn:RS; [|discriminate].
      destruct (restore_back bt st st5 back c3 st6 I B K3 C3 G3 RS) as (c' & g & -> & GG & G' & SM).
      intros H. eapply LASTSTEP in H.
      + exact H.
      + right. split; [reflexivity|]. split; [intros NU; now apply SM|]. cbn [with_eligible r_eligible with_gm st5 with_hist].
        intros x. cbn [In]. rewrite in_app_iff, SA2, EL3. split.
        * intros [<-|[X|X]]; [exact EL|now apply SA1, EL3 in X|tauto].
        * intros X. destruct (string_dec sp x) as [<-|N]; [now left|right]. destruct (in_dec string_dec x more); [now left|right]. intuition.
      + exact GG.
      + exact G'.
      + reflexivity.
      + reflexivity.
      + reflexivity.
      + exact B3.
      + reflexivity.
    - intros H. eapply LASTSTEP in H.
      + exact H.
      + left. split; [reflexivity|]. split; [reflexivity|]. cbn [with_sols r_eligible st5 with_hist]. intros x. rewrite SA2, EL3.
        unfold removed_by. cbn [row3 h_species h_more]. split.
        * intros [[A N] M]. split; [exact A|]. intros [X|X]; [congruence|contradiction].
        * intros [A N]. split; [split; [exact A|]|]; intros X; apply N; [left; congruence|now right].
      + exact C3.
      + exact G3.
      + reflexivity.
      + reflexivity.
      + reflexivity.
      + exact B3.
      + reflexivity.
  Qed.

  Lemma numbers_app bt h r : numbers bt (h ++ [r]) -> numbers bt h /\ (bt = true -> h_success r = Some true -> h_base r <> NaN).
  Proof. intros N. split; [intros B q I; apply N; [exact B|apply in_app_iff; now left]|]. intros B. apply N; [exact B|apply in_app_iff; right; now left]. Qed.

  Lemma restorable_stays bt r : restorable k bt r = true <-> stays k bt r.
  Proof.
    unfold restorable, stays. destruct (h_success r) as [[]|]; [|split; [discriminate|intros [X _]; discriminate]..].
    destruct bt; [rewrite within_iff; tauto|]. split; [split; [reflexivity|discriminate]|reflexivity].
  Qed.
  Lemma stays_done bt r : h_success r = Some true -> (bt = true -> h_base r <> NaN) -> (stays k bt r <-> bt && over k (h_base r) = false).
  Proof.
    intros S N. unfold stays. destruct bt; cbn [andb].
    - rewrite <- (within_not_over k _ (N eq_refl)). intuition.
    - split; [reflexivity|]. intros _. split; [exact S|discriminate].
  Qed.

  Lemma eligible_step bt st sp st' row c c' : step_of bt st sp st' row c c' -> forall x, In x (r_eligible st') -> In x (r_eligible st).
  Proof. intros S x. destruct S as [_ _ -> _ _|rid c1 base sol _ _ _ _ _ _ _ _ _ _ _ _ [(_ & _ & X)|(_ & _ & X)]]; [auto| |]; rewrite X; tauto. Qed.

  Lemma inv_step bt st sp score st' row : inv bt st -> remove_one st sp score bt = (st', Ok row) -> inv bt st'.
  Proof using scan_perm c0_declared.
    intros I H. destruct (remove_one_step bt st sp score st' row I H) as (H1 & H2 & H3 & H4 & H5 & H6 & H7 & H8 & H9 & H10 & H11 & c & c' & C & C' & G' & S).
    constructor.
    - apply H8.
    - rewrite H10. apply I.
    - eauto.
    - intros x X. apply (v_eligible _ _ I). now apply (eligible_step _ _ _ _ _ _ _ S).
    - intros r Ir Sr. rewrite H4 in Ir. apply in_app_iff in Ir. destruct Ir as [Ir|[<-|[]]].
      + destruct (v_dumps _ _ I r Ir Sr) as (rid & d & a & A1 & A2 & A3 & A4 & A5). exists rid, d, a. repeat (split; [assumption|]).
        now apply H8.
      + destruct S as [S|rid c1 base sol S1 S2 S3 S4 S5 (a & t & L1 & L2 & _) _ _ _ _ _ _ _]; [congruence|]. exists rid, c1, a. auto.
    - intros r Ir. rewrite H4 in Ir. apply in_app_iff in Ir. destruct Ir as [Ir|[<-|[]]]; [now apply (v_success _ _ I)|].
      destruct S; congruence.
    - intros NU. rewrite H4 in NU. destruct (numbers_app _ _ _ NU) as [NU1 NU2].
      destruct (v_back _ _ I NU1) as (c2 & rid0 & d0 & a0 & B1 & B2 & B3 & B4 & B5 & B6 & B7). rewrite C in B1. injection B1 as <-.
      assert (RI : restore_id k bt (r_hist st') = if restorable k bt row then match h_run row with Some rid => Ok rid | None => Err EIndex end
                                                  else restore_id k bt (r_hist st)).
      { rewrite H4. apply restore_id_snoc; [apply (v_success _ _ I)|destruct S; congruence|]. intros X. destruct S; [congruence|eauto]. }
      assert (OLD : restorable k bt row = false -> same_chem E c c' -> can_go_back bt st').
      { intros X Y. rewrite X in RI. exists c', rid0, d0, a0. split; [exact C'|]. split; [now rewrite RI|]. split; [exact B3|].
        split; [exact B4|]. split; [exact B5|]. split; [now apply H8|]. apply (same_chem_trans E c' c); [now apply same_chem_sym|exact B7]. }
      destruct S as [S1 S2 S3 S4 S5|rid c1 base sol S1 S2 S3 S4 S5 (a & t & L1 & L2 & _) S6 S7 S8 S9 S10 S11 [(O & -> & _)|(O & SM & _)]].
      + apply OLD; [|auto]. unfold restorable. now rewrite S1.
      + assert (X : restorable k bt row = true) by (apply restorable_stays, stays_done; auto). rewrite X, S2 in RI.
        exists c1, rid, c1, a. repeat (split; [assumption|]). apply same_chem_refl.
      + apply OLD; [|auto]. destruct (restorable k bt row) eqn:X; [|reflexivity]. apply restorable_stays, stays_done in X; auto. congruence.
    - rewrite H11. apply I.
    - rewrite H4. intros X. apply app_eq_nil in X. destruct X; discriminate.
  Qed.

  Lemma numbers_of bt h r : numbers bt (h ++ [r]) -> numbers bt h. Proof. intros N. exact (proj1 (numbers_app bt h r N)). Qed.

  Lemma split_snoc {A} (h : list A) x h1 r h2 : h ++ [x] = h1 ++ r :: h2 ->
    (exists h3, h2 = h3 ++ [x] /\ h = h1 ++ r :: h3) \/ (h2 = [] /\ r = x /\ h1 = h).
  Proof.
    destruct h2 as [|y h2 _] using rev_ind.
    - intros H. apply app_inj_tail in H. destruct H as [-> ->]. auto.
    - rewrite app_comm_cons, app_assoc. intros H. apply app_inj_tail in H. destruct H as [-> ->]. left. eauto.
  Qed.

  Lemma history_step bt st sp score st' row : inv bt st -> consistent_history E fhash k bt c0 st ->
    remove_one st sp score bt = (st', Ok row) -> consistent_history E fhash k bt c0 st'.
  Proof using scan_perm c0_declared.
    intros I CH H. destruct (remove_one_step bt st sp score st' row I H) as (H1 & H2 & H3 & H4 & H5 & H6 & H7 & H8 & H9 & H10 & H11 & c & c' & C & C' & G' & S).
    destruct (ch_chem _ _ _ _ _ _ CH) as (c2 & C2 & V2 & R2 & P2). rewrite C in C2. injection C2 as <-.
    assert (DONE : forall c1, disable c [RName sp] [] = (c1, Ok tt) -> (forall x, removed_by row x <-> In x (names_of c) /\ ~ In x (names_of c1)) ->
              forall x, present c1 x <-> present c x /\ ~ removed_by row x).
    { intros c1 D X x. rewrite <- !present_names, X. pose proof (names_sub c c1 (conj V2 R2) _ _ D x) as SUB.
      destruct (in_dec string_dec x (names_of c1)); tauto. }
    constructor.
    - rewrite H4, H3, !map_app, (ch_rows _ _ _ _ _ _ CH). cbn [map app]. now rewrite H6.
    - rewrite H3. apply (Permutation_NoDup (Permutation_cons_append _ sp)). constructor; [exact H2|apply CH].
    - intros x. rewrite H3, in_app_iff. intros [X|[<-|[]]]; [now apply (ch_tried _ _ _ _ _ _ CH)|]. now apply (v_eligible _ _ I).
    - intros r x Ir X. rewrite H4 in Ir. apply in_app_iff in Ir. destruct Ir as [Ir|[<-|[]]]; [now apply (ch_more _ _ _ _ _ _ CH r)|].
      apply (v_eligible _ _ I). destruct S as [_ S _ _ _|rid c1 base sol _ _ _ _ _ _ _ _ _ _ _ S _]; [now rewrite S in X|auto].
    - exact H9.
    - intros r Ir. rewrite H4 in Ir. apply in_app_iff in Ir. destruct Ir as [Ir|[<-|[]]]; [now apply (ch_success _ _ _ _ _ _ CH)|]. destruct S; congruence.
    - destruct (ch_logs _ _ _ _ _ _ CH) as (base & B & LOGS). exists base. split; [congruence|].
      intros h1 r h2 HH SR. rewrite H4 in HH. apply split_snoc in HH. destruct HH as [(h3 & -> & HH)|(-> & -> & ->)].
      + destruct (LOGS h1 r h3 HH SR) as (rid & d & sol & L1 & L2 & L3 & (a & t & L4 & L4' & L5 & L6) & L7 & L8 & L9 & L10).
        exists rid, d, sol. repeat (split; [assumption|]). split.
        { assert (NR : rid <> ""%string).
          { destruct (v_dumps _ _ I r) as (rid' & d' & a' & X & Y & _); [rewrite HH; apply in_app_iff; right; now left|exact SR|]. congruence. }
          exists a, t. split; [exact L4|]. split; [now apply H8|]. split; [exact L5|]. now apply H8. }
        repeat (split; [assumption|]). intros NU. apply L10. rewrite H4 in NU. now apply (numbers_of bt _ row).
      + destruct S as [S _ _ _ _|rid c1 base' sol S1 S2 S3 S4 S5 S6 S7 S8 S9 S10 S11 S12 S13]; [congruence|].
        rewrite B in S9. injection S9 as <-. exists rid, c1, sol. split; [exact S2|]. split; [apply S5|]. split; [apply S5|]. split; [exact S6|].
        split; [exact S7|]. split; [exact S8|]. split.
        { destruct (r_hist st) as [|q h] eqn:HN; [now destruct (v_nonempty _ _ I)|exact S10]. }
        intros NU x. rewrite H4 in NU. apply numbers_of in NU. rewrite (DONE c1 S4 S11 x), (P2 NU x). tauto.
    - exists c'. split; [exact C'|]. split; [apply G'|]. split; [apply G'|]. intros NU x. rewrite H4 in *.
      destruct (numbers_app _ _ _ NU) as [NU1 NU2].
      assert (OLD : ~ stays k bt row -> same_chem E c c' -> present c' x <->
                present c0 x /\ ~ (exists r, In r (r_hist st ++ [row]) /\ stays k bt r /\ removed_by r x)).
      { intros NS SC. rewrite <- present_names, <- (same_chem_names E c c' SC), present_names, (P2 NU1 x).
        split; intros [X Y]; (split; [exact X|]); intros (r & Ir & Sr & Rr); apply Y; exists r; (split; [|now split]).
        - apply in_app_iff in Ir. destruct Ir as [Ir|[<-|[]]]; [exact Ir|contradiction].
        - apply in_app_iff. now left. }
      destruct S as [S1 S2 S3 S4 S5|rid c1 base sol S1 S2 S3 S4 S5 S5' S6 S7 S8 S9 S10 S11 [(O & -> & _)|(O & SM & _)]].
      + apply OLD; [|auto]. intros [X _]. congruence.
      + rewrite (DONE c1 S4 S10 x), (P2 NU1 x).
        assert (ST : stays k bt row) by (apply stays_done; auto). split.
        * intros [[X Y] Z]. split; [exact X|]. intros (r & Ir & Sr & Rr). apply in_app_iff in Ir. destruct Ir as [Ir|[<-|[]]]; [|contradiction].
          apply Y. eauto.
        * intros [X Y]. split; [split; [exact X|]|].
          -- intros (r & Ir & Sr & Rr). apply Y. exists r. split; [apply in_app_iff; now left|now split].
          -- intros Z. apply Y. exists row. split; [apply in_app_iff; right; now left|now split].
      + apply OLD; [|auto]. intros X. apply stays_done in X; auto. congruence.
  Qed.
End R.
