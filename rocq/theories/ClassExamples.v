(** Consistent Reaction objects have proper views; concrete species and
    reactions for refutations and non-vacuity. *)
From Coq Require Import Sorted Permutation.
From Verif Require Import Base BaseLemmas Species Reactions SortLemmas Classification ClassSpec ClassProofs
  ClassExact ClassSort ClassMeaning ClassCategories MolSpec ReactionProofs MolExamples.

(** Formulas contain at least one atom, and 'M' is not an element. *)
Definition formulas_ok (E : env) : Prop :=
  good_formulas E /\ forall s a, formula_atoms E s = Ok a -> a <> [] /\ ~ In "M" (akeys a).

(** The electron is declared with charge -1. *)
Definition electrons_ok (E : env) (l : list rp) : Prop :=
  forall s, In s l -> get_name s = Ok "e" -> get_charge E s = Ok (Some (-1)).

Lemma cs_view_inv E r v : cs_view E r = Ok v ->
  get_name r = Ok (cs_name v) /\ get_charge E r = Ok (cs_charge v) /\ get_atoms E r = Ok (cs_atoms v) /\
  cs_id v = rp_id r /\ cs_uid v = rp_uid r.
Proof.
  unfold cs_view. intros H.
  destruct (get_name r); cbn [bind] in H; [|discriminate].
  destruct (get_charge E r); cbn [bind] in H; [|discriminate].
  destruct (get_state r); cbn [bind] in H; [|discriminate].
  destruct (get_stateless r); cbn [bind] in H; [|discriminate].
  destruct (get_atoms E r); cbn [bind] in H; [|discriminate].
  injection H as <-. cbn. auto.
Qed.

Lemma view_sane E r v :
  formulas_ok E -> cs_view E r = Ok v -> (get_name r = Ok "e" -> get_charge E r = Ok (Some (-1))) -> sane v.
Proof.
  intros [Hg Hf] Hv He. destruct (cs_view_inv _ _ _ Hv) as (Hn & Hq & Ha & _).
  unfold get_charge in Hq. unfold get_atoms in Ha. rewrite Hn in Hq, Ha. cbn [bind] in Hq, Ha.
  unfold sane.
  destruct (String.eqb (cs_name v) "e") eqn:E1.
  { apply String.eqb_eq in E1. injection Ha as Ha. rewrite <- Ha. rewrite E1 in Hn. specialize (He Hn).
    unfold get_charge in He. rewrite Hn in He. cbn [bind] in He. rewrite E1 in Hq. rewrite Hq in He. injection He as He.
    rewrite E1. split; [discriminate|]. split; [auto|]. split; [now intros _ X|]. split; [constructor|easy]. }
  destruct (String.eqb (cs_name v) "M") eqn:E2.
  { apply String.eqb_eq in E2. injection Ha as Ha. rewrite <- Ha. injection Hq as Hq. rewrite E2.
    split; [auto|]. split; [discriminate|]. split; [now intros X|]. split.
    - cbn. constructor; [easy|constructor].
    - intros X n [H|[]]. injection H as _ <-. lia. }
  apply String.eqb_neq in E1, E2.
  destruct (get_stateless r) as [s|]; cbn [bind] in Ha; [|discriminate].
  destruct (Hg _ _ Ha) as [G1 G2]. destruct (Hf _ _ Ha) as [F1 F2].
  split; [easy|]. split; [easy|]. split; [|auto]. intros _ _. split; [|auto].
  destruct (is_none _); [injection Hq as Hq; now rewrite <- Hq|].
  destruct (py_int_v E _); cbn [bind] in Hq; [|discriminate]. injection Hq as Hq. now rewrite <- Hq.
Qed.

Lemma view_charge E l vs z : mapM (cs_view E) l = Ok vs -> total_charge E l z -> sum (map charge_of vs) = z.
Proof.
  revert vs z. induction l as [|r l IH]; intros vs z H T; cbn [mapM] in H.
  - injection H as <-. cbn in T. now subst.
  - destruct (cs_view E r) as [v|] eqn:Ev; cbn [bind] in H; [|discriminate].
    destruct (mapM (cs_view E) l) as [ws|]; cbn [bind] in H; [|discriminate]. injection H as <-.
    cbn [total_charge] in T. destruct T as (c & Hc & T). apply (IH ws _ eq_refl) in T.
    destruct (cs_view_inv _ _ _ Ev) as (_ & Hq & _). rewrite Hq in Hc. injection Hc as Hc.
    cbn [map]. change (sum (?x :: ?m)) with (x + sum m). rewrite T. unfold charge_of. rewrite Hc. lia.
Qed.

Lemma view_atoms E X l vs z : mapM (cs_view E) l = Ok vs -> total_atoms E X l z -> sum (map (atoms_of X) vs) = z.
Proof.
  revert vs z. induction l as [|r l IH]; intros vs z H T; cbn [mapM] in H.
  - injection H as <-. cbn in T. now subst.
  - destruct (cs_view E r) as [v|] eqn:Ev; cbn [bind] in H; [|discriminate].
    destruct (mapM (cs_view E) l) as [ws|]; cbn [bind] in H; [|discriminate]. injection H as <-.
    cbn [total_atoms] in T. destruct T as (c & Hc & T). apply (IH ws _ eq_refl) in T.
    destruct (cs_view_inv _ _ _ Ev) as (_ & _ & Ha & _). rewrite Ha in Hc. injection Hc as Hc.
    cbn [map]. change (sum (?x :: ?m)) with (x + sum m). rewrite T. unfold atoms_of. rewrite Hc. lia.
Qed.

Lemma mapM_view_length E l vs : mapM (cs_view E) l = Ok vs -> List.length vs = List.length l.
Proof.
  revert vs. induction l as [|r l IH]; intros vs H; cbn [mapM] in H; [now injection H as <-|].
  destruct (cs_view E r); cbn [bind] in H; [|discriminate].
  destruct (mapM _ l); cbn [bind] in H; [|discriminate]. injection H as <-. cbn. now rewrite (IH _ eq_refl).
Qed.

Lemma mapM_view_In E l vs v : mapM (cs_view E) l = Ok vs -> In v vs -> exists r, In r l /\ cs_view E r = Ok v.
Proof.
  revert vs. induction l as [|r l IH]; intros vs H Hv; cbn [mapM] in H; [injection H as <-; easy|].
  destruct (cs_view E r) as [w|] eqn:Ew; cbn [bind] in H; [|discriminate].
  destruct (mapM _ l) as [ws|]; cbn [bind] in H; [|discriminate]. injection H as <-.
  destruct Hv as [<-|Hv]; [exists r; split; [now left|exact Ew]|].
  destruct (IH ws eq_refl Hv) as (x & A & B). exists x. split; [now right|exact B].
Qed.

(** Every Reaction object, whatever its history, has a proper view. *)
Lemma view_proper E r v :
  formulas_ok E -> electrons_ok E (r_lhs r ++ r_rhs r) -> rx_history E r -> cr_view E r = Ok v ->
  ids_ok (cr_lhs v ++ cr_rhs v) -> proper v.
Proof.
  intros HE He Hh Hv Hi. pose proof (history_conserves E r (proj1 HE) Hh) as [(z & Z1 & Z2) HA].
  unfold cr_view in Hv.
  destruct (mapM _ (r_lhs r)) as [l|] eqn:El; cbn [bind] in Hv; [|discriminate].
  destruct (mapM _ (r_rhs r)) as [p|] eqn:Ep; cbn [bind] in Hv; [|discriminate].
  destruct (get_elastic r); cbn [bind] in Hv; [|discriminate].
  destruct (get_rx_float E _ r); cbn [bind] in Hv; [|discriminate].
  injection Hv as <-. unfold proper, balanced. cbn [cr_lhs cr_rhs] in *.
  assert ((1 <= List.length (r_lhs r) <= 3)%nat /\ (1 <= List.length (r_rhs r))%nat) as [L1 L2].
  { destruct Hh as [id lhs rhs attributes more units r0 h H].
    destruct (assigns_keeps E h r0) as (_ & -> & ->).
    apply reaction_init_parts in H. destruct H as (_ & _ & -> & -> & A & B & _). auto. }
  rewrite (mapM_view_length _ _ _ El), (mapM_view_length _ _ _ Ep).
  split; [exact L1|]. split; [exact L2|]. split; [|split; [exact Hi|split]].
  - intros s Hs. apply in_app_iff in Hs.
    destruct Hs as [Hs|Hs]; [destruct (mapM_view_In _ _ _ _ El Hs) as (x & A & B)|destruct (mapM_view_In _ _ _ _ Ep Hs) as (x & A & B)];
      apply (view_sane E x s HE B); intros N; apply He; auto; apply in_or_app; auto.
  - now rewrite (view_charge _ _ _ _ El Z1), (view_charge _ _ _ _ Ep Z2).
  - intros X. destruct (HA X) as (n & N1 & N2).
    now rewrite (view_atoms _ _ _ _ _ El N1), (view_atoms _ _ _ _ _ Ep N2).
Qed.

Lemma classify_object E r v :
  formulas_ok E -> electrons_ok E (r_lhs r ++ r_rhs r) -> rx_history E r -> cr_view E r = Ok v ->
  ids_ok (cr_lhs v ++ cr_rhs v) ->
  (unsupported v -> classify v = Err EIndex) /\ (~ unsupported v -> exists tc, classify v = Ok tc).
Proof. intros HE He Hh Hv Hi. exact (classify_raises_iff v (view_proper E r v HE He Hh Hv Hi)). Qed.

Lemma classify_object_type E r v t c :
  formulas_ok E -> electrons_ok E (r_lhs r ++ r_rhs r) -> rx_history E r -> cr_view E r = Ok v ->
  ids_ok (cr_lhs v ++ cr_rhs v) -> classify v = Ok (t, c) -> type_spec v t.
Proof. intros HE He Hh Hv Hi. exact (classify_type v t c (view_proper E r v HE He Hh Hv Hi)). Qed.

Lemma classify_object_category E r v t c :
  formulas_ok E -> electrons_ok E (r_lhs r ++ r_rhs r) -> rx_history E r -> cr_view E r = Ok v ->
  ids_ok (cr_lhs v ++ cr_rhs v) -> classify v = Ok (t, c) -> category_spec v t c.
Proof. intros HE He Hh Hv Hi. exact (categories v t c (view_proper E r v HE He Hh Hv Hi)). Qed.

Lemma object_account E r v c :
  formulas_ok E -> electrons_ok E (r_lhs r ++ r_rhs r) -> rx_history E r -> cr_view E r = Ok v ->
  ids_ok (cr_lhs v ++ cr_rhs v) -> electron_hits v c -> charge_account v c.
Proof. intros HE He Hh Hv Hi. exact (account v c (view_proper E r v HE He Hh Hv Hi)). Qed.

(** ** Examples *)
Lemma E1_ok : formulas_ok E1.
Proof.
  split; [exact E1_good|]. intros s a H. unfold E1 in H. cbn [formula_atoms] in H.
  destruct (sget s _) as [b|] eqn:Es; [|discriminate]. injection H as <-.
  apply (aget_In _ Seqb_spec) in Es. cbn in Es.
  repeat (destruct Es as [Es|Es];
    [inversion Es; subst; split; [discriminate|cbn; intros Hin; repeat (destruct Hin as [Hin|Hin]; [discriminate|]); contradiction]|]).
  contradiction.
Qed.

Definition vw (r : reaction) : cr := match cr_view E1 r with Ok v => v | Err _ => MkCr 0 [] [] false fzero end.

Lemma electrons_okb E l :
  forallb (fun s => match get_name s with
    | Ok n => if String.eqb n "e" then match get_charge E s with Ok (Some q) => q =? -1 | _ => false end else true
    | Err _ => true end) l = true -> electrons_ok E l.
Proof.
  intros A s Hs Hn. rewrite forallb_forall in A. specialize (A s Hs). rewrite Hn in A.
  change (String.eqb "e" "e") with true in A. cbv iota in A.
  destruct (get_charge E s) as [[q|]|]; [|discriminate|discriminate]. apply Z.eqb_eq in A. now subst.
Qed.

Lemma ids_okb l :
  forallb (fun s => forallb (fun t => Bool.eqb (cs_id s =? cs_id t) (String.eqb (cs_name s) (cs_name t))) l) l = true -> ids_ok l.
Proof.
  intros A s t Hs Ht. rewrite forallb_forall in A. specialize (A s Hs). rewrite forallb_forall in A. specialize (A t Ht).
  apply eqb_prop in A. rewrite <- Z.eqb_eq, <- String.eqb_eq, A. reflexivity.
Qed.

(** e + O > e + O+ + e is an ionization. *)
Lemma ion_class : cr_view E1 rx_ion = Ok (vw rx_ion) /\ classify (vw rx_ion) = Ok ("ELECTRON IMPACT COLLISIONS", "ionization").
Proof. split; vm_compute; reflexivity. Qed.

Lemma ion_hyps :
  electrons_ok E1 (r_lhs rx_ion ++ r_rhs rx_ion) /\ rx_history E1 rx_ion /\ ids_ok (cr_lhs (vw rx_ion) ++ cr_rhs (vw rx_ion)) /\
  ~ unsupported (vw rx_ion).
Proof.
  split; [|split; [apply examples_rx|split]].
  - apply electrons_okb. vm_compute. reflexivity.
  - apply ids_okb. vm_compute. reflexivity.
  - assert (unsupported (vw rx_ion) -> classify (vw rx_ion) = Err EIndex) as U.
    { intros [H|[H|[[H _]|[H _]]]].
      - exfalso. specialize (H (nth 1 (cr_lhs (vw rx_ion)) (MkCs 0 0 "" None None "" []))). 
        assert (In (nth 1 (cr_lhs (vw rx_ion)) (MkCs 0 0 "" None None "" [])) (cr_lhs (vw rx_ion))) as A
          by (apply nth_In; vm_compute; lia).
        apply H in A. vm_compute in A. discriminate.
      - exfalso. destruct H as (a & b & H & N & _). apply N. unfold electron.
        replace a with (nth 0 (cr_lhs (vw rx_ion)) a) by now rewrite H. vm_compute. reflexivity.
      - exfalso. destruct H as (a & b & H & N & _). apply N. unfold electron.
        replace a with (nth 0 (cr_lhs (vw rx_ion)) a) by now rewrite H. vm_compute. reflexivity.
      - exfalso. destruct H as (a & b & H & N & _). apply N. unfold electron.
        replace a with (nth 0 (cr_lhs (vw rx_ion)) a) by now rewrite H. vm_compute. reflexivity. }
    intros H. apply U in H. rewrite (proj2 ion_class) in H. discriminate.
Qed.

Definition ion_partner : cs := nth 1 (cr_lhs (vw rx_ion)) (MkCs 0 0 "" None None "" []).
Lemma ion_hits : electron_hits (vw rx_ion) ion_partner.
Proof.
  exists (nth 0 (cr_lhs (vw rx_ion)) (MkCs 0 0 "" None None "" [])). split; [vm_compute; reflexivity|].
  split; [vm_compute; discriminate|]. left. vm_compute. reflexivity.
Qed.

(** Consistent Reaction objects on which classification raises:
    O+ + O+ > O+ + O+ and e + e > e + e. *)
Definition rx_pp := mkr 8 [sp_Op; sp_Op] [sp_Op; sp_Op] k3 [("arrh_a", Some "m3.s-1")].
Definition rx_ee := mkr 9 [sp_e; sp_e] [sp_e; sp_e] k3 [("arrh_a", Some "m3.s-1")].

Lemma classifier_raises :
  exists r v, rx_history E1 r /\ conserves E1 (r_lhs r) (r_rhs r) /\ cr_view E1 r = Ok v /\ like_charges v /\
    classify v = Err EIndex.
Proof.
  exists rx_pp, (vw rx_pp).
  assert (rx_history E1 rx_pp) as Hh by (eapply mkr_history; vm_compute; reflexivity).
  split; [exact Hh|]. split; [apply history_conserves; [apply E1_good|exact Hh]|].
  split; [vm_compute; reflexivity|]. split; [|vm_compute; reflexivity].
  do 2 eexists. split; [vm_compute; reflexivity|]. split; [vm_compute; discriminate|]. split; [vm_compute; discriminate|].
  left. split; (eexists; split; [vm_compute; reflexivity|lia]).
Qed.

Lemma classifier_raises_electrons :
  exists r v, rx_history E1 r /\ conserves E1 (r_lhs r) (r_rhs r) /\ cr_view E1 r = Ok v /\ classify v = Err EIndex.
Proof.
  exists rx_ee, (vw rx_ee).
  assert (rx_history E1 rx_ee) as Hh by (eapply mkr_history; vm_compute; reflexivity).
  split; [exact Hh|]. split; [apply history_conserves; [apply E1_good|exact Hh]|].
  split; vm_compute; reflexivity.
Qed.

(** Helium and carbon, elastic collisions. *)
Definition c_C := MkCs 0 1 "C" (Some 0) None "C" [("C", 1)].
Definition c_He := MkCs 1 2 "He" (Some 0) None "He" [("He", 1)].
Definition c_e := MkCs 2 0 "e" (Some (-1)) None "e" [].
Definition c_M := MkCs 3 999 "M" None None "M" [("M", 1)].
Definition c_HeX := MkCs 4 3 "He*" (Some 0) (Some "*") "He" [("He", 1)].
Definition c_Hep := MkCs 5 4 "He+" (Some 1) None "He+" [("He", 1)].
Definition r_CHe := MkCr 1 [c_C; c_He] [c_C; c_He] true fzero.
Definition r_CC := MkCr 2 [c_C; c_C] [c_C; c_C] true fzero.
Definition r_ex := MkCr 3 [c_e; c_He] [c_e; c_HeX] false (Fin 20).
Definition rs0 := [r_CHe; r_CC; r_ex].
Definition sp0 := [c_M; c_HeX; c_Hep; c_C; c_He; c_e].

Lemma partition_example :
  NoDup (map cr_id rs0) /\ ops_of rs0 [OSortSpecies; OClassify; OAligned r_CC; OSortReactions] /\
  exists k' d, get_classified (run (clf_new sp0 rs0) [OSortSpecies; OClassify; OAligned r_CC; OSortReactions]) = (k', Ok d) /\
    map (fun b => (fst b, map cr_id (snd b))) (buckets d) =
      [(("ELECTRON IMPACT COLLISIONS", "excitation"), [3]);
       (("NEUTRAL - NEUTRAL COLLISIONS", "elastic scattering"), [1; 2])].
Proof.
  split; [apply nodupZb_NoDup; reflexivity|]. split.
  - intros r H. cbn in H. repeat (destruct H as [H|H]; [try discriminate|]); [|contradiction].
    injection H as <-. cbn. auto.
  - do 2 eexists. split; vm_compute; reflexivity.
Qed.

Lemma sort_example :
  (forall s, In s sp0 -> sortable s) /\
  map cs_name (k_species (fst (sort_species (clf_new sp0 rs0)))) = ["e"; "He"; "He+"; "He*"; "C"; "M"].
Proof.
  split; [|vm_compute; reflexivity].
  assert (element_number "C" 6 /\ element_number "He" 2) as [NC NH].
  { split; eexists; split; reflexivity. }
  intros s Hs. cbn in Hs. destruct Hs as [<-|[<-|[<-|[<-|[<-|[<-|[]]]]]]].
  - now left.
  - right. eexists. exists 0, [2; 1]. split; [reflexivity|]. split; [lia|]. split; [cbn; lia|]. split; [|reflexivity].
    cbn. constructor; [exact NH|lia|constructor].
  - right. eexists. exists 1, [2; 1]. split; [reflexivity|]. split; [lia|]. split; [cbn; lia|]. split; [|reflexivity].
    cbn. constructor; [exact NH|lia|constructor].
  - right. eexists. exists 0, [6; 1]. split; [reflexivity|]. split; [lia|]. split; [cbn; lia|]. split; [|reflexivity].
    cbn. constructor; [exact NC|lia|constructor].
  - right. eexists. exists 0, [2; 1]. split; [reflexivity|]. split; [lia|]. split; [cbn; lia|]. split; [|reflexivity].
    cbn. constructor; [exact NH|lia|constructor].
  - right. eexists. exists (-1), []. split; [reflexivity|]. split; [lia|]. split; [cbn; lia|]. split; [|reflexivity].
    constructor.
Qed.

(** Scandium is missing from the list of elements, species of four elements
    are rejected although documented as allowed. *)
Definition c_Sc := MkCs 6 5 "Sc" (Some 0) None "Sc" [("Sc", 1)].
Definition c_4 := MkCs 7 6 "CHFO" (Some 0) None "CHFO" [("C", 1); ("H", 1); ("F", 1); ("O", 1)].
Lemma sort_raises :
  snd (sort_species (clf_new [c_e; c_Sc] [])) = Err EValue /\
  snd (sort_species (clf_new [c_e; c_4] [])) = Err ENotImplemented.
Proof. split; vm_compute; reflexivity. Qed.

(** Counts above nine carry over into the element number. *)
Definition c_C60 := MkCs 8 7 "C60" (Some 0) None "C60" [("C", 60)].
Definition c_N := MkCs 9 8 "N" (Some 0) None "N" [("N", 1)].
Lemma sort_carry :
  map cs_name (k_species (fst (sort_species (clf_new [c_C60; c_N; c_C] [])))) = ["C"; "N"; "C60"].
Proof. vm_compute. reflexivity. Qed.

(** Column widths survive sorting, so strings of one category stop being
    aligned. *)
Lemma misaligned :
  exists sps rs h r1 r2 tc k1 k2 s1 s2,
    NoDup (map cr_id rs) /\ ops_of rs h /\ In r1 rs /\ In r2 rs /\ classify r1 = Ok tc /\ classify r2 = Ok tc /\
    get_aligned (run (clf_new sps rs) h) r1 = (k1, Ok s1) /\ get_aligned k1 r2 = (k2, Ok s2) /\
    String.length s1 <> String.length s2.
Proof.
  exists sp0, rs0, [OClassify; OAligned r_CC; OSortSpecies; OSortReactions; OClassify], r_CHe, r_CC,
    ("NEUTRAL - NEUTRAL COLLISIONS", "elastic scattering").
  do 2 eexists. exists "He + C  > He + C ", "C + C  > C + C ".
  split; [apply nodupZb_NoDup; reflexivity|]. split.
  { intros r H. cbn in H. repeat (destruct H as [H|H]; [try discriminate|]); [|contradiction].
    injection H as <-. cbn. auto. }
  split; [cbn; auto|]. split; [cbn; auto|]. split; [reflexivity|]. split; [reflexivity|].
  split; [vm_compute; reflexivity|]. split; [vm_compute; reflexivity|]. vm_compute. discriminate.
Qed.
