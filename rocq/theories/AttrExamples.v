(** Tables of attributes of a small oxygen chemistry, and tables that fail. *)
From Coq Require Import Permutation Sorted.
From Verif Require Import Base BaseLemmas Species Reactions Chemistry ChemSpec ChemHist ChemLoad
  MolSpec Views ConserveSpec Latex Classification ClassSpec ClassProofs ClassOrder AttrTable AttrSpec AttrSpecies AttrReact
  MolExamples ChemExamples ClassExamples.
Open Scope Z_scope.

(** ** The order of reactions *)
Lemma known0 : species_known sp0 rs0.
Proof.
  split; [|split].
  - vm_compute. repeat (constructor; [cbn; intuition discriminate|]). constructor.
  - vm_compute. repeat (constructor; [cbn; intuition discriminate|]). constructor.
  - intros r s Hr Hs. unfold rs0 in Hr. cbn [In] in Hr. destruct Hr as [<-|[<-|[<-|[]]]]; cbn in Hs;
      repeat match type of Hs with _ \/ _ => destruct Hs as [Hs|Hs] end; try contradiction; subst s; vm_compute; tauto.
Qed.
Lemma sorted_example :
  species_known sp0 rs0 /\ ops_of rs0 [OSortSpecies; OAligned r_CC] /\
  map cr_id (k_reactions (run (clf_new sp0 rs0) [OSortSpecies; OAligned r_CC])) = [1; 2; 3] /\
  map cr_id (k_reactions (fst (sort_reactions (run (clf_new sp0 rs0) [OSortSpecies; OAligned r_CC])))) = [3; 1; 2].
Proof.
  split; [exact known0|]. split.
  - intros r [H|[H|[]]]; [discriminate|]. injection H as <-. cbn. auto.
  - split; vm_compute; reflexivity.
Qed.

(** ** Oxygen *)
Definition ET : env := {|
  fparse := fun s => sget s [("0.5", Fin (1 # 2)); ("1.0", Fin 1); ("1", Fin 1); ("0", Fin 0); ("-1", Fin (-1))];
  iparse := fun s => sget s [("0", 0); ("1", 1); ("-1", -1)];
  fshow := fun _ => ""; ishow := fun _ => "";
  formula_atoms := formula_atoms E1 |}.
Lemma ET_reads s z : iparse ET s = Some z -> exists f, fparse ET s = Some f.
Proof.
  cbn [ET iparse fparse]. intros H. apply (aget_In String.eqb Seqb_spec) in H. cbn [In] in H.
  destruct H as [H|[H|[H|[]]]]; injection H as <- _; eexists; reflexivity.
Qed.

Definition mkT (id : Z) (lhs rhs : list rp) (attrs : list (string * pyval)) units : reaction :=
  match reaction_init ET (VInt id) lhs rhs attrs [] units with Ok r => r | Err _ => MkReaction id [] [] [] [] end.
Lemma mkT_history id lhs rhs attrs units r :
  reaction_init ET (VInt id) lhs rhs attrs [] units = Ok r -> rx_history ET (mkT id lhs rhs attrs units).
Proof. intros H. unfold mkT. rewrite H. change r with (assigns ET r []). eapply rx_new, H. Qed.
Definition ratesT : list (string * pyval) := [("arrh_a", VFlt (Fin 3)); ("arrh_c", VInt 2)].
Definition unitsT : list (string * option string) := [("arrh_a", Some "cm3.s-1"); ("arrh_c", Some "eV")].

Lemma uid_coherent objs rxs : (forall r p, In r rxs -> In p (r_lhs r ++ r_rhs r) -> In p objs) -> NoDup (map rp_uid objs) ->
  forall p q, (In p objs \/ exists r, In r rxs /\ In p (r_lhs r ++ r_rhs r)) ->
    (In q objs \/ exists r, In r rxs /\ In q (r_lhs r ++ r_rhs r)) -> rp_uid p = rp_uid q -> p = q.
Proof.
  intros Sub ND p q Hp Hq E. apply (NoDup_map_inj rp_uid objs); [exact ND| | |exact E].
  - destruct Hp as [|(r & A & B)]; [assumption|eapply Sub; eassumption].
  - destruct Hq as [|(r & A & B)]; [assumption|eapply Sub; eassumption].
Qed.
Ltac cases H := repeat match type of H with _ \/ _ => destruct H as [H|H] | False => destruct H end.
Ltac distinct := vm_compute; repeat (constructor; [cbn; intuition discriminate|]); constructor.

(** A chemistry made of objects. *)
Definition viewsT (objs : list rp) : list sp := match mapM (view_rp ET) objs with Ok l => l | Err _ => [] end.
Definition rviewsT (rxs : list reaction) : list rx := match mapM (view_reaction ET) rxs with Ok l => l | Err _ => [] end.
Definition chemT (objs : list rp) (rxs : list reaction) : chem :=
  match init Plain (viewsT objs) (rviewsT rxs) None with Ok c => c | Err _ => fresh Plain [] [] None end.
Lemma chemT_reachable objs rxs :
  (forall r s, In r (rviewsT rxs) -> takes_part s r -> In s (viewsT objs)) -> NoDup (map sp_uid (viewsT objs)) ->
  init Plain (viewsT objs) (rviewsT rxs) None = Ok (chemT objs rxs) -> reachable ET (chemT objs rxs).
Proof. intros A B C. eapply reach_init; [|exact C]. now apply heap_ok_table. Qed.
Ltac reach := apply chemT_reachable;
  [let r := fresh in let s := fresh in let Hr := fresh in let Hs := fresh in
   intros r s Hr Hs; vm_compute in Hr; cases Hr; subst r; unfold takes_part in Hs; cbn in Hs; cases Hs; subst s; vm_compute; tauto
  |distinct|vm_compute; reflexivity].
Ltac objs_ok := split; [vm_compute; reflexivity|]; split; [vm_compute; reflexivity|]; apply uid_coherent;
  [intros r p Hr Hp; vm_compute in Hr; cases Hr; subst r; cbn in Hp; cases Hp; subst p; vm_compute; tauto|distinct].

Definition objsT : list rp := [sp_Op; sp_e; sp_O; sp_Ox].
Definition rxsT : list reaction :=
  [mkT 1 [sp_e; sp_O] [sp_e; sp_e; sp_Op] ratesT unitsT;
   mkT 2 [sp_e; sp_O] [sp_e; sp_O] (("elastic", VStr "True") :: ratesT) unitsT;
   mkT 3 [sp_e; sp_O] [sp_e; sp_Ox] ratesT unitsT].
Definition changes : list Chemistry.op :=
  [OSetSp "stick_coef" (RName "O") (VFlt (Fin (1 # 2))); OSetRx "arrh_a" 1 (VFlt (Fin 7)); ODisable [RName "O*"] []].
Definition cT : chem := Chemistry.run ET (chemT objsT rxsT) changes.

Lemma cT_reachable : reachable ET cT.
Proof. apply run_reachable. reach. Qed.
Lemma cT_objects : objects ET objsT rxsT cT.
Proof. objs_ok. Qed.
Lemma objsT_history o : In o objsT -> sp_history o.
Proof.
  unfold objsT. cbn [In]. intros H. cases H; subst o; eapply mk_history; vm_compute; reflexivity.
Qed.
Lemma rxsT_history r : In r rxsT -> rx_history ET r.
Proof.
  unfold rxsT. cbn [In]. intros H. cases H; subst r; eapply mkT_history; vm_compute; reflexivity.
Qed.
Lemma tables_hypotheses :
  reachable ET cT /\ objects ET objsT rxsT cT /\ (forall o, In o objsT -> sp_history o) /\
  (forall r, In r rxsT -> rx_history ET r) /\ (forall s z, iparse ET s = Some z -> exists f, fparse ET s = Some f).
Proof.
  split; [exact cT_reachable|]. split; [exact cT_objects|]. split; [exact objsT_history|]. split; [exact rxsT_history|exact ET_reads].
Qed.

Definition some_columns : list string :=
  ["stateless"; "state"; "h_form"; "lj_epsilon"; "lj_sigma"; "hpem_name"; "qdb_id"; "ret_coefs"; "comments"; "latex"].
Lemma species_table :
  species_attributes ET objsT cT true true true true true some_columns = Ok
    [(0, [(CAttr "name", (Reset, CText "e")); (CAttr "mass", (Reset, CNum (Fin (1 # 1836)))); (CUnit "mass", (Blue, CText "amu"));
          (CAttr "charge", (Reset, CNum (Fin (-1)))); (CUnit "charge", (Blue, CText "e")); (CAttr "stick_coef", (Reset, CText "..."))]);
     (1, [(CAttr "name", (Reset, CText "O")); (CAttr "mass", (Reset, CNum (Fin 16))); (CUnit "mass", (Blue, CText "amu"));
          (CAttr "charge", (Blue, CNum (Fin 0))); (CUnit "charge", (Blue, CText "e")); (CAttr "stick_coef", (Blue, CNum (Fin (1 # 2))))]);
     (3, [(CAttr "name", (Reset, CText "O+")); (CAttr "mass", (Reset, CNum (Fin 16))); (CUnit "mass", (Blue, CText "amu"));
          (CAttr "charge", (Reset, CNum (Fin 1))); (CUnit "charge", (Blue, CText "e")); (CAttr "stick_coef", (Blue, CNum (Fin 1)))]);
     (2, [(CAttr "name", (Red, CText "O*")); (CAttr "mass", (Red, CNum (Fin 16))); (CUnit "mass", (Red, CText "amu"));
          (CAttr "charge", (Red, CNum (Fin 0))); (CUnit "charge", (Red, CText "e")); (CAttr "stick_coef", (Red, CNum (Fin 1)))])].
Proof. vm_compute. reflexivity. Qed.

Definition few_columns : list string :=
  ["arrh_b"; "arrh_c"; "el_en_loss"; "gas_heat_contrib"; "special_number"; "qdb_r_id"; "qdb_ds_id"; "doi"; "comments"; "latex"].
Lemma reactions_table :
  reactions_attributes ET true objsT rxsT cT true true true true true few_columns = Ok
    [(LType 1, [(CString, (Yellow, CText "ELECTRON IMPACT COLLISIONS")); (CAttr "arrh_a", (Reset, CText ""));
                (CUnit "arrh_a", (Reset, CText "")); (CAttr "elastic", (Reset, CText ""))]);
     (LCat 1 1, [(CString, (Magenta, CText "elastic and momentum transfer")); (CAttr "arrh_a", (Reset, CText ""));
                 (CUnit "arrh_a", (Reset, CText "")); (CAttr "elastic", (Reset, CText ""))]);
     (LRx 2, [(CString, (Reset, CText "e + O > e + O                ")); (CAttr "arrh_a", (Reset, CNum (Fin 3)));
              (CUnit "arrh_a", (Reset, CText "cm3.s-1")); (CAttr "elastic", (Reset, CBool true))]);
     (LCat 1 2, [(CString, (Magenta, CText "excitation                   ")); (CAttr "arrh_a", (Reset, CText ""));
                 (CUnit "arrh_a", (Reset, CText "")); (CAttr "elastic", (Reset, CText ""))]);
     (LRx 3, [(CString, (Red, CText "e + O > e + O*               ")); (CAttr "arrh_a", (Red, CNum (Fin 3)));
              (CUnit "arrh_a", (Red, CText "cm3.s-1")); (CAttr "elastic", (Red, CBool false))]);
     (LCat 1 3, [(CString, (Magenta, CText "ionization                   ")); (CAttr "arrh_a", (Reset, CText ""));
                 (CUnit "arrh_a", (Reset, CText "")); (CAttr "elastic", (Reset, CText ""))]);
     (LRx 1, [(CString, (Reset, CText "e + O > e + e + O+           ")); (CAttr "arrh_a", (Blue, CNum (Fin 7)));
              (CUnit "arrh_a", (Reset, CText "cm3.s-1")); (CAttr "elastic", (Blue, CBool false))])].
Proof. vm_compute. reflexivity. Qed.
Lemma plain_tables : exists t u,
  species_attributes ET objsT cT false true false false true [] = Ok t /\ map fst t = [3; 0; 1] /\
  reactions_attributes ET true objsT rxsT cT false false true false true [] = Ok u /\ map fst u = [LRx 1; LRx 2].
Proof.
  eexists; eexists. split; [vm_compute; reflexivity|]. split; [reflexivity|]. split; [vm_compute; reflexivity|reflexivity].
Qed.

(** ** Tables that fail *)

(** An electron with a description of its state. *)
Definition sp_eS := mk 0 0 [("name", VStr "e"); ("stateless", VStr "e"); ("state", VStr "free"); ("mass", VFlt (Fin (1 # 1836))); ("charge", VInt (-1))].
Definition objsS : list rp := [sp_Op; sp_eS; sp_O].
Definition rxsS : list reaction := [mkT 1 [sp_eS; sp_O] [sp_eS; sp_eS; sp_Op] ratesT unitsT].
Lemma electron_fails : exists E objs rxs c,
  reachable E c /\ objects E objs rxs c /\ (forall o, In o objs -> sp_history o) /\
  species_attributes E objs c true true true false false ["latex"] = Err EValue /\
  exists t, species_attributes E objs c true true false false false ["latex"] = Ok t.
Proof.
  exists ET, objsS, rxsS, (chemT objsS rxsS). split; [reach|]. split; [objs_ok|]. split.
  - unfold objsS. cbn [In]. intros o H. cases H; subst o; eapply mk_history; vm_compute; reflexivity.
  - split; [vm_compute; reflexivity|]. eexists. vm_compute. reflexivity.
Qed.

(** A sticking coefficient set to a text. *)
Definition sp_Os := mk 2 1 [("name", VStr "O"); ("mass", VInt 16); ("stick_coef", VFlt (Fin (1 # 2)))].
Definition objsA : list rp := [sp_Op; sp_e; sp_Os].
Definition rxsA : list reaction := [mkT 1 [sp_e; sp_Os] [sp_e; sp_e; sp_Op] ratesT unitsT].
Lemma objsA_history o : In o objsA -> sp_history o.
Proof.
  unfold objsA. cbn [In]. intros H. cases H; subst o; eapply mk_history; vm_compute; reflexivity.
Qed.
Lemma adhoc_fails : exists E objs rxs c c',
  reachable E c /\ objects E objs rxs c /\ (forall o, In o objs -> sp_history o) /\
  Chemistry.step E c (OSetSp "stick_coef" (RName "O") (VStr "unknown")) = (c', Ok tt) /\
  (exists t, species_attributes E objs c true true true false false ["latex"] = Ok t) /\
  species_attributes E objs c' true true true false false ["latex"] = Err EValue.
Proof.
  exists ET, objsA, rxsA, (chemT objsA rxsA).
  destruct (Chemistry.step ET (chemT objsA rxsA) (OSetSp "stick_coef" (RName "O") (VStr "unknown"))) as [c' o] eqn:Ec.
  exists c'. split; [reach|]. split; [objs_ok|]. split; [exact objsA_history|].
  assert (Eo : snd (Chemistry.step ET (chemT objsA rxsA) (OSetSp "stick_coef" (RName "O") (VStr "unknown"))) = Ok tt) by (vm_compute; reflexivity).
  assert (Et : species_attributes ET objsA (fst (Chemistry.step ET (chemT objsA rxsA) (OSetSp "stick_coef" (RName "O") (VStr "unknown"))))
                 true true true false false ["latex"] = Err EValue) by (vm_compute; reflexivity).
  rewrite Ec in Eo, Et. cbn [fst snd] in Eo, Et. subst o. split; [reflexivity|]. split; [|exact Et].
  eexists. vm_compute. reflexivity.
Qed.

(** ** Texts of one class that do not line up *)
Definition sp_Ol := mk 11 11 [("name", VStr "O(an excited state)"); ("stateless", VStr "O"); ("state", VStr "an excited state"); ("mass", VInt 16)].
Definition objsL : list rp := [sp_Op; sp_e; sp_O; sp_Ol].
Definition rxsL : list reaction :=
  [mkT 1 [sp_e; sp_O] [sp_e; sp_O] (("elastic", VSc (SBool true)) :: ratesT) unitsT;
   mkT 2 [sp_e; sp_O] [sp_e; sp_e; sp_Op] ratesT unitsT;
   mkT 3 [sp_e; sp_Ol] [sp_e; sp_e; sp_Op] ratesT unitsT;
   mkT 4 [sp_e; sp_Op] [sp_e; sp_Op] (("elastic", VSc (SBool true)) :: ratesT) unitsT].
Definition text_only : list string := "arrh_a" :: "elastic" :: few_columns.
Lemma table_uneven : exists E objs rxs c t,
  reachable E c /\ objects E objs rxs c /\ (forall o, In o objs -> sp_history o) /\ (forall r, In r rxs -> rx_history E r) /\
  reactions_attributes E true objs rxs c true true false true false text_only = Ok t /\
  t = [(LType 1, [(CString, (Yellow, CText "ELECTRON IMPACT COLLISIONS"))]);
       (LCat 1 1, [(CString, (Magenta, CText "elastic and momentum transfer       "))]);
       (LRx 1, [(CString, (Reset, CText "e  + O > e  + O              "))]);
       (LRx 4, [(CString, (Reset, CText "O+ + e > O+ + e                     "))]);
       (LCat 1 2, [(CString, (Magenta, CText "ionization                          "))]);
       (LRx 2, [(CString, (Reset, CText "e + O                   > O+ + e + e"))]);
       (LRx 3, [(CString, (Reset, CText "e + O(an excited state) > O+ + e + e"))])].
Proof.
  exists ET, objsL, rxsL, (chemT objsL rxsL). eexists. split; [reach|]. split; [objs_ok|]. split; [|split].
  - unfold objsL. cbn [In]. intros o H. cases H; subst o; eapply mk_history; vm_compute; reflexivity.
  - unfold rxsL. cbn [In]. intros r H. cases H; subst r; eapply mkT_history; vm_compute; reflexivity.
  - split; vm_compute; reflexivity.
Qed.
Lemma uneven : exists E objs rxs c t i j row row' x y s s',
  reachable E c /\ objects E objs rxs c /\ (forall o, In o objs -> sp_history o) /\ (forall r, In r rxs -> rx_history E r) /\
  reactions_attributes E true objs rxs c true true false true false text_only = Ok t /\
  In (LRx i, row) t /\ In (LRx j, row') t /\ In (CString, (x, CText s)) row /\ In (CString, (y, CText s')) row' /\
  String.length s <> String.length s'.
Proof.
  destruct table_uneven as (E & objs & rxs & c & t & A & B & C & D & F & ->).
  exists E, objs, rxs, c. eexists. exists 1, 4. do 6 eexists.
  split; [exact A|]. split; [exact B|]. split; [exact C|]. split; [exact D|]. split; [exact F|].
  split; [right; right; left; reflexivity|]. split; [right; right; right; left; reflexivity|].
  split; [left; reflexivity|]. split; [left; reflexivity|]. vm_compute. discriminate.
Qed.
