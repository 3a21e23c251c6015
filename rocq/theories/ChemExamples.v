(** Concrete chemistries: they show that the hypotheses of the theorems of
    PropsChemistry.v are met by non-trivial states, and they are the witnesses
    of the refuted statements. *)
From Verif Require Import Base BaseLemmas Species Reactions Chemistry ChemSpec ChemInv ChemHist ChemLoad ChemMain ChemGetters
  ChemHeap ChemWorld.

Definition E0 : env := {|
  fparse := fun _ => None; iparse := fun _ => None; fshow := fun _ => ""; ishow := fun _ => "";
  formula_atoms := fun _ => Err EValue |}.

Lemma heap_ok_table species reactions :
  NoDup (map sp_uid species) ->
  (forall r s, In r reactions -> takes_part s r -> In s species) -> heap_ok species reactions.
Proof.
  intros N H s s' Hs Hs' E. apply (NoDup_map_inj sp_uid species); auto.
  - destruct Hs as [Hs|(r & Hr & Hs)]; [exact Hs|now apply (H r)].
  - destruct Hs' as [Hs'|(r & Hr & Hs')]; [exact Hs'|now apply (H r)].
Qed.

Ltac table :=
  apply heap_ok_table;
  [cbn; repeat (constructor; [cbn; intuition discriminate|]); constructor
  |intros r s Hr Hs; cbn in Hr;
   repeat match type of Hr with _ \/ _ => destruct Hr as [Hr|Hr] | False => destruct Hr end; subst r;
   unfold takes_part in Hs; cbn in Hs;
   repeat match type of Hs with _ \/ _ => destruct Hs as [Hs|Hs] | False => destruct Hs end; subst s; cbn; tauto].

(** Argon and oxygen. *)
Definition sE := MkSp 0 1 "e" (Some (-1)) None None None.
Definition sAr := MkSp 1 2 "Ar" (Some 0) (Some (Fin 40)) (Some fzero) (Some []).
Definition sArp := MkSp 2 3 "Ar+" (Some 1) (Some (Fin 40)) (Some (Fin 1)) (Some [("Ar", Fin 1)]).
Definition sArs := MkSp 3 4 "Ar*" (Some 0) (Some (Fin 40)) (Some (Fin 1)) (Some [("Ar", Fin 1)]).
Definition sO := MkSp 4 5 "O" (Some 0) (Some (Fin 16)) (Some fzero) (Some []).
Definition sOp := MkSp 5 6 "O+" (Some 1) (Some (Fin 16)) (Some (Fin 1)) (Some [("O", Fin 1)]).
Definition sM := MkSp 6 999 "M" (Some 0) None None None.

Definition mkr i l r := MkRx i l r (Some (Fin 1)) (Some "m3.s-1") (Some fzero) (Some fzero) fzero fzero false.

Definition species0 := [sE; sAr; sArp; sArs; sO; sOp; sM].
Definition reactions0 := [
  mkr 1 [sE; sAr] [sE; sAr];
  mkr 2 [sE; sAr] [sE; sE; sArp];
  mkr 3 [sE; sAr] [sE; sArs];
  mkr 4 [sE; sArs] [sE; sE; sArp];
  mkr 5 [sE; sO] [sE; sE; sOp];
  mkr 6 [sArs; sM] [sAr; sM]].

Definition c0 : chem :=
  match init Plain species0 reactions0 None with Ok c => c | Err _ => fresh Plain species0 reactions0 None end.

Lemma c0_init : init Plain species0 reactions0 None = Ok c0.
Proof. vm_compute. reflexivity. Qed.

Lemma c0_reachable : reachable E0 c0.
Proof. eapply reach_init; [|exact c0_init]. table. Qed.

Lemma run_reachable E c ops : reachable E c -> reachable E (run E c ops).
Proof.
  unfold run. revert c. induction ops as [|o ops IH]; intros c H; cbn [fold_left]; [exact H|].
  apply IH. now apply reach_step.
Qed.

(** Masks as lists, for display. *)
Definition shown (c : chem) : list string * list Z * list string :=
  (map sp_name (get_species c false true true), map rx_id (get_reactions c false),
   map sp_name (get_protected_species c)).

(** Disabling O removes O+ and reaction 5 and leaves one positive ion, which
    becomes protected. *)
Example c0_disable_O :
  snd (disable c0 [RName "O"] []) = Ok tt /\
  shown (fst (disable c0 [RName "O"] [])) = (["e"; "Ar"; "Ar+"; "Ar*"; "M"], [1; 2; 3; 4; 6], ["e"; "Ar+"]).
Proof. vm_compute. auto. Qed.

(** Disabling Ar and O is refused in the middle of the cascade. *)
Example c0_disable_refused : disable c0 [RName "Ar*"; RId 5] [2] = (c0, Err EChemDisable).
Proof.
  pose proof (disable_failed c0 [RName "Ar*"; RId 5] [2] (reachable_Inv E0 c0 c0_reachable)) as F.
  destruct (disable c0 [RName "Ar*"; RId 5] [2]) as [c' o] eqn:D.
  assert (o = Err EChemDisable) as -> by (change o with (snd (c', o)); rewrite <- D; vm_compute; reflexivity).
  destruct (F c' EChemDisable eq_refl) as [[-> _]|[X _]]; [reflexivity|discriminate].
Qed.

Example c0_declared : declared_exist c0.
Proof.
  intros s d n Hs Hd Hn.
  change (c_species c0) with species0 in *. cbn in Hs.
  repeat match type of Hs with _ \/ _ => destruct Hs as [Hs|Hs] | False => destruct Hs end; subst s; cbn in Hd;
    inversion Hd; subst d; cbn in Hn; try tauto; destruct Hn as [<-|[]];
    [exists sAr|exists sAr|exists sO]; cbn; tauto.
Qed.

(** ** Witnesses of refuted statements *)

(** A species with a native sticking coefficient of 0 and a declared return
    species that does not exist. *)
Definition sAr1 := MkSp 1 2 "Ar" (Some 0) (Some (Fin 40)) (Some fzero) (Some [("X", Fin 1)]).
Definition sArp1 := MkSp 2 3 "Ar+" (Some 1) (Some (Fin 40)) (Some (Fin 1)) (Some [("Ar", Fin 1)]).
Definition species1 := [sE; sAr1; sArp1].
Definition reactions1 := [mkr 1 [sE; sAr1] [sE; sAr1]; mkr 2 [sE; sAr1] [sE; sE; sArp1]].
Definition c1 : chem :=
  match init Plain species1 reactions1 None with Ok c => c | Err _ => fresh Plain species1 reactions1 None end.
Lemma c1_init : init Plain species1 reactions1 None = Ok c1.
Proof. vm_compute. reflexivity. Qed.
Lemma c1_reachable : reachable E0 c1.
Proof. eapply reach_init; [|exact c1_init]. table. Qed.

(** The state after a rejected ad-hoc sticking coefficient. *)
Definition c1b : chem := fst (set_adhoc_species E0 c1 "stick_coef" (RName "Ar") (VFlt (Fin (1 # 2)))).

Lemma c1b_reachable : reachable E0 c1b.
Proof. exact (reach_step E0 c1 (OSetSp "stick_coef" (RName "Ar") (VFlt (Fin (1 # 2)))) c1_reachable). Qed.

Lemma c1b_rejected :
  snd (set_adhoc_species E0 c1 "stick_coef" (RName "Ar") (VFlt (Fin (1 # 2)))) = Err EChemConsistency.
Proof. vm_compute. reflexivity. Qed.

Lemma c1b_inconsistent : assert_consistency c1b = Err EChemConsistency.
Proof. vm_compute. reflexivity. Qed.

Lemma c1b_stored : eff_stick c1 sAr1 = SFlt fzero /\ eff_stick c1b sAr1 = SFlt (Fin (1 # 2)).
Proof. vm_compute. auto. Qed.

(** From there disable raises with the masks already changed. *)
Lemma c1b_disable :
  snd (disable c1b [] [1]) = Err EChemConsistency /\ c_enr c1b 1 = true /\ c_enr (fst (disable c1b [] [1])) 1 = false.
Proof. vm_compute. auto. Qed.

(** Ad-hoc return coefficients naming a species that is disabled later. *)
Definition c0rd : chem :=
  run E0 c0 [OSetSp "ret_coefs" (RName "Ar+") (VDict [("O", SFlt (Fin 1))]); ODisable [RName "O"] []].
Lemma c0rd_reachable : reachable E0 c0rd.
Proof. apply run_reachable, c0_reachable. Qed.

Definition no_files : string -> option string := fun _ => None.

Definition c0rd_file : cattrs :=
  match chemistry_attributes E0 no_files c0rd with Ok f => f | Err _ => MkAttrs [] [] [] None [] [] [] [] None None end.

Lemma c0rd_dump : chemistry_attributes E0 no_files c0rd = Ok c0rd_file.
Proof. vm_compute. reflexivity. Qed.

Lemma c0rd_load : snd (load E0 no_files c0 c0rd_file true) = Err EChemConsistency.
Proof. vm_compute. reflexivity. Qed.

Lemma c0rd_consistent : assert_consistency c0rd = Ok tt.
Proof. vm_compute. reflexivity. Qed.

(** An ad-hoc sticking coefficient None cannot be dumped. *)
Definition c0n : chem := fst (set_adhoc_species E0 c0 "stick_coef" (RName "Ar+") (VSc SNone)).
Lemma c0n_reachable : reachable E0 c0n.
Proof. exact (reach_step E0 c0 (OSetSp "stick_coef" (RName "Ar+") (VSc SNone)) c0_reachable). Qed.
Lemma c0n_ok : snd (set_adhoc_species E0 c0 "stick_coef" (RName "Ar+") (VSc SNone)) = Ok tt.
Proof. vm_compute. reflexivity. Qed.
Lemma c0n_dump : chemistry_attributes E0 no_files c0n = Err EType.
Proof. vm_compute. reflexivity. Qed.

(** NaN ad-hoc values are not coherent with their own dump. *)
Definition c0nan : chem := fst (set_adhoc_species E0 c0 "stick_coef" (RName "Ar+") (VFlt NaN)).
Lemma c0nan_reachable : reachable E0 c0nan.
Proof. exact (reach_step E0 c0 (OSetSp "stick_coef" (RName "Ar+") (VFlt NaN)) c0_reachable). Qed.
Definition c0nan_file : cattrs :=
  match chemistry_attributes E0 no_files c0nan with Ok f => f | Err _ => MkAttrs [] [] [] None [] [] [] [] None None end.
Lemma c0nan_dump : chemistry_attributes E0 no_files c0nan = Ok c0nan_file.
Proof. vm_compute. reflexivity. Qed.
Lemma c0nan_incoherent : check_coherence E0 no_files c0nan c0nan_file = Ok false.
Proof. vm_compute. reflexivity. Qed.

(** The same ad-hoc values set in another order. *)
Definition stA := OSetSp "stick_coef" (RName "Ar+") (VFlt (Fin (1 # 2))).
Definition stB := OSetSp "stick_coef" (RName "Ar*") (VFlt (Fin (1 # 3))).
Definition cAB := run E0 c0 [stA; stB].
Definition cBA := run E0 c0 [stB; stA].
Definition cAB_file : cattrs :=
  match chemistry_attributes E0 no_files cAB with Ok f => f | Err _ => MkAttrs [] [] [] None [] [] [] [] None None end.
Lemma cAB_dump : chemistry_attributes E0 no_files cAB = Ok cAB_file.
Proof. vm_compute. reflexivity. Qed.
Lemma cBA_incoherent : check_coherence E0 no_files cBA cAB_file = Ok false.
Proof. vm_compute. reflexivity. Qed.
Lemma cAB_cBA_same_stick : forall s, In s (c_species c0) -> eff_stick cAB s = eff_stick cBA s.
Proof.
  intros s Hs. change (c_species c0) with species0 in Hs. cbn in Hs.
  repeat match type of Hs with _ \/ _ => destruct Hs as [Hs|Hs] | False => destruct Hs end; subst s; vm_compute; reflexivity.
Qed.

(** Ad-hoc return coefficients of a species that is disabled afterwards. *)
Definition c0x : chem :=
  run E0 c0 [OSetSp "ret_coefs" (RName "O+") (VDict [("Ar", SFlt (Fin 1))]); ODisable [RName "O"] []].
Lemma c0x_reachable : reachable E0 c0x.
Proof. apply run_reachable, c0_reachable. Qed.
Lemma c0x_rows :
  map sp_name (get_species c0x false false true) = ["Ar"; "Ar+"; "Ar*"] /\
  map fst (get_species_ret_coefs c0x false false true) = [2; 3; 4; 6].
Proof. vm_compute. auto. Qed.

(** A protected species with sticking coefficient 0. *)
Definition c0p : chem := run E0 c0 [OProtect [RName "Ar"]].
Lemma c0p_reachable : reachable E0 c0p.
Proof. apply run_reachable, c0_reachable. Qed.
Lemma c0p_rows :
  map sp_name (get_species c0p false false false) = ["Ar+"; "Ar*"; "O"; "O+"] /\
  map fst (get_species_ret_coefs c0p false false false) = [3; 4; 5; 6; 2].
Proof. vm_compute. auto. Qed.

(** Return species M. *)
Definition c0m : chem := run E0 c0 [OSetSp "ret_coefs" (RName "O+") (VDict [("M", SFlt (Fin 1))])].
Lemma c0m_reachable : reachable E0 c0m.
Proof. apply run_reachable, c0_reachable. Qed.
Lemma c0m_matrix :
  match get_return_matrix c0m false with
  | Ok m => rm_rows m = [2; 3; 4; 5; 6; 999] /\ rm_cols m = [2; 3; 4; 5; 6]
  | Err _ => False
  end.
Proof. vm_compute. auto. Qed.

(** A neutral chemistry. *)
Definition species2 := [sAr; sArs; sO].
Definition reactions2 := [mkr 1 [sAr; sArs] [sAr; sAr]; mkr 2 [sArs; sO] [sAr; sO]].
Definition c2 : chem :=
  match init Neutral species2 reactions2 None with Ok c => c | Err _ => fresh Neutral species2 reactions2 None end.
Lemma c2_init : init Neutral species2 reactions2 None = Ok c2.
Proof. vm_compute. reflexivity. Qed.
Lemma c2_reachable : reachable E0 c2.
Proof. eapply reach_init; [|exact c2_init]. table. Qed.

(** A neutral chemistry with electrons. *)
Definition species3 := [sE; sAr; sArs].
Definition reactions3 := [mkr 1 [sE; sAr] [sE; sArs]].
Definition c3 : chem :=
  match init Neutral species3 reactions3 None with Ok c => c | Err _ => fresh Neutral species3 reactions3 None end.
Lemma c3_init : init Neutral species3 reactions3 None = Ok c3.
Proof. vm_compute. reflexivity. Qed.
Lemma c3_reachable : reachable E0 c3.
Proof. eapply reach_init; [|exact c3_init]. table. Qed.

(** ** Statements of PropsChemistry.v refuted by these states *)
Lemma neutral_copy_fails :
  exists c, reachable E0 c /\ assert_consistency c = Ok tt /\ exists e, copy c = Err e.
Proof.
  exists c2. split; [exact c2_reachable|]. split; [vm_compute; reflexivity|]. exists EChemConsistency. vm_compute. reflexivity.
Qed.

Lemma failed_disable_changes :
  exists c rs, reachable E0 c /\ exists c' e,
    disable c [] rs = (c', Err e) /\ exists i, In i rs /\ c_enr c i = true /\ c_enr c' i = false.
Proof.
  exists c1b, [1]. split; [exact c1b_reachable|]. destruct (disable c1b [] [1]) as [c' o] eqn:D.
  pose proof c1b_disable as (A & B & C). rewrite D in A, C. cbn [fst snd] in A, C. subst o.
  exists c', EChemConsistency. split; [reflexivity|]. exists 1. cbn. auto.
Qed.

Lemma rejected_adhoc_stored :
  exists c a v c' s, reachable E0 c /\ set_adhoc_species E0 c "stick_coef" a v = (c', Err EChemConsistency) /\
    denotes c a s /\ eff_stick c' s <> eff_stick c s.
Proof.
  exists c1, (RName "Ar"), (VFlt (Fin (1 # 2))), c1b, sAr1. split; [exact c1_reachable|]. split; [|split].
  - rewrite <- c1b_rejected. unfold c1b. apply surjective_pairing.
  - split; [cbn; auto|reflexivity].
  - pose proof c1b_stored as [-> ->]. discriminate.
Qed.

Lemma not_loadable :
  exists c d f, reachable E0 c /\ reachable E0 d /\ same_input c d /\ assert_consistency d = Ok tt /\
    chemistry_attributes E0 no_files d = Ok f /\ snd (load E0 no_files c f true) = Err EChemConsistency.
Proof.
  exists c0, c0rd, c0rd_file. split; [exact c0_reachable|]. split; [exact c0rd_reachable|].
  split; [repeat split; vm_compute; reflexivity|]. split; [exact c0rd_consistent|]. split; [exact c0rd_dump|exact c0rd_load].
Qed.

Lemma not_dumpable :
  exists d, reachable E0 d /\ assert_consistency d = Ok tt /\ chemistry_attributes E0 no_files d = Err EType.
Proof.
  exists c0n. split; [exact c0n_reachable|]. split; [vm_compute; reflexivity|exact c0n_dump].
Qed.

Lemma order_sensitive :
  exists c d f, reachable E0 c /\ reachable E0 d /\ same_input c d /\ masks_agree c d /\
    (forall s, In s (c_species c) -> eff_stick c s = eff_stick d s) /\ c_ret c = c_ret d /\ c_arrh c = c_arrh d /\
    chemistry_attributes E0 no_files d = Ok f /\ check_coherence E0 no_files c f = Ok false.
Proof.
  exists cBA, cAB, cAB_file. split; [apply run_reachable, c0_reachable|]. split; [apply run_reachable, c0_reachable|].
  split; [repeat split; vm_compute; reflexivity|].
  split. { split; intros i _; repeat split; vm_compute; reflexivity. }
  split. { intros s Hs. symmetry. apply cAB_cBA_same_stick. exact Hs. }
  split; [vm_compute; reflexivity|]. split; [vm_compute; reflexivity|]. split; [exact cAB_dump|exact cBA_incoherent].
Qed.

Lemma ret_index_bad :
  (exists c, reachable E0 c /\
     map fst (get_species_ret_coefs c false false true) <> map sp_id (get_species c false false true)) /\
  (exists c, reachable E0 c /\ c_ret c = [] /\
     map fst (get_species_ret_coefs c false false false) <> map sp_id (get_species c false false false)).
Proof.
  split.
  - exists c0x. split; [exact c0x_reachable|]. vm_compute. discriminate.
  - exists c0p. split; [exact c0p_reachable|]. split; vm_compute; [reflexivity|discriminate].
Qed.

Lemma return_matrix_not_square :
  exists c m, reachable E0 c /\ assert_consistency c = Ok tt /\ get_return_matrix c false = Ok m /\
    List.length (rm_rows m) <> List.length (rm_cols m).
Proof.
  exists c0m. destruct (get_return_matrix c0m false) as [m|] eqn:G; [|exfalso; pose proof c0m_matrix as X; now rewrite G in X].
  exists m. split; [exact c0m_reachable|]. split; [vm_compute; reflexivity|]. split; [reflexivity|].
  pose proof c0m_matrix as X. rewrite G in X. destruct X as [-> ->]. cbn. discriminate.
Qed.

(** ** Non-vacuity *)
Ltac cases H := repeat match type of H with _ \/ _ => destruct H as [H|H] | False => destruct H end.

Lemma c0_consistent : assert_consistency c0 = Ok tt.
Proof. vm_compute. reflexivity. Qed.

Lemma c0_subnetwork :
  subnetwork c0 (fun i => In i [1; 2; 3]) (fun i => In i [1; 2]) /\
  (forall s, In s (c_species c0) -> In (sp_id s) [1; 2; 3] ->
     c_en c0 (sp_id s) = true /\ ~ exists a, In a [RName "O"] /\ denotes c0 a s).
Proof.
  split; [split|].
  - intros r s Hr HR Hs. change (c_reactions c0) with reactions0 in Hr. cbn in Hr. cases Hr; subst r; cbn in HR; cases HR;
      try discriminate; unfold takes_part in Hs; cbn in Hs; destruct Hs as [Hs|Hs]; cases Hs; subst s; cbn; auto.
  - intros s Hs HS. change (c_species c0) with species0 in Hs. exists (mkr 2 [sE; sAr] [sE; sE; sArp]).
    split; [cbn; auto|]. split; [cbn; auto|]. unfold takes_part. cbn in Hs. cases Hs; subst s; cbn in HS; cases HS; try discriminate; cbn; auto.
  - intros s Hs HS. split; [reflexivity|]. intros (a & [<-|[]] & _ & Hn).
    change (c_species c0) with species0 in Hs. cbn in Hs. cases Hs; subst s; cbn in HS, Hn; cases HS; discriminate.
Qed.

Lemma c0_two_disables :
  (forall s, asked_sp c0 ([RName "O"] ++ [RId 4]) s -> ~ protected c0 s) /\
  snd (disable c0 [RName "O"] []) = Ok tt /\
  shown (fst (disable (fst (disable c0 [RName "O"] [])) [RId 4] [1])) = (["e"; "Ar"; "Ar+"], [2], ["e"; "Ar+"]).
Proof.
  split; [|vm_compute; auto]. intros s (a & Ha & Hs & Hd) Hp.
  assert (sp_id s = 4 \/ sp_id s = 5) as X.
  { change (c_species c0) with species0 in Hs. cbn in Ha, Hs. cases Ha; subst a; cases Hs; subst s; cbn in Hd; try discriminate; cbn; auto. }
  destruct Hp as [Hp|Hp]; destruct X as [X|X]; rewrite X in Hp; vm_compute in Hp; discriminate.
Qed.

Lemma c0_program :
  let prog := [WNew Plain species0 reactions0 None; WDo 0 (HOp (OSetSp "ret_coefs" (RName "Ar+") (VDict [("O", SFlt (Fin 1))])));
               WCopy 0; WDo 1 (HOp (ODisable [RName "O"] [])); WDo 1 (HMutRet 3 [("Ar", Fin 2)]); WCopy 1;
               WDo 0 (HOp (OResetSp "all"))] in
  Forall valid_op prog /\
  map (fun c => (map sp_name (get_species c false true true), c_ret c)) (vrun E0 prog) =
  [(["e"; "Ar"; "Ar+"; "Ar*"; "O"; "O+"; "M"], []);
   (["e"; "Ar"; "Ar+"; "Ar*"; "M"], [(3, [("Ar", Fin 2)])]);
   (["e"; "Ar"; "Ar+"; "Ar*"; "M"], [(3, [("Ar", Fin 2)])])].
Proof.
  split; [|vm_compute; reflexivity]. repeat (constructor; [exact I|]) || (constructor; [cbn [valid_op]; table|]).
  repeat (constructor; [exact I|]). constructor.
Qed.

Definition cd : chem :=
  run E0 c0 [OSetSp "stick_coef" (RName "Ar*") (VFlt (Fin (1 # 2)));
             OSetSp "ret_coefs" (RName "Ar+") (VDict [("Ar", SFlt (Fin (1 # 2))); ("Ar*", SFlt (Fin (1 # 2)))]);
             OSetRx "arrh_a" 2 (VFlt (Fin 7)); ODisable [RName "O"] []].
Definition cd_file : cattrs :=
  match chemistry_attributes E0 no_files cd with Ok f => f | Err _ => MkAttrs [] [] [] None [] [] [] [] None None end.

Lemma cd_parts :
  c_stick cd = [(4, SFlt (Fin (1 # 2)))] /\ c_ret cd = [(3, [("Ar", Fin (1 # 2)); ("Ar*", Fin (1 # 2))])] /\
  c_arrh cd = [(2, SFlt (Fin 7))] /\ c_species cd = species0.
Proof. vm_compute. auto. Qed.

Lemma cd_ok :
  reachable E0 c0 /\ reachable E0 cd /\ same_input c0 cd /\ chemistry_attributes E0 no_files cd = Ok cd_file /\
  (forall i dd n, In (i, dd) (c_ret cd) -> In n (map fst dd) ->
     exists s, In s (c_species cd) /\ c_en cd (sp_id s) = true /\ sp_name s = n) /\
  no_nan E0 (c_stick cd) /\ no_nan E0 (c_arrh cd) /\
  (forall i dd, In (i, dd) (c_ret cd) -> NoDup (map fst dd) /\ forall n x, In (n, x) dd -> x <> NaN) /\
  c_stick cd <> [] /\ c_ret cd <> [] /\ c_arrh cd <> [] /\ c_en cd 5 = false.
Proof.
  pose proof cd_parts as (P1 & P2 & P3 & P4).
  split; [exact c0_reachable|]. split; [apply run_reachable, c0_reachable|].
  split; [repeat split; vm_compute; reflexivity|]. split; [vm_compute; reflexivity|].
  rewrite P1, P2, P3, P4. split; [|split; [|split; [|split; [|split; [|split; [|split]]]]]].
  - intros i dd n [X|[]] Hn. inversion X; subst. cbn in Hn. destruct Hn as [<-|[<-|[]]];
      [exists sAr|exists sArs]; (split; [cbn; auto|]); (split; [vm_compute; reflexivity|reflexivity]).
  - intros i x [X|[]]. inversion X; subst. eexists. split; [reflexivity|discriminate].
  - intros i x [X|[]]. inversion X; subst. eexists. split; [reflexivity|discriminate].
  - intros i dd [X|[]]. inversion X; subst. split.
    + cbn. constructor; [cbn; intuition discriminate|]. constructor; [tauto|constructor].
    + intros n x Hx. cbn in Hx. cases Hx; inversion Hx; discriminate.
  - discriminate.
  - discriminate.
  - discriminate.
  - vm_compute. reflexivity.
Qed.

Lemma cd_matrix :
  (forall i, In i (map fst (c_ret cd)) -> In i (map sp_id (get_species cd false false true))) /\
  (forall s d, In s (get_species cd false false true) -> shown_ret cd s = Some d ->
     NoDup (map fst d) /\ ~ In "e" (map fst d) /\ ~ In "M" (map fst d)) /\
  match get_return_matrix cd false with
  | Ok m => rm_rows m = [2; 3; 4] /\ rm_get m 2 3 = Fin (1 # 2) /\ rm_get m 4 3 = Fin (1 # 2) /\ rm_get m 3 4 = fzero
  | Err _ => False
  end.
Proof.
  assert (S : get_species cd false false true = [sAr; sArp; sArs]) by (vm_compute; reflexivity).
  rewrite S. pose proof cd_parts as (_ & -> & _). split; [intros i [<-|[]]; cbn; auto|]. split.
  - intros s d Hs Hd. cbn in Hs. cases Hs; subst s; vm_compute in Hd; inversion Hd; subst d; cbn;
      (split; [repeat (constructor; [cbn; intuition discriminate|]); constructor|intuition discriminate]).
  - vm_compute. auto.
Qed.

Lemma c0_adhoc :
  snd (set_adhoc_species E0 c0 "stick_coef" (RName "Ar*") (VSc (SNp (Fin (1 # 3))))) = Ok tt /\
  eff_stick (fst (set_adhoc_species E0 c0 "stick_coef" (RName "Ar*") (VSc (SNp (Fin (1 # 3)))))) sArs = SFlt (Fin (1 # 3)).
Proof. vm_compute. auto. Qed.

Lemma c0_row :
  match zget 2 (get_stoichiomatrix c0 false true Net) with
  | Some row => row = [(1, 1); (2, -1); (3, 1); (4, 0); (5, 0); (6, 0); (999, 0)]
  | None => False
  end.
Proof. vm_compute. reflexivity. Qed.

Lemma c0_fulfillable :
  fulfillable c0 [RName "O"] [] /\ ~ fulfillable c0 [RName "Ar*"; RId 5] [2].
Proof.
  pose proof (reachable_Inv E0 c0 c0_reachable) as I.
  pose proof (disable_succeeds_iff c0 [RName "O"] [] I c0_consistent) as S1.
  pose proof (disable_succeeds_iff c0 [RName "Ar*"; RId 5] [2] I c0_consistent) as S2.
  split.
  - assert (X : exists c', disable c0 [RName "O"] [] = (c', Ok tt)).
    { exists (fst (disable c0 [RName "O"] [])). pose proof c0_disable_O as [A _]. rewrite <- A. apply surjective_pairing. }
    apply S1 in X. destruct X as (_ & _ & [[X _]|X]); [|exact X]. exfalso.
    assert (asked_sp c0 [RName "O"] sO) as Y by (exists (RName "O"); split; [now left|split; [cbn; tauto|reflexivity]]).
    apply X in Y. discriminate.
  - intros F. destruct S2 as [_ S2]. destruct S2 as (c' & X).
    + split; [|split; [|right; exact F]].
      * intros a Ha. cbn in Ha. cases Ha; subst a; [exists sArs|exists sO]; (split; [cbn; tauto|reflexivity]).
      * intros z [<-|[]]. exists (mkr 2 [sE; sAr] [sE; sE; sArp]). split; [cbn; tauto|reflexivity].
    + rewrite c0_disable_refused in X. discriminate.
Qed.
