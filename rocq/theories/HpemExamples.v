(** Concrete HPEM files: witnesses for refutations and non-vacuity examples. *)
From Verif Require Import Base BaseLemmas Species Reactions MolSpec SpeciesProofs Classification MolExamples Xml XmlSpec XmlExamples Hpem HpemSpec HpemText HpemProofs
  HpemMain HpemBuilder.

Definition file1 : list string :=
  ["E : -1 ; 1/2000 & 0 ] 0 [ 0 @ E ! electron"; "  O2 :  0 ; 32 & 0 ]1[ 0 @ O2 !"; "O2^ : 1 ; 32 & 1/2 ] 1 [ 1 @ O2 ! an ion "; "Ar:0;40&0]1[0@Ar!";
   " * "; "E + O2 > E + E + O2^ : 1/100 ; 1/2 & 12 ] 0 [ 1 ! ionisation"; "O2 + O2>O2 + O2 : 1 ; 0 & 0 ] 0 [ 7 !"].
Definition data1 : list sp_data :=
  [MkSpData "E" (-1) (Fin (1 # 2000)) (Fin 0) 0 (Fin 0) "E" "electron"; MkSpData "O2" 0 (Fin 32) (Fin 0) 1 (Fin 0) "O2" "";
   MkSpData "O2^" 1 (Fin 32) (Fin (1 # 2)) 1 (Fin 1) "O2" "an ion"; MkSpData "Ar" 0 (Fin 40) (Fin 0) 1 (Fin 0) "Ar" ""].
Definition rdata1 : list rx_data :=
  [MkRxData ["E"; "O2"] ["E"; "E"; "O2^"] (Fin (1 # 100)) (Fin (1 # 2)) (Fin 12) (Fin 0) 1 "ionisation";
   MkRxData ["O2"; "O2"] ["O2"; "O2"] (Fin 1) (Fin 0) (Fin 0) (Fin 0) 7 ""].

Definition freeb (s : string) : bool := forallb (fun c => negb (existsb (Ascii.eqb c) reserved)) (chars s).
Lemma free_b s : freeb s = true -> free s.
Proof.
  unfold freeb. intros H c Hc Hr. rewrite forallb_forall in H. specialize (H c Hc). apply Bool.negb_true_iff in H.
  apply Bool.not_true_iff_false in H. apply H. apply existsb_exists. exists c. split; [exact Hr|apply Ascii.eqb_refl].
Qed.
Lemma token_b s : s <> "" -> freeb s = true -> forallb (fun c => negb (is_space c)) (chars s) = true -> token s.
Proof.
  intros H1 H2 H3. split; [exact H1|]. split; [now apply free_b|]. intros c Hc. rewrite forallb_forall in H3. specialize (H3 c Hc). now apply Bool.negb_true_iff in H3.
Qed.
Lemma comment_b s : freeb s = true -> str_strip s = s -> comment s.
Proof. intros H1 H2. split; [now apply free_b|exact H2]. Qed.
Lemma name_b s : s <> "" -> freeb s = true -> forallb (fun c => negb (is_space c)) (chars s) = true -> has_char "," s = false -> name_token s.
Proof. intros H1 H2 H3 H4. split; [now apply token_b|]. intros H. apply contains_has_char in H. congruence. Qed.
Lemma blank_b s : forallb is_space (chars s) = true -> blank s.
Proof. intros H c Hc. rewrite forallb_forall in H. auto. Qed.
Ltac tok := apply token_b; [discriminate|reflexivity|reflexivity].
Ltac nametok := apply name_b; [discriminate|reflexivity|reflexivity|reflexivity].
Ltac sp a b := exists a, b; split; [apply blank_b; reflexivity|]; split; [apply blank_b; reflexivity|]; reflexivity.

(** A line with the same blanks around all fields but the first and the last. *)
Ltac sp_line tq tm ts tf tc a0 b0 a b y z :=
  exists tq, tm, ts, tf, tc; do 8 eexists;
  split; [nametok|]; split; [nametok|]; split; [apply comment_b; reflexivity|];
  split; [tok|]; split; [reflexivity|]; split; [tok|]; split; [reflexivity|]; split; [tok|]; split; [reflexivity|];
  split; [tok|]; split; [reflexivity|]; split; [tok|]; split; [reflexivity|];
  split; [sp a0 b0|]; split; [sp a b|]; split; [sp a b|]; split; [sp a b|]; split; [sp a b|]; split; [sp a b|]; split; [sp a b|];
  split; [sp y z|]; reflexivity.

Lemma file1_data : dat_file E2 data1 rdata1 file1.
Proof.
  exists (firstn 4 file1), " * ", (skipn 5 file1). split; [reflexivity|]. split; [sp " " " "|]. split; [|].
  - repeat constructor.
    + sp_line "-1" "1/2000" "0" "0" "0" "" " " " " " " " " "".
    + exists "0", "32", "0", "1", "0"; do 8 eexists.
      split; [nametok|]. split; [nametok|]. split; [apply comment_b; reflexivity|].
      do 5 (split; [tok|]; split; [reflexivity|]).
      split; [sp "  " " "|]. split; [sp "  " " "|]. split; [sp " " " "|]. split; [sp " " " "|]. split; [sp "" ""|]. split; [sp " " " "|]. split; [sp " " " "|].
      split; [sp "" ""|]. reflexivity.
    + sp_line "1" "32" "1/2" "1" "1" "" " " " " " " " " " ".
    + sp_line "0" "40" "0" "1" "0" "" "" "" "" "" "".
  - repeat constructor.
    + exists "1/100", "1/2", "12", "0", "1"; do 8 eexists.
      split; [discriminate|]. split; [discriminate|]. split; [intros n Hn; cbn in Hn; repeat (destruct Hn as [<-|Hn]; [nametok|]); contradiction|].
      split; [apply comment_b; reflexivity|]. do 5 (split; [tok|]; split; [reflexivity|]).
      split; [sp "" " "|]. split; [sp " " " "|]. do 5 (split; [sp " " " "|]). split; [sp " " ""|]. reflexivity.
    + exists "1", "0", "0", "0", "7"; do 8 eexists.
      split; [discriminate|]. split; [discriminate|]. split; [intros n Hn; cbn in Hn; repeat (destruct Hn as [<-|Hn]; [nametok|]); contradiction|].
      split; [apply comment_b; reflexivity|]. do 5 (split; [tok|]; split; [reflexivity|]).
      split; [sp "" ""|]. split; [sp "" " "|]. do 5 (split; [sp " " " "|]). split; [sp "" ""|]. reflexivity.
Qed.

(** The objects. *)
Definition obj (uid : nat) (d : sp_data) : rp :=
  match rp_init uid (VInt 999) (sp_attrs d) [] [("charge", Some "e"); ("mass", Some "amu")] with Ok s => s | Err _ => sp_e end.
Definition objs1 := map (fun p => obj (fst p) (snd p)) (combine [0; 1; 2; 3]%nat data1).
Definition robj1 : reaction :=
  match objs1 with
  | [e; o; p; _] => mk2 999 [e; o] [e; e; p] [("arrh_a", VFlt (Fin (1 # 100))); ("arrh_b", VFlt (Fin (1 # 2))); ("arrh_c", VFlt (Fin 12));
      ("gas_heat_contrib", VFlt (Fin 0)); ("special_number", VInt 1); ("comments", VStr "ionisation")]
      [("arrh_a", Some "cm3.s-1"); ("arrh_c", Some "eV"); ("gas_heat_contrib", Some "eV")]
  | _ => rx_1
  end.

Lemma obj_ok uid d s : rp_init uid (VInt 999) (sp_attrs d) [] [("charge", Some "e"); ("mass", Some "amu")] = Ok s -> sp_object d (obj uid d).
Proof. intros H. exists uid, (rename (d_name d)), (rename (d_rname d)). split; [apply renamed_rename|]. split; [apply renamed_rename|]. unfold obj. fold (sp_attrs d). rewrite H. reflexivity. Qed.

Lemma objs1_ok : Forall2 sp_object data1 objs1.
Proof. unfold objs1, data1. cbn [combine map fst snd]. repeat constructor; eapply obj_ok; vm_compute; reflexivity. Qed.
Lemma objs1_names : NoDup (map get_name objs1).
Proof. vm_compute. repeat constructor; cbn; intuition discriminate. Qed.

Lemma robj1_ok : Forall2 (rx_object E2 objs1) (filter (taken true) rdata1) [robj1].
Proof.
  change (filter (taken true) rdata1) with [MkRxData ["E"; "O2"] ["E"; "E"; "O2^"] (Fin (1 # 100)) (Fin (1 # 2)) (Fin 12) (Fin 0) 1 "ionisation"].
  constructor; [|constructor].
  assert (N : forall s n n', In s objs1 -> renamed n n' -> get_name s = Ok n' -> In s objs1 /\ exists n', renamed n n' /\ get_name s = Ok n') by eauto.
  assert (S1 : get_name (obj 0 (nth 0 data1 (MkSpData "" 0 fzero fzero 0 fzero "" ""))) = Ok "e") by reflexivity.
  assert (S2 : get_name (obj 1 (nth 1 data1 (MkSpData "" 0 fzero fzero 0 fzero "" ""))) = Ok "O2") by reflexivity.
  assert (S3 : get_name (obj 2 (nth 2 data1 (MkSpData "" 0 fzero fzero 0 fzero "" ""))) = Ok "O2+") by reflexivity.
  exists [obj 0 (nth 0 data1 (MkSpData "" 0 fzero fzero 0 fzero "" "")); obj 1 (nth 1 data1 (MkSpData "" 0 fzero fzero 0 fzero "" ""))],
         [obj 0 (nth 0 data1 (MkSpData "" 0 fzero fzero 0 fzero "" "")); obj 0 (nth 0 data1 (MkSpData "" 0 fzero fzero 0 fzero "" ""));
          obj 2 (nth 2 data1 (MkSpData "" 0 fzero fzero 0 fzero "" ""))], "cm3.s-1", "eV".
  split; [|split; [|split; [|split]]].
  - cbn [d_lhs]. constructor; [|constructor; [|constructor]].
    + apply (N _ _ "e"); [now left|apply renamed_rename|exact S1].
    + apply (N _ _ "O2"); [right; now left|apply renamed_rename|exact S2].
  - cbn [d_rhs]. constructor; [|constructor; [|constructor; [|constructor]]].
    + apply (N _ _ "e"); [now left|apply renamed_rename|exact S1].
    + apply (N _ _ "e"); [now left|apply renamed_rename|exact S1].
    + apply (N _ _ "O2+"); [right; right; now left|apply renamed_rename|exact S3].
  - right. now left.
  - left. split; [reflexivity|]. eexists. split; [now left|exact S1].
  - vm_compute. reflexivity.
Qed.

Lemma file1_nonvacuous : numbers_readable E2 /\ dat_file E2 data1 rdata1 file1 /\ Forall2 sp_object data1 objs1 /\ NoDup (map get_name objs1) /\
  Forall2 (rx_object E2 objs1) (filter (taken true) rdata1) [robj1] /\ List.length (filter (taken true) rdata1) = 1%nat.
Proof.
  split; [exact E2_readable|]. split; [exact file1_data|]. split; [exact objs1_ok|]. split; [exact objs1_names|]. split; [exact robj1_ok|reflexivity].
Qed.

(** ** Failed imports leave their traces *)
Definition imported (lines : list string) := add_chemistry_from_hpem E2 so2 true lines b_empty.

(** Four reactants; a species that is not listed; a blank line at the end. *)
Definition file_four := ["O2 : 0 ; 32 & 0 ] 1 [ 0 @ O2 !"; "*"; "O2 > O2 : 1 ; 0 & 0 ] 0 [ 1 !"; "O2 + O2 + O2 + O2 > O2 : 1 ; 0 & 0 ] 0 [ 1 !"].
Definition file_unlisted := ["O2 : 0 ; 32 & 0 ] 1 [ 0 @ O2 !"; "*"; "O2 > O2 : 1 ; 0 & 0 ] 0 [ 1 !"; "O2 > O : 1 ; 0 & 0 ] 0 [ 1 !"].
Lemma failed_import_kept : exists b1 b2 e,
  imported file_four = (b1, Err EKey) /\ List.length (b_species b1) = 1%nat /\ List.length (b_reactions b1) = 1%nat /\
  imported file_unlisted = (b2, Err EXml) /\ List.length (b_species b2) = 1%nat /\ List.length (b_reactions b2) = 1%nat /\
  add_chemistry_from_hpem E2 so2 true ["O2 : 0 ; 32 & 0 ] 1 [ 0 @ O2 !"; "*"; "O2 > O2 : 1 ; 0 & 0 ] 0 [ 1 !"] b1 = (b1, Err e).
Proof. eexists _, _, _. repeat (split; [vm_compute; reflexivity|]). vm_compute. reflexivity. Qed.

(** A blank line at the end is an error. *)
Lemma blank_line_error : dat_file E2 data1 rdata1 file1 /\ snd (imported file1) = Ok tt /\ imported (file1 ++ [""]) = (b_empty, Err EIndex).
Proof. split; [exact file1_data|]. split; [vm_compute; reflexivity|]. vm_compute. reflexivity. Qed.

(** ** What is not as in the file *)

(** A species returned from the walls that is in no reaction is left out. *)
Definition file_ret := ["A : 0 ; 2 & 1 ] 1 [ 1 @ B !"; "B : 0 ; 2 & 0 ] 1 [ 0 @ B !"; "*"; "A > A : 1 ; 0 & 0 ] 0 [ 1 !"].
Lemma returned_left_out : exists b s r, imported file_ret = (b, Ok tt) /\ parse E2 0 (b_species b) (b_reactions b) = Ok ([s], [r]) /\
  get_name s = Ok "A" /\ get_ret_coefs E2 s = Ok (Some [("B", Fin 1)]).
Proof. eexists _, _, _. split; [vm_compute; reflexivity|]. split; [vm_compute; reflexivity|]. split; vm_compute; reflexivity. Qed.

(** A comment with exclamation marks, after a name without a blank. *)
Definition file_mark (gap : string) := ["O2^ : 1 ; 32 & 1 ] 1 [ 1 @ O2" ++ gap ++ "!see!below"; "O2 : 0 ; 32 & 0 ] 1 [ 0 @ O2 !";
  "E : -1 ; 0 & 0 ] 1 [ 0 @ E !"; "*"; "E + O2 > E + E + O2^ : 1 ; 0 & 0 ] 0 [ 1 !"]%string.
Lemma mark_in_name : exists b b' s s' t u t' u' r r',
  imported (file_mark " ") = (b, Ok tt) /\ parse E2 0 (b_species b) (b_reactions b) = Ok ([s; t; u], [r]) /\
  imported (file_mark "") = (b', Ok tt) /\ parse E2 0 (b_species b') (b_reactions b') = Ok ([s'; t'; u'], [r']) /\
  get_ret_coefs E2 s = Ok (Some [("O2", Fin 1)]) /\ get_ret_coefs E2 s' = Ok (Some [("O2!see", Fin 1)]) /\
  get_comments s = Some "see!below" /\ get_comments s' = Some "below".
Proof. eexists _, _, _, _, _, _, _, _, _, _. repeat (split; [vm_compute; reflexivity|]). vm_compute; reflexivity. Qed.

(** The same name twice: the last line counts. *)
Definition file_dup := ["O2^ : 1 ; 32 & 0 ] 1 [ 0 @ O2 !"; "O2+ : 1 ; 33 & 0 ] 1 [ 0 @ O2 !"; "*"; "O2^ > O2+ : 1 ; 0 & 0 ] 0 [ 1 !"].
Lemma repeated_replaced : exists b s r, imported file_dup = (b, Ok tt) /\ parse E2 0 (b_species b) (b_reactions b) = Ok ([s], [r]) /\
  get_name s = Ok "O2+" /\ get_mass E2 s = Ok (Some (Fin 33)).
Proof. eexists _, _, _. repeat (split; [vm_compute; reflexivity|]). vm_compute; reflexivity. Qed.

(** An import into a builder that holds the electron. *)
Definition before1 : list hop := [HCall (ORp sp_Ox); HImport true file_ret; HCall (ORp sp_Ox)].
Lemma before1_ok : (forall o, In (HCall o) before1 -> well_named o) /\ species_named E2 so2 (hhistory E2 so2 b_empty before1) ["O*"; "A"] /\
  dat_file E2 data1 rdata1 file1 /\ Forall2 (fun d n => renamed (d_name d) n) data1 ["e"; "O2"; "O2+"; "Ar"] /\ NoDup ["e"; "O2"; "O2+"; "Ar"] /\
  exists b', add_chemistry_from_hpem E2 so2 true file1 (hhistory E2 so2 b_empty before1) = (b', Ok tt) /\ List.length (b_species b') = 5%nat.
Proof.
  assert (W : forall o, In (HCall o) before1 -> well_named o).
  { intros o [H|[H|[H|[]]]]; try discriminate H; injection H as <-; cbn [well_named]; exists "O*"; split; [vm_compute; reflexivity|discriminate|vm_compute; reflexivity|discriminate]. }
  split; [exact W|]. split.
  - destruct (imports_consistent E2 so2 before1 W) as (ns & SN). assert (ns = ["O*"; "A"]) as <-; [|exact SN].
    pose proof (sn_names _ _ _ _ SN) as F. vm_compute in F. inversion F as [|? a ? ? Ha F1]; subst. inversion F1 as [|? c ? ? Hc F2]; subst. inversion F2; subst.
    vm_compute in Ha, Hc. congruence.
  - split; [exact file1_data|]. split; [apply Forall2_cons; [apply (renamed_rename "E")|]; apply Forall2_cons; [apply (renamed_rename "O2")|]; apply Forall2_cons; [apply (renamed_rename "O2^")|]; apply Forall2_cons; [apply (renamed_rename "Ar")|constructor]|]. split; [repeat constructor; cbn; intuition discriminate|].
    eexists. split; [vm_compute; reflexivity|]. vm_compute; reflexivity.
Qed.
