(** Concrete LaTeX texts: witnesses for refutations and non-vacuity
    examples. *)
From Coq Require Import Qabs.
From Verif Require Import Base BaseLemmas Species Reactions MolSpec SpeciesProofs ReactionProofs MolExamples Latex LatexSpec
  LatexNum LatexRate LatexName LatexFormula LatexSet LatexReact.

(** ** Numbers *)

Definition u2 := [("arrh_a", Some "m3.s-1")].
Definition u2c := [("arrh_a", Some "m3.s-1"); ("arrh_c", Some "eV")].
Definition rx_loss := mkr 11 [sp_e; sp_O] [sp_e; sp_Op; sp_e]
  [("arrh_a", VFlt (Fin 3)); ("arrh_b", VFlt (Fin 10)); ("arrh_c", VFlt (Fin 20)); ("el_en_loss", VFlt (Fin 300))] u2c.
Definition rx_fine := mkr 12 [sp_e; sp_O] [sp_e; sp_Op; sp_e]
  [("arrh_a", VFlt (Fin (9999 # 1000))); ("arrh_b", VFlt (Fin (- 1 # 2))); ("arrh_c", VFlt (Fin (1362 # 100))); ("el_en_loss", VFlt (Fin (1362 # 100)))] u2c.
Definition rx_zero := mkr 13 [sp_O; sp_Ox] [sp_Ox; sp_O] [("arrh_a", VFlt (Fin 0))] u2.
Definition rx_none := mkr 14 [sp_O; sp_Ox] [sp_Ox; sp_O] [("special_number", VInt 1)] [].
Definition rx_small := mkr 15 [sp_O; sp_Ox] [sp_Ox; sp_O] [("arrh_a", VFlt (Fin 3)); ("arrh_b", VFlt (Fin (1 # 1000)))] u2.

Lemma rates_history : rx_history E1 rx_loss /\ rx_history E1 rx_fine /\ rx_history E1 rx_zero /\ rx_history E1 rx_none /\ rx_history E1 rx_small.
Proof.
  split; [eapply mkr_history; vm_compute; reflexivity|]. split; [eapply mkr_history; vm_compute; reflexivity|].
  split; [eapply mkr_history; vm_compute; reflexivity|]. split; [eapply mkr_history; vm_compute; reflexivity|].
  eapply mkr_history; vm_compute; reflexivity.
Qed.

Lemma loss_lost : exists r, rx_history E1 r /\ get_rx_float E1 "el_en_loss" r = Ok (Fin 300) /\ cell E1 ColLoss r = Ok "3"%string.
Proof. exists rx_loss. split; [apply rates_history|]. split; vm_compute; reflexivity. Qed.
Lemma exponent_lost : exists r, rx_history E1 r /\
  get_arrh_bc E1 "arrh_b" r = Ok (Some (Fin 10)) /\ get_arrh_bc E1 "arrh_c" r = Ok (Some (Fin 20)) /\
  texify_rate_coefficient E1 true false r = Ok "3 T_\mathrm{e}^{1} \exp \left( -2/T_\mathrm{e} \right)"%string.
Proof. exists rx_loss. split; [apply rates_history|]. split; [|split]; vm_compute; reflexivity. Qed.
Lemma small_exponent_lost : exists r, rx_history E1 r /\
  get_arrh_bc E1 "arrh_b" r = Ok (Some (Fin (1 # 1000))) /\
  texify_rate_coefficient E1 true false r = Ok "3 \left( \mathrm{T_g}/300 \right)^{}"%string.
Proof. exists rx_small. split; [apply rates_history|]. split; vm_compute; reflexivity. Qed.
Lemma zero_lost : exists r, rx_history E1 r /\ get_arrh_a E1 true r = Ok (Some (Fin 0)) /\
  texify_rate_coefficient E1 true false r = Ok ""%string.
Proof. exists rx_zero. split; [apply rates_history|]. split; vm_compute; reflexivity. Qed.

(** The hypotheses of [rate_text] and [loss_text] are met. *)
Example fine_rate :
  texify_rate_coefficient E1 true true rx_fine =
    Ok "1 \times 10^{1} T_\mathrm{e}^{-0.5} \exp \left( -\dfrac{13.62}{T_\mathrm{e}} \right)"%string /\
  get_arrh_a E1 true rx_fine = Ok (Some (Fin (9999 # 1000))) /\ get_arrh_bc E1 "arrh_b" rx_fine = Ok (Some (Fin (- 1 # 2))) /\
  get_arrh_bc E1 "arrh_c" rx_fine = Ok (Some (Fin (1362 # 100))) /\ is_electron_process rx_fine = Ok true /\
  get_rx_float E1 "el_en_loss" rx_fine = Ok (Fin (1362 # 100)) /\ cell E1 ColLoss rx_fine = Ok "13.62"%string.
Proof. repeat match goal with |- _ /\ _ => split end; vm_compute; reflexivity. Qed.
Example fine_not_ten : ~ multiple_of_ten (1362 # 100) /\ ~ multiple_of_ten (- 1 # 2) /\ multiple_of_ten 300.
Proof.
  split; [|split].
  - intros [k H]. apply Qabs_Qle_condition in H as [H1 H2]. unfold Qle in *. cbn -[Z.mul] in *. lia.
  - intros [k H]. apply Qabs_Qle_condition in H as [H1 H2]. unfold Qle in *. cbn -[Z.mul] in *. lia.
  - exists 30. vm_compute. discriminate.
Qed.

(** ** Formulas *)

Definition f_ethanol : formula := MkFormula [(["C"], ("2", "_2")); (["H"], ("5", "_5"))] ["O"; "H"] ("+", "^+").
Example ethanol_ok : formula_ok f_ethanol.
Proof.
  split; [|split; [|split]].
  - intros g [<-|[<-|[]]]; (split; [split; [discriminate|intros x [<-|[]]]|]); cbn; tauto.
  - right. split; [discriminate|]. intros x [<-|[<-|[]]]; cbn; tauto.
  - left. discriminate.
  - cbn. tauto.
Qed.
Example ethanol_texts : formula_text f_ethanol = "C2H5OH+"%string /\ formula_latex f_ethanol = "\mathrm{C}_2 \mathrm{H}_5 \mathrm{OH}^+"%string.
Proof. split; vm_compute; reflexivity. Qed.
Example bracket_free_state : bracket_free (chars "v=1").
Proof. split; intros H; cbn in H; repeat (destruct H as [H|H]; [discriminate|]); easy. Qed.

Lemma large_count : texify_species "C60" = Ok "\mathrm{C}_60"%string.
Proof. vm_compute. reflexivity. Qed.
Lemma many_signs : texify_species "Ar++++" = Ok "\mathrm{Ar}^{3+}+"%string.
Proof. vm_compute. reflexivity. Qed.

(** ** Names *)
Lemma names_clash : exists m n t, m <> n /\ texify_species m = Ok t /\ texify_species n = Ok t.
Proof. exists "N2"%string, "N_2"%string, "\mathrm{N}_2"%string. split; [discriminate|]. split; vm_compute; reflexivity. Qed.
Lemma stateds : stated "O2+" /\ stated "O2(v=1)".
Proof.
  assert (P : forall s, forallb (fun c => negb (tex_special c) && negb (Ascii.eqb c "(") && negb (Ascii.eqb c ")"))%bool (chars s) = true ->
            doubled_sign (chars s) = false -> plain_name s).
  { intros s H D. split; [|easy]. intros c Hc. rewrite forallb_forall in H. apply H in Hc.
    apply Bool.andb_true_iff in Hc as [Hc H3]. apply Bool.andb_true_iff in Hc as [H1 H2].
    split; [now apply Bool.negb_true_iff|]. split; intros ->; discriminate. }
  split; [apply stated_none|apply (stated_some "O2" "v=1")]; try (apply P; vm_compute; reflexivity). apply bracket_free_state.
Qed.
Lemma not_texified : texify_species "CH(OH)3" = Err EAssertion.
Proof. vm_compute. reflexivity. Qed.

(** ** Reactions *)

Definition sp_X1 := mk 20 20 [("name", VStr "O"); ("mass", VInt 16); ("latex", VStr "X")].
Definition sp_X2 := mk 21 21 [("name", VStr "O*"); ("stateless", VStr "O"); ("state", VStr "*"); ("mass", VInt 16); ("latex", VStr "X")].
Definition rx_merged := mkr 16 [sp_X1; sp_X1; sp_X2] [sp_X1; sp_X2; sp_X2] [("arrh_a", VFlt (Fin 3))] u3.
Lemma merged : exists r, rx_history E1 r /\ xattr r "latex" = VNone /\
  List.length (r_lhs r) = 3%nat /\ List.length (r_rhs r) = 3%nat /\
  rx_get_latex r = Ok "X \rightarrow 2 X"%string.
Proof.
  exists rx_merged. split; [eapply mkr_history; vm_compute; reflexivity|].
  split; [|split; [|split]]; vm_compute; reflexivity.
Qed.
Example ion_latex : xattr rx_ion "latex" = VNone /\
  rx_get_latex rx_ion = Ok "\mathrm{e} + \mathrm{O} \rightarrow 2 \mathrm{e} + \mathrm{O}^+"%string.
Proof. split; vm_compute; reflexivity. Qed.
Example ion_tally : exists tl tr, tally (r_lhs rx_ion) tl /\ tally (r_rhs rx_ion) tr /\
  map (fun p => (rp_id (fst p), snd p)) tl = [(0, 1); (1, 1)] /\ map (fun p => (rp_id (fst p), snd p)) tr = [(0, 2); (3, 1)].
Proof.
  exists [(sp_e, 1); (sp_O, 1)], [(sp_e, 2); (sp_Op, 1)].
  split; [vm_compute; repeat (constructor; try reflexivity)|]. split; [vm_compute; repeat (constructor; try reflexivity)|].
  split; vm_compute; reflexivity.
Qed.
Example ion_species : forall s, In s (r_lhs rx_ion ++ r_rhs rx_ion) -> exists n, rattr s "latex" = VNone /\ get_name s = Ok n /\ stated n.
Proof.
  assert (P : forall s, forallb (fun c => negb (tex_special c) && negb (Ascii.eqb c "(") && negb (Ascii.eqb c ")"))%bool (chars s) = true ->
            doubled_sign (chars s) = false -> stated s).
  { intros s H D. apply stated_none. split; [|easy]. intros c Hc. rewrite forallb_forall in H. apply H in Hc.
    apply Bool.andb_true_iff in Hc as [Hc H3]. apply Bool.andb_true_iff in Hc as [H1 H2].
    split; [now apply Bool.negb_true_iff|]. split; intros ->; discriminate. }
  assert (L : r_lhs rx_ion ++ r_rhs rx_ion = [sp_e; sp_O; sp_e; sp_Op; sp_e]) by (vm_compute; reflexivity).
  rewrite L. intros s [<-|[<-|[<-|[<-|[<-|[]]]]]].
  - exists "e"%string. split; [vm_compute; reflexivity|]. split; [vm_compute; reflexivity|]. apply P; vm_compute; reflexivity.
  - exists "O"%string. split; [vm_compute; reflexivity|]. split; [vm_compute; reflexivity|]. apply P; vm_compute; reflexivity.
  - exists "e"%string. split; [vm_compute; reflexivity|]. split; [vm_compute; reflexivity|]. apply P; vm_compute; reflexivity.
  - exists "O+"%string. split; [vm_compute; reflexivity|]. split; [vm_compute; reflexivity|]. apply P; vm_compute; reflexivity.
  - exists "e"%string. split; [vm_compute; reflexivity|]. split; [vm_compute; reflexivity|]. apply P; vm_compute; reflexivity.
Qed.

(** ** Tables *)
Example small_table : reactions_table E1 [ColId; ColReaction; ColLoss] [rx_fine; rx_el] =
  Ok [["12"; "$\mathrm{e} + \mathrm{O} \rightarrow 2 \mathrm{e} + \mathrm{O}^+$"; "13.62"];
      ["4"; "$\mathrm{O} + \mathrm{O}^* \rightarrow \mathrm{O}^* + \mathrm{O}$"; ""]]%string.
Proof. vm_compute. reflexivity. Qed.
Lemma none_rate : exists r, rx_history E1 r /\ get_arrh_a E1 true r = Ok None /\ cell E1 ColRate r = Err EType.
Proof. exists rx_none. split; [apply rates_history|]. split; vm_compute; reflexivity. Qed.
Lemma nan_rate : exists r, rx_history E1 r /\ cell E1 ColRate r = Err EValue.
Proof. exists rx_nan. split; [apply examples_rx|]. vm_compute. reflexivity. Qed.
