(** Concrete builders and files: witnesses for refutations and non-vacuity
    examples. *)
From Coq Require Import DecimalString DecimalZ.
From Verif Require Import Base BaseLemmas Species Reactions MolSpec SpeciesProofs ReactionProofs Classification MolExamples Xml XmlSpec
  XmlProofs XmlRead XmlReact XmlRound XmlIds XmlBuilder XmlMain.

(** ** An environment in which numbers can be read back *)

(** The text before and after the first slash. *)
Fixpoint cut (s : string) : option (string * string) :=
  match s with
  | EmptyString => None
  | String c s' => if Ascii.eqb c "/" then Some ("", s')
                   else match cut s' with Some (a, b) => Some (String c a, b) | None => None end
  end.
Fixpoint noslash (s : string) : bool :=
  match s with EmptyString => true | String c s' => negb (Ascii.eqb c "/") && noslash s' end.

Definition showz (z : Z) : string := NilZero.string_of_int (Z.to_int z).
Definition parsez (s : string) : option Z := match NilZero.int_of_string s with Some d => Some (Z.of_int d) | None => None end.

Definition showf (f : flt) : string :=
  match f with
  | Fin (n # d) => (showz n ++ String "/" (showz (Zpos d)))%string
  | PInf => "inf" | NInf => "-inf" | NaN => "nan"
  end.
Definition parsef (s : string) : option flt :=
  match cut s with
  | Some (a, b) => match parsez a, parsez b with Some n, Some (Zpos d) => Some (Fin (n # d)) | _, _ => None end
  | None => match parsez s with
            | Some z => Some (Fin (inject_Z z))
            | None => sget s [("inf", PInf); ("-inf", NInf); ("nan", NaN)]
            end
  end.

Definition E2 : env := {| fparse := parsef; iparse := parsez; fshow := showf; ishow := showz; formula_atoms := formula_atoms E1 |}.
Definition so2 (v : pyval) : string := "object".

Lemma cut_app a b : noslash a = true -> cut (a ++ String "/" b) = Some (a, b).
Proof.
  induction a as [|c a IH]; intros H; cbn in *; [reflexivity|]. apply Bool.andb_true_iff in H as [H1 H2].
  destruct (Ascii.eqb c "/"); [discriminate|]. now rewrite IH.
Qed.
Lemma cut_none a : noslash a = true -> cut a = None.
Proof.
  induction a as [|c a IH]; intros H; cbn in *; [reflexivity|]. apply Bool.andb_true_iff in H as [H1 H2].
  destruct (Ascii.eqb c "/"); [discriminate|]. now rewrite IH.
Qed.
Lemma noslash_showz z : noslash (showz z) = true.
Proof.
  assert (U : forall d, noslash (NilEmpty.string_of_uint d) = true) by (induction d; cbn; auto).
  unfold showz. assert (N : forall d, noslash (NilZero.string_of_uint d) = true) by (intros []; [reflexivity|apply U..]).
  destruct (Z.to_int z); cbn [NilZero.string_of_int noslash]; [apply N|]. rewrite N. reflexivity.
Qed.
Lemma parsez_showz z : parsez (showz z) = Some z.
Proof.
  unfold parsez, showz. rewrite NilZero.isi, DecimalZ.of_to; [reflexivity| |]; intros H;
    apply (f_equal Z.of_int) in H as G; rewrite DecimalZ.of_to in G; cbn in G; subst z; discriminate H.
Qed.
Lemma showz_nonempty z : showz z <> "".
Proof. intros H. pose proof (parsez_showz z) as G. rewrite H in G. discriminate G. Qed.
Lemma showz_inj z w : showz z = showz w -> z = w.
Proof. intros H. pose proof (parsez_showz z) as G. rewrite H, parsez_showz in G. congruence. Qed.

Lemma E2_readable : numbers_readable E2.
Proof.
  split; [|split; [|split; [|split]]]; cbn [E2 fparse iparse fshow ishow].
  - intros [[n d]| | |]; [|reflexivity..]. unfold parsef, showf. now rewrite cut_app, !parsez_showz by apply noslash_showz.
  - intros z. unfold parsef. now rewrite cut_none, parsez_showz by apply noslash_showz.
  - exact parsez_showz.
  - intros [[n d]| | |]; try discriminate. cbn. destruct (showz n) eqn:En; [now apply showz_nonempty in En|discriminate].
  - exact showz_nonempty.
Qed.

Lemma readable_injective E : numbers_readable E -> forall z w, ishow E z = ishow E w -> z = w.
Proof. intros (_ & _ & H & _) z w Hs. pose proof (H z) as G. rewrite Hs, H in G. congruence. Qed.

(** ** A chemistry *)
Definition mk2 (id : Z) (lhs rhs : list rp) (attrs : list (string * pyval)) units : reaction :=
  match reaction_init E2 (VInt id) lhs rhs attrs [] units with Ok r => r | Err _ => MkReaction id [] [] [] [] end.
Lemma mk2_history id lhs rhs attrs units r :
  reaction_init E2 (VInt id) lhs rhs attrs [] units = Ok r -> rx_history E2 (mk2 id lhs rhs attrs units).
Proof. intros H. unfold mk2. rewrite H. change r with (assigns E2 r []). eapply rx_new, H. Qed.

Definition sp_Opx := mk 4 3 [("name", VStr "O+"); ("mass", VInt 16); ("charge", VStr "1"); ("stick_coef", VFlt (Fin (1 # 2)));
  ("ret_coefs", VDict [("O", SFlt (Fin 1))]); ("comments", VStr "ion")].
Definition chem_sps := [sp_e; sp_M; sp_O; sp_Ox; sp_Opx].
Definition rx_1 := mk2 1 [sp_e; sp_O] [sp_e; sp_Opx; sp_e] [("arrh_a", VFlt (Fin 3)); ("arrh_c", VInt 2); ("el_en_loss", VFlt (Fin (27 # 2)))]
  [("arrh_a", Some "cm3.s-1"); ("arrh_c", Some "eV")].
Definition rx_2 := mk2 2 [sp_O; sp_Ox; sp_M] [sp_O; sp_O; sp_M] [("arrh_a", VStr "1/2"); ("doi", VStr "10.1/x"); ("elastic", VSc (SBool false))]
  [("arrh_a", Some "m6.s-1")].
Definition chem_rxs := [rx_1; rx_2].

Lemma contains_has_char c n : contains n (String c "") -> has_char c n = true.
Proof.
  intros (a & b & ->). unfold has_char. apply existsb_exists. exists c. split; [|apply Ascii.eqb_refl].
  rewrite !chars_app. apply in_or_app. right. apply in_or_app. left. now left.
Qed.

Lemma writable_name_intro n : n <> "" -> str_strip n = n -> has_char "," n || has_char "<" n || has_char ">" n = false -> writable_name n.
Proof.
  intros H1 H2 H. apply Bool.orb_false_iff in H as [H H3]. apply Bool.orb_false_iff in H as [H4 H5].
  split; [exact H1|]. split; [exact H2|].
  split; [|split]; intros Hc; apply contains_has_char in Hc; congruence.
Qed.

Ltac writable :=
  split; [eapply mk_history; vm_compute; reflexivity
         |eexists; split; [vm_compute; reflexivity|]; split;
            [apply writable_name_intro; [discriminate|reflexivity|reflexivity]
            |vm_compute; intros; congruence]
         |vm_compute; intros; congruence
         |intros k Hk; cbn in Hk; repeat (destruct Hk as [<-|Hk]; [vm_compute; discriminate|]); contradiction
         |intros d Hd; vm_compute in Hd; try discriminate Hd].

Lemma chem_writable s : In s chem_sps -> writable_species s.
Proof.
  intros [<-|[<-|[<-|[<-|[<-|[]]]]]]; [writable..|]. writable. injection Hd as <-. split; [repeat constructor; intros []|].
  intros n x [[= <- <-]|[]]. split; [discriminate|]. split; [discriminate|]. discriminate.
Qed.

Lemma mk2_sides id lhs rhs attrs units r :
  reaction_init E2 (VInt id) lhs rhs attrs [] units = Ok r -> r_lhs (mk2 id lhs rhs attrs units) = lhs /\ r_rhs (mk2 id lhs rhs attrs units) = rhs.
Proof. intros H. unfold mk2. rewrite H. now apply reaction_init_parts in H. Qed.

Lemma five_incl (a b c d f : rp) : incl [a; c; a; f; a] [a; b; c; d; f] /\ incl [c; d; b; c; c; b] [a; b; c; d; f].
Proof. split; intros x Hx; cbn [In] in *; tauto. Qed.

Ltac rx_texts := intros k Hk; cbn in Hk; repeat (destruct Hk as [<-|Hk]; [vm_compute; discriminate|]); contradiction.

Lemma chem_rx r : In r chem_rxs -> writable_reaction E2 r /\ incl (r_lhs r ++ r_rhs r) chem_sps.
Proof.
  intros [<-|[<-|[]]].
  - split; [split; [eapply mk2_history; vm_compute; reflexivity|left; vm_compute; discriminate|rx_texts]|].
    unfold rx_1. edestruct mk2_sides as [-> ->]; [vm_compute; reflexivity|]. apply five_incl.
  - split; [split; [eapply mk2_history; vm_compute; reflexivity|left; vm_compute; discriminate|rx_texts]|].
    unfold rx_2. edestruct mk2_sides as [-> ->]; [vm_compute; reflexivity|]. apply five_incl.
Qed.

Lemma chem_names : NoDup (map get_name chem_sps) /\ NoDup (map rp_id chem_sps).
Proof.
  split; [|apply (NoDup_map_inv (fun z => z)); rewrite map_id; vm_compute; repeat constructor; cbn; intuition discriminate].
  vm_compute. repeat constructor; cbn; intuition discriminate.
Qed.

(** ** Refutations *)

Fixpoint run_all (b : builder) (l : list bop) : option builder :=
  match l with
  | [] => Some b
  | o :: l' => match bstep E2 so2 b o with (b', Ok _) => run_all b' l' | (_, Err _) => None end
  end.
Lemma run_performed b l b' : run_all b l = Some b' -> performed E2 so2 b l b'.
Proof.
  revert b. induction l as [|o l IH]; intros b H; cbn in *; [congruence|]. destruct (bstep E2 so2 b o) as [b1 [[]|e]]; [|discriminate]. eauto.
Qed.

(** The state '' is lost, and with it the sticking coefficient. *)
Lemma empty_text_lost : exists s s' b rxs', sp_history s /\ performed E2 so2 b_empty [ORp s] b /\
  parse E2 0 (b_species b) (b_reactions b) = Ok ([s'], rxs') /\
  get_state s = Ok (Some "") /\ get_state s' = Ok None /\
  get_stick_coef E2 s = Ok (Some fone) /\ get_stick_coef E2 s' = Ok (Some fzero).
Proof.
  exists sp_empty_state. eexists _, _, _. split; [apply examples_history|].
  split; [apply run_performed; vm_compute; reflexivity|].
  split; [vm_compute; reflexivity|]. repeat split; vm_compute; reflexivity.
Qed.

(** Names with a comma, as those of species with several states. *)
Definition sp_comma := mk 11 12 [("name", VStr "O(1D,v0)"); ("stateless", VStr "O"); ("state", VStr "(1D,v0)"); ("mass", VInt 16)].
Definition rx_comma := mk2 3 [sp_comma; sp_O] [sp_O; sp_O] [("arrh_a", VFlt (Fin 1))] [("arrh_a", Some "m3.s-1")].
Lemma comma_unreadable : exists sps r b, (forall s, In s sps -> sp_history s) /\ rx_history E2 r /\ incl (r_lhs r ++ r_rhs r) sps /\
  performed E2 so2 b_empty (map ORp sps ++ [ORx r]) b /\ parse E2 0 (b_species b) (b_reactions b) = Err EKey.
Proof.
  exists [sp_comma; sp_O], rx_comma. eexists. split.
  - intros s [<-|[<-|[]]]; eapply mk_history; vm_compute; reflexivity.
  - split; [eapply mk2_history; vm_compute; reflexivity|]. split.
    + unfold rx_comma. edestruct mk2_sides as [-> ->]; [vm_compute; reflexivity|].
      generalize sp_comma sp_O. intros a b x Hx. cbn [app In] in *. tauto.
    + split; [apply run_performed; vm_compute; reflexivity|vm_compute; reflexivity].
Qed.

(** ... and a name that is a list of other names gives another reaction. *)
Definition sp_pair := mk 12 13 [("name", VStr "O,O"); ("stateless", VStr "O2"); ("mass", VInt 32)].
Definition rx_pair := mk2 4 [sp_O2] [sp_pair] [("arrh_a", VFlt (Fin 1))] [("arrh_a", Some "s-1")].
Lemma comma_misread : exists sps r b sps' r', (forall s, In s sps -> sp_history s) /\ rx_history E2 r /\ incl (r_lhs r ++ r_rhs r) sps /\
  performed E2 so2 b_empty (map ORp sps ++ [ORx r]) b /\ parse E2 0 (b_species b) (b_reactions b) = Ok (sps', [r']) /\
  List.length (r_rhs r) = 1%nat /\ List.length (r_rhs r') = 2%nat.
Proof.
  exists [sp_O; sp_O2; sp_pair], rx_pair. eexists _, _, _. split.
  - intros s [<-|[<-|[<-|[]]]]; eapply mk_history; vm_compute; reflexivity.
  - split; [eapply mk2_history; vm_compute; reflexivity|]. split.
    + unfold rx_pair. edestruct mk2_sides as [-> ->]; [vm_compute; reflexivity|].
      generalize sp_O sp_O2 sp_pair. intros a b c x Hx. cbn [app In] in *. tauto.
    + split; [apply run_performed; vm_compute; reflexivity|]. split; [vm_compute; reflexivity|]. split; vm_compute; reflexivity.
Qed.

(** Conflicting data under the same name are dropped without a word. *)
Definition sp_heavyO := mk 13 14 [("name", VStr "O"); ("mass", VInt 99)].
Definition rx_heavy := mk2 5 [sp_heavyO; sp_heavyO] [sp_O2] [("arrh_a", VFlt (Fin 1))] [("arrh_a", Some "m3.s-1")].
Lemma conflict_dropped : exists s r b sps' r' p p', performed E2 so2 b_empty [ORp s; ORx r] b /\ rx_history E2 r /\
  parse E2 0 (b_species b) (b_reactions b) = Ok (sps', [r']) /\
  nth_error (r_lhs r) 0 = Some p /\ nth_error (r_lhs r') 0 = Some p' /\ get_name p = get_name p' /\ get_mass E2 p <> get_mass E2 p'.
Proof.
  exists sp_O, rx_heavy. eexists _, _, _, _, _. split.
  - apply run_performed. vm_compute. reflexivity.
  - split; [eapply mk2_history; vm_compute; reflexivity|]. split; [vm_compute; reflexivity|]. split; [vm_compute; reflexivity|].
    split; [vm_compute; reflexivity|]. split; [vm_compute; reflexivity|]. vm_compute. discriminate.
Qed.

(** A file may bring reactions of species that nobody has. *)
Lemma dangling : exists sps rxs b, performed E2 so2 b_empty [OXml sps rxs] b /\ parse E2 0 (b_species b) (b_reactions b) = Err EKey.
Proof.
  exists [], [MkEl "1" [MkItem "reactants" None (BText (Some "O")); MkItem "products" None (BText (Some "O")); MkItem "arrh_a" (Some "s-1") (BText (Some "1"))]].
  eexists. split; [apply run_performed; vm_compute; reflexivity|vm_compute; reflexivity].
Qed.

(** Names that are not strings, or are empty. *)
Lemma odd_names_clash : exists b, performed E2 so2 b_empty [ORpAttrs None [] [("name", VInt 5)] []; ORpAttrs None [] [("name", VStr "5")] []] b /\
  Forall2 named (b_species b) ["5"; "5"].
Proof.
  eexists. split.
  - apply run_performed. vm_compute. reflexivity.
  - repeat constructor.
Qed.
Lemma empty_name_blocks : exists b, performed E2 so2 b_empty [ORpAttrs None [] [("name", VStr "")] []] b /\ snd (assign_species_ids E2 b) = Err EAttribute.
Proof. eexists. split; [apply run_performed; vm_compute; reflexivity|vm_compute; reflexivity]. Qed.

(** 999 ordinary species and M. *)
Fixpoint letters (n : nat) : string := match n with O => "" | S n' => String "x" (letters n') end.
Definition many_names : list string := map letters (seq 1 999) ++ ["M"].
Definition many : builder := MkB (map SStr many_names) (map (fun n => MkEl "999" [MkItem "name" None (BText (Some n))]) many_names) [].

Lemma letters_inj a b : letters a = letters b -> a = b.
Proof. revert b. induction a as [|a IH]; intros [|b] H; try discriminate; [reflexivity|]. injection H as H. f_equal. now apply IH. Qed.

Lemma many_named : Forall2 named (b_species many) many_names /\ NoDup many_names /\ count_ordinary many_names >= 999 /\ In "M" many_names.
Proof.
  split.
  - unfold many. cbn [b_species]. generalize many_names. intros l. induction l as [|n l IH]; cbn; constructor; [reflexivity|exact IH].
  - split; [|split; [vm_compute; discriminate|apply in_or_app; right; now left]].
    unfold many_names. apply XmlBuilder.NoDup_snoc.
    + apply FinFun.Injective_map_NoDup; [exact letters_inj|apply seq_NoDup].
    + intros H. apply in_map_iff in H as (k & Hk & _). destruct k; discriminate.
Qed.

(** Adding two chemistries with different species one after the other. *)
Lemma second_chemistry_fails : exists b b' x, snd (add_chemistry_from_instance E2 so2 (map rp_id chem_sps) chem_rxs b_empty) = Ok tt /\
  fst (add_chemistry_from_instance E2 so2 (map rp_id chem_sps) chem_rxs b_empty) = b /\
  add_chemistry_from_instance E2 so2 (map rp_id [sp_O; sp_O2])
    [mk2 6 [sp_O; sp_O] [sp_O2] [("arrh_a", VFlt (Fin 1))] [("arrh_a", Some "m3.s-1")]] b = (b', Err x) /\
  List.length (b_reactions b) = 2%nat /\ List.length (b_reactions b') = 3%nat.
Proof.
  eexists _, _, _. split; [vm_compute; reflexivity|]. split; [vm_compute; reflexivity|]. split; [vm_compute; reflexivity|]. split; reflexivity.
Qed.

(** ** Non-vacuity *)
Lemma ops_example : (forall o, In o (map ORp chem_sps ++ [OChem (map rp_id chem_sps) chem_rxs; OSort 0; OIds]) -> well_named o) /\
  snd (bstep E2 so2 (bhistory E2 so2 b_empty (map ORp chem_sps)) (ORp sp_O)) = Err EXml /\
  List.length (b_reactions (bhistory E2 so2 b_empty (map ORp chem_sps ++ [OChem (map rp_id chem_sps) chem_rxs; OSort 0; OIds]))) = 2%nat.
Proof.
  assert (W : forall s, In s chem_sps -> nonempty_name s).
  { intros s Hs. destruct (ws_name _ (chem_writable s Hs)) as (n & Hn & (He & _) & _). exists n. auto. }
  split; [|split; vm_compute; reflexivity].
  intros o Ho. apply in_app_or in Ho as [Ho|[<-|[<-|[<-|[]]]]]; cbn [well_named]; try exact I.
  - apply in_map_iff in Ho as (s & <- & Hs). now apply W.
  - intros r s Hr Hs. apply W. now apply (chem_rx r Hr).
Qed.

Lemma sort_example : exists b b', performed E2 so2 b_empty (map ORp (rev chem_sps) ++ map ORx (rev chem_rxs)) b /\
  sort_elements E2 0 b = (b', Ok tt) /\ b_species b' <> b_species b /\
  NoDup (map el_id (b_species b)) /\ NoDup (map el_id (b_reactions b)).
Proof.
  eexists _, _. split; [apply run_performed; vm_compute; reflexivity|]. split; [vm_compute; reflexivity|]. split; [vm_compute; discriminate|].
  split; apply nodupSb_NoDup; vm_compute; reflexivity.
Qed.
