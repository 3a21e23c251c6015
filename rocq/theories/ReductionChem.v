(** Restoring a chemistry from the attributes it was dumped with. *)
From Verif Require Import Base BaseLemmas Species Reactions Chemistry ChemSpec ChemDisable ChemInv ChemHist ChemLoad ChemMain ChemGetters ChemMore
  MorrisStats Tables InitialGuess GlobalModel Reduction ReductionSpec.

Lemma same_values_refl E l : same_values E l l.
Proof. reflexivity. Qed.
Lemma same_chem_refl E c : same_chem E c c.
Proof. unfold same_chem. repeat split; auto. Qed.
Lemma same_chem_sym E c d : same_chem E c d -> same_chem E d c.
Proof.
  intros (A & B & C & D & M & N & S & R & T). unfold same_chem, same_values in *. rewrite <- B, <- C.
  repeat (split; [congruence|]). split; [intros s I; destruct (M s I) as (? & ? & ?); auto|].
  split; [intros r I; now rewrite N|]. auto.
Qed.
Lemma same_chem_trans E c d e : same_chem E c d -> same_chem E d e -> same_chem E c e.
Proof.
  intros (A & B & C & D & M & N & S & R & T) (A' & B' & C' & D' & M' & N' & S' & R' & T').
  unfold same_chem, same_values in *. rewrite <- B in M'. rewrite <- C in N'.
  repeat (split; [congruence|]).
  split; [intros s I; destruct (M s I) as (? & ? & ?), (M' s I) as (? & ? & ?); repeat split; congruence|].
  split; [intros r I; rewrite N, N'; auto|]. split; [congruence|]. split; congruence.
Qed.

Lemma floats_same_values E l l' : floats E l l' -> same_values E l l'.
Proof.
  intros (st & M & ->). unfold same_values. apply mapM_Ok_inv in M. induction M as [|x y l st X M IH]; [reflexivity|].
  cbn [map]. rewrite IH. f_equal. unfold to_float in X. destruct (py_float E (snd x)) as [f|] eqn:P; [|discriminate].
  cbn [bind] in X. injection X as <-. reflexivity.
Qed.

Lemma steps_each {A} (f : chem -> A -> chem * res unit) (P : chem -> Prop) l :
  (forall c a, P c -> P (fst (f c a))) -> forall c c', P c -> steps f c l = (c', Ok tt) ->
  forall a, In a l -> exists c1 c2, P c1 /\ f c1 a = (c2, Ok tt).
Proof.
  intros H. induction l as [|b l IH]; intros c c' Pc S a I; [contradiction|]. cbn [steps] in S.
  pose proof (H c b Pc) as Pb. destruct (f c b) as [c1 [[]|e]] eqn:F; [|discriminate]. cbn [fst] in Pb.
  destruct I as [<-|I]; [now exists c, c1|now apply (IH c1 c')].
Qed.

(** A successful load restores the dumped state. *)
Lemma load_restores E fh c d f c' : Inv c -> Inv d -> declared_exist c -> same_input c d -> c_xml c = c_xml d ->
  chemistry_attributes E fh d = Ok f -> load E fh c f true = (c', Ok tt) -> same_chem E d c'.
Proof.
  intros Ic Id DE SI HX HF L.
  pose proof (dump_masks E fh d f HF) as (_ & _ & _ & _ & _ & _ & Hp & _ & st & rxs & _ & _ & Hsp & _).
  assert (X : c_xml d <> Some ""%string).
  { intros X. unfold load in L. rewrite Hp, HX, X in L. discriminate L. }
  assert (HR : forall i dd n, In (i, dd) (c_ret d) -> In n (map fst dd) ->
     exists s, In s (c_species d) /\ c_en d (sp_id s) = true /\ sp_name s = n).
  { unfold load in L. match type of L with match ?x with _ => _ end = _ => destruct x as [u|e]; [|discriminate] end.
    destruct (load_masks_ok E fh c d f SI HF) as (c1 & LM & SD & MA). rewrite LM in L.
    destruct SI as (SI1 & SI2 & SI3), SD as (SD1 & SD2 & SD3 & _).
    set (P := fun x : chem => c_species x = c_species c1 /\ c_en x = c_en c1).
    match type of L with context [steps ?fn ?x (a_sp _)] => destruct (steps fn x (a_sp f)) as [c3 [[]|e]] eqn:ST; [|discriminate];
      set (c2 := x) in ST end.
    clear L. intros i dd n I J.
    destruct (steps_each (load_sp E) P (a_sp f)) with (c := c2) (c' := c3)
      (a := ("ret_coefs"%string, i, VDict (map (fun nf => (fst nf, SFlt (snd nf))) dd))) as (c4 & c5 & (P1 & P2) & F).
    - intros x t (X1 & X2). unfold load_sp, P.
      destruct (set_adhoc_species_cases E x (fst (fst t)) (RId (snd (fst t))) (snd t))
        as [(e & ->)|[(s' & y & _ & _ & _ & ->)|(s' & y & y' & _ & _ & _ & _ & _ & ->)]]; cbn; auto.
    - split; reflexivity.
    - exact ST.
    - rewrite Hsp. apply in_or_app. right. apply in_map_iff. exists (i, dd). auto.
    - unfold load_sp in F. cbn [fst snd] in F. unfold set_adhoc_species in F.
      destruct (get_rp c4 (RId i)) as [s|]; [|discriminate]. cbn [memS existsb String.eqb Ascii.eqb Bool.eqb orb negb] in F.
      change (type_in (VDict (map (fun nf : string * flt => (fst nf, SFlt (snd nf))) dd)) (rp_attr_types "ret_coefs")) with true in F.
      cbn [negb] in F.
      destruct (subsetS (akeys (map (fun nf : string * flt => (fst nf, SFlt (snd nf))) dd)) (name_pool c4)) eqn:SS; [|discriminate].
      pose proof (proj1 (subsetS_incl _ _) SS) as IN.
      specialize (IN n). assert (IK : In n (akeys (map (fun nf : string * flt => (fst nf, SFlt (snd nf))) dd))).
      { unfold akeys. rewrite map_map. exact J. }
      apply IN, In_name_pool in IK. destruct IK as (s' & S1 & S2 & S3). exists s'. rewrite P1, SD2, <- SI2 in S1.
      split; [exact S1|]. split; [|exact S3]. rewrite P2 in S2. rewrite <- S2. symmetry. apply MA. unfold sp_ids. rewrite SD2, <- SI2. now apply in_map. }
  destruct (load_round_trip E fh c d f true Ic Id SI HF (fun _ => conj HX X) DE HR) as (c1 & L' & (S1 & S2 & S3) & SX & (M1 & M2) & F1 & F2 & F3).
  rewrite L in L'. injection L' as <-. destruct SI as (SI1 & SI2 & SI3).
  unfold same_chem. split; [congruence|]. split; [congruence|]. split; [congruence|]. split; [congruence|].
  split. { intros s I. assert (J : In (sp_id s) (sp_ids c')) by (unfold sp_ids; rewrite S2, <- SI2; now apply in_map).
    destruct (M1 _ J) as (? & ? & ?). auto. }
  split. { intros r I. symmetry. apply M2. unfold r_ids. rewrite S3, <- SI3. now apply in_map. }
  split; [now apply floats_same_values|]. split; [auto|now apply floats_same_values].
Qed.

Lemma same_chem_names E c d : same_chem E c d -> names_of c = names_of d.
Proof.
  intros (_ & S & _ & _ & M & _). unfold names_of, get_species. rewrite <- S. f_equal.
  apply filter_ext_in. intros s I. destruct (M s I) as (M1 & M2 & M3). unfold sp_mask. now rewrite M1, M2, M3.
Qed.

Lemma present_names c x : In x (names_of c) <-> present c x.
Proof.
  unfold names_of, present. rewrite in_map_iff. split.
  - intros (s & <- & I). unfold get_species in I. apply filter_In in I. destruct I as [I M].
    unfold sp_mask in M. cbn [orb] in M. rewrite andb_true_r in M. apply andb_true_iff in M. destruct M as [M1 M2].
    exists s. split; [exact I|]. split; [reflexivity|]. split; [exact M1|]. unfold sp_special in M2. apply negb_true_iff in M2.
    now apply memS_false in M2.
  - intros (s & I & <- & M & N). exists s. split; [reflexivity|]. unfold get_species. apply filter_In. split; [exact I|].
    unfold sp_mask. cbn [orb]. rewrite M, andb_true_r. cbn [andb]. apply negb_true_iff. now apply memS_false.
Qed.
