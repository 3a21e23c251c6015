(** The stoichiometric matrix of any chemistry as it is printed. *)
From Verif Require Import Base BaseLemmas Species Reactions Chemistry ChemSpec ChemInv ChemHist ChemLoad ChemExamples InitialExamples
  PrettyPrint PrettySpec PrettyProofs PrettyExamples.
Open Scope Z_scope.

Lemma Forall2_map_l {A B C} (R : B -> C -> Prop) (f : A -> B) l k : Forall2 R (map f l) k -> Forall2 (fun a c => R (f a) c) l k.
Proof. revert k. induction l as [|a l IH]; intros k H; inversion H; subst; constructor; auto. Qed.
Lemma Forall2_weaken {A B} (R S : A -> B -> Prop) l k : (forall a b, In a l -> R a b -> S a b) -> Forall2 R l k -> Forall2 S l k.
Proof.
  intros H F. induction F as [|a b l k Hab F IH]; constructor; [apply H; [left; reflexivity|exact Hab]|].
  apply IH. intros; apply H; [right; assumption|assumption].
Qed.

Section Shown.
  Variables (E : env) (c : chem).
  Hypothesis RC : reachable E c.

  Lemma species_id_inj s x : In s (c_species c) -> In x (c_species c) -> sp_id x = sp_id s -> x = s.
  Proof using RC.
    intros H1 H2 H. apply (NoDup_map_inj sp_id (c_species c)); auto. apply wf_ids. apply (i_wf c (reachable_Inv E c RC)).
  Qed.
  Lemma reactions_nodup : NoDup (map rx_id (c_reactions c)).
  Proof using RC. apply wf_rids. apply (i_wf c (reachable_Inv E c RC)). Qed.
  Lemma reaction_id_inj s x : In s (c_reactions c) -> In x (c_reactions c) -> rx_id x = rx_id s -> x = s.
  Proof using RC. intros H1 H2 H. apply (NoDup_map_inj rx_id (c_reactions c)); auto using reactions_nodup. Qed.

  Lemma off_species s : In s (c_species c) -> (off c GSpecies (sp_id s) <-> c_en c (sp_id s) = false).
  Proof using. intros H. cbn. split; [tauto|]. intros; split; [apply in_map, H|assumption]. Qed.
  Lemma off_reaction r : In r (c_reactions c) -> (off c GReactions (rx_id r) <-> c_enr c (rx_id r) = false).
  Proof using. intros H. cbn. split; [tauto|]. intros; split; [apply in_map, H|assumption]. Qed.

  Lemma get_species_in d sp p s : In s (get_species c d sp p) -> In s (c_species c).
  Proof using. intros H. apply filter_In in H. apply H. Qed.
  Lemma get_reactions_in d r : In r (get_reactions c d) -> In r (c_reactions c).
  Proof using. intros H. apply filter_In in H. apply H. Qed.

  Lemma stoich_rows d sp m : fr_rows (stoich_frame c d sp m) =
    map (fun r => (rx_id r, map (fun s => stoich_entry m r (sp_id s)) (get_species c d sp true))) (get_reactions c d).
  Proof using. unfold stoich_frame, get_stoichiomatrix. cbn. rewrite map_map. cbn. apply map_ext. intros r. rewrite !map_map. reflexivity. Qed.

  Lemma index_nodup d sp m : NoDup (fr_index (stoich_frame c d sp m)).
  Proof using RC.
    rewrite (proj1 (proj2 (stoich_frame_rect c d sp m))). unfold get_reactions. apply NoDup_map_filter, reactions_nodup.
  Qed.

  Lemma printed_stoichiomatrix disabled special m :
    (forall s, In s (c_species c) -> 0 <= sp_id s) -> (forall r, In r (c_reactions c) -> 0 < rx_id r) ->
    (exists r, In r (get_reactions c disabled) /\ ~ In (rx_id r) (map sp_id (c_species c))) ->
    exists header body,
      pretty_frame c (stoich_frame c disabled special m) true =
        Ok (MkPretty (LBlank :: map (fun r => LId (rx_id r)) (get_reactions c disabled))
                     (LBlank :: map (fun s => LId (sp_id s)) (get_species c disabled special true))
                     ((MkCell (CText "") false :: header) :: body)) /\
      Forall2 (fun s x => cl_val x = CText (sp_name s) /\ (cl_red x = true <-> c_en c (sp_id s) = false))
              (get_species c disabled special true) header /\
      Forall2 (fun r out => exists x xs, out = x :: xs /\
                 cl_val x = CText (String.concat " + " (map sp_name (rx_lhs r)) ++ " > " ++ String.concat " + " (map sp_name (rx_rhs r)))%string /\
                 (cl_red x = true <-> c_enr c (rx_id r) = false) /\
                 Forall2 (fun s y => cl_val y = CVal (stoich_entry m r (sp_id s)) /\
                            (cl_red y = true <-> c_enr c (rx_id r) = false \/ c_en c (sp_id s) = false))
                         (get_species c disabled special true) xs)
              (get_reactions c disabled) body.
  Proof using RC.
    intros PS PR [r0 [I0 N0]]. pose proof (stoich_frame_rect c disabled special m) as [Rt [Ix Cl]].
    destruct (annotated c GReactions GSpecies (stoich_frame c disabled special m)) as [header [body [H [H1 H2]]]].
    - exact Rt.
    - apply index_nodup.
    - unfold ids_of. rewrite Ix. split; [apply get_reactions_incl|]. intros X. apply N0, X, in_map, I0.
    - unfold ids_of. rewrite Cl. apply get_species_incl.
    - intros i [I|I]; apply in_map_iff in I; destruct I as [x [<- I]]; [apply PS, I|apply Z.lt_le_incl, PR, I].
    - rewrite Ix. intros X. apply in_map_iff in X. destruct X as [r [X I]]. apply get_reactions_in in I. specialize (PR r I). lia.
    - intros [X _]. apply in_map_iff in X. destruct X as [r [X I]]. specialize (PR r I). lia.
    - exists header, body. rewrite Ix, Cl, !map_map in H. split; [exact H|]. split.
      + rewrite Cl in H1. apply Forall2_map_l in H1. revert H1. apply Forall2_weaken. intros s x I [t [[y [L1 [L2 ->]]] [-> L4]]].
        apply get_species_in in I. rewrite (species_id_inj s y I L1 L2). split; [reflexivity|]. rewrite L4. apply off_species, I.
      + rewrite stoich_rows in H2. apply Forall2_map_l in H2. revert H2. apply Forall2_weaken.
        intros r out I [x [xs [-> [[t [[y [L1 [L2 ->]]] [Lv L4]]] V]]]]. cbn [fst] in *. apply get_reactions_in in I.
        rewrite (reaction_id_inj r y I L1 L2) in Lv. exists x, xs. split; [reflexivity|]. split; [exact Lv|]. split.
        { rewrite L4. apply off_reaction, I. }
        unfold shows_values in V. rewrite Cl in V. cbn [fst snd] in V.
        assert (In_all : forall s, In s (get_species c disabled special true) -> In s (c_species c)) by (intros; eapply get_species_in; eassumption).
        revert V In_all. generalize (get_species c disabled special true) as sps. clear - I. intros sps. revert xs.
        induction sps as [|s sps IH]; intros xs V A; cbn [map combine] in V; inversion V; subst; constructor.
        * cbn [fst snd] in *. destruct H1 as [Hv Hr]. split; [exact Hv|]. rewrite Hr. rewrite off_reaction, off_species; [tauto| |exact I].
          apply A. left. reflexivity.
        * apply IH; [assumption|]. intros; apply A; right; assumption.
  Qed.

  Lemma rows_named_after_species disabled special m :
    (forall s, In s (c_species c) -> 0 <= sp_id s) -> (forall r, In r (c_reactions c) -> 0 < rx_id r) ->
    (forall s, In s (c_species c) -> sp_id s = 0 -> c_en c 0 = true) ->
    (forall r, In r (get_reactions c disabled) -> In (rx_id r) (map sp_id (c_species c))) ->
    exists p header, pretty_frame c (stoich_frame c disabled special m) true = Ok p /\
      pp_index p = LBlank :: map (fun r => LId (rx_id r)) (get_reactions c disabled) /\
      exists body, pp_rows p = header :: body /\
      Forall2 (fun r out => exists s x xs, In s (c_species c) /\ sp_id s = rx_id r /\ out = x :: xs /\
                 cl_val x = CText (sp_name s) /\ (cl_red x = true <-> c_en c (sp_id s) = false))
              (get_reactions c disabled) body.
  Proof using RC.
    intros PS PR PO All. pose proof (stoich_frame_rect c disabled special m) as [Rt [Ix Cl]].
    destruct (annotated c GSpecies GSpecies (stoich_frame c disabled special m)) as [header [body [H [H1 H2]]]].
    - exact Rt.
    - apply index_nodup.
    - unfold ids_of. rewrite Ix. intros i I. apply in_map_iff in I. destruct I as [r [<- I]]. apply All, I.
    - unfold ids_of. rewrite Cl. apply get_species_incl.
    - intros i [I|I]; apply in_map_iff in I; destruct I as [x [<- I]]; [apply PS, I|apply Z.lt_le_incl, PR, I].
    - rewrite Ix. intros X. apply in_map_iff in X. destruct X as [r [X I]]. apply get_reactions_in in I. specialize (PR r I). lia.
    - intros [X Y]. apply in_map_iff in X. destruct X as [s [X I]]. rewrite (PO s I X) in Y. discriminate.
    - eexists _, _. split; [exact H|]. cbn [pp_index pp_rows]. split; [rewrite Ix, map_map; reflexivity|].
      eexists. split; [reflexivity|]. rewrite stoich_rows in H2. apply Forall2_map_l in H2. revert H2. apply Forall2_weaken.
      intros r out I [x [xs [-> [[t [[y [L1 [L2 ->]]] [Lv L4]]] V]]]]. cbn [fst] in *.
      exists y, x, xs. split; [exact L1|]. split; [exact L2|]. split; [reflexivity|]. split; [exact Lv|].
      rewrite L4, <- L2. apply off_species, L1.
  Qed.
End Shown.

Lemma c_11_apart : exists r, In r (get_reactions (c_off 11) true) /\ ~ In (rx_id r) (map sp_id (c_species (c_off 11))).
Proof.
  assert (S0 : map sp_id (c_species (c_off 11)) = [1; 2; 3; 4; 5]) by (vm_compute; reflexivity).
  assert (G : get_reactions (c_off 11) true = reactions_from 11) by (vm_compute; reflexivity).
  rewrite S0, G. exists (mkr 11 [sE; sO2] [sE; sO2]). split; [left; reflexivity|]. cbn. lia.
Qed.

Lemma c_11_printed : reachable E0 (c_off 11) /\ (exists r, In r (get_reactions (c_off 11) true) /\ ~ In (rx_id r) (map sp_id (c_species (c_off 11)))) /\
  match pretty_frame (c_off 11) (stoich_frame (c_off 11) true true Net) true with
  | Ok p => pp_index p = [LBlank; LId 11; LId 12; LId 13; LId 14] /\
      map (fun r => map cl_red r) (pp_rows p) =
        [[false; false; false; false; true; false];
         [false; false; false; false; true; false];
         [false; false; false; false; true; false];
         [true; true; true; true; true; true];
         [false; false; false; false; true; false]] /\
      map (fun r => match r with x :: _ => cl_val x | [] => CVal 0 end) (pp_rows p) =
        [CText ""; CText "e + O2 > e + O2"; CText "e + O2 > e + e + O2+"; CText "e + O2 > O + O-"; CText "e + O > e + O"]%string
  | Err _ => False
  end.
Proof. split; [exact c_11_reachable|]. split; [exact c_11_apart|]. exact printed_11. Qed.
