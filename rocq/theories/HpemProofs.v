(** Importing an HPEM file gives the species and reactions it describes. *)
From Verif Require Import Base BaseLemmas Species Reactions MolSpec SpeciesProofs ReactionProofs Classification Xml XmlSpec XmlProofs XmlRead XmlReact XmlRound
  XmlMain Hpem HpemSpec HpemText.

(** ** Names *)
Lemma renamed_eq n n' : renamed n n' -> n' = rename n.
Proof.
  intros [[-> ->]|[N F]]; [reflexivity|]. unfold rename. destruct (String.eqb_spec n "E") as [|_]; [congruence|].
  rewrite <- (str_of_chars n'). f_equal. induction F as [|c c' l l' [H1 H2] F IH]; [reflexivity|]. cbn [map]. f_equal; [|exact IH].
  destruct (Ascii.eqb_spec c "^"); auto.
Qed.
Lemma renamed_rename n : renamed n (rename n).
Proof.
  unfold renamed, rename. destruct (String.eqb_spec n "E") as [->|N]; [left; split; reflexivity|]. right. split; [exact N|]. rewrite chars_str_of.
  induction (chars n) as [|c l IH]; cbn; constructor; [|exact IH]. destruct (Ascii.eqb_spec c "^"); split; congruence.
Qed.
Lemma chars_rename n c : In c (chars (rename n)) -> c = "+"%char \/ c = "e"%char \/ In c (chars n).
Proof.
  unfold rename. intros H. rewrite chars_str_of in H. apply in_map_iff in H. destruct H as (x & <- & H).
  destruct (String.eqb_spec n "E") as [->|N]; [cbn in H; destruct H as [<-|[]]; cbn; auto|]. destruct (Ascii.eqb x "^"); auto.
Qed.
Lemma rename_nonempty n : n <> "" -> rename n <> "".
Proof.
  intros N H. apply (f_equal chars) in H. unfold rename in H. rewrite chars_str_of in H.
  destruct (String.eqb_spec n "E"); [subst; discriminate H|]. destruct n; [congruence|discriminate H].
Qed.
Lemma contains_comma n : contains n "," <-> In ","%char (chars n).
Proof.
  split.
  - intros (a & b & ->). rewrite !chars_app. cbn. rewrite in_app_iff. right. now left.
  - intros H. apply in_split in H. destruct H as (a & b & H). exists (str_of a), (str_of b).
    rewrite <- (str_of_chars n), H. rewrite <- (str_of_chars (_ ++ _)%string), !chars_app, !chars_str_of. reflexivity.
Qed.
Lemma rename_writable n : name_token n -> rename n <> "" /\ str_strip (rename n) = rename n /\ ~ contains (rename n) ",".
Proof.
  intros [(N & F & S) C]. split; [now apply rename_nonempty|]. split.
  - change (rename n) with (str_join " + " [rename n]). apply join_tight. intros m [<-|[]]. split; [now apply rename_nonempty|].
    intros c Hc. apply chars_rename in Hc. destruct Hc as [->|[->|Hc]]; auto.
  - intros H. apply contains_comma in H. apply chars_rename in H. destruct H as [H|[H|H]]; [discriminate|discriminate|].
    now apply C, contains_comma.
Qed.

(** ** Lines *)
Lemma token_word s : token s -> wordl (chars s).
Proof. intros (N & F & S). split; [destruct s; [congruence|discriminate]|]. split; [exact S|exact F]. Qed.
Lemma word_tight w : wordl w -> tight w.
Proof.
  intros (N & S & _). destruct w as [|x l]; [congruence|]. destruct (exists_last (l := x :: l) N) as (m & z & Hm).
  apply (tight_ends x l z); [apply S; now left|apply S; rewrite Hm; apply in_app_iff; right; now left|].
  destruct m as [|y m]; cbn in Hm; injection Hm as -> ->; [now left|right; now exists m].
Qed.
Lemma strip_comment cm f : tight cm -> padded cm f -> str_strip (str_of (rstrip_l is_space f)) = str_of cm.
Proof. intros T P. unfold str_strip. rewrite chars_str_of. f_equal. apply strip_padded; [exact T|]. now apply padded_rstrip. Qed.

Section Lines.
  Variables (E : env).

  Definition hsp_of (d : sp_data) : hsp :=
    MkHsp (rename (d_name d)) (d_charge d) (d_mass d) (d_stick d) (d_flag d) (d_rcoef d) (rename (d_rname d)) (d_comment d).
  Definition hrx_of (d : rx_data) : hrx :=
    MkHrx (map rename (d_lhs d)) (map rename (d_rhs d)) (d_a d) (d_b d) (d_c d) (d_heat d) (d_special d) (d_rcomment d).

  Lemma species_line_ok d line : sp_text E d line -> species_line E (str_strip line) = Ok (hsp_of d).
  Proof.
    intros (tq & tm & ts & tf & tc & f1 & f2 & f3 & f4 & f5 & f6 & f7 & f8 & N & RN & CM & Tq & Pq & Tm & Pm & Ts & Ps & Tf & Pf & Tc & Pc
      & S1 & S2 & S3 & S4 & S5 & S6 & S7 & S8 & ->).
    apply spaced_padded in S1, S2, S3, S4, S5, S6, S7, S8. destruct N as [N _], RN as [RN _]. destruct CM as [CF CS]. apply strip_tight in CS.
    apply token_word in N, RN, Tq, Tm, Ts, Tf, Tc.
    assert (match_species (str_strip (f1 ++ ":" ++ f2 ++ ";" ++ f3 ++ "&" ++ f4 ++ "]" ++ f5 ++ "[" ++ f6 ++ "@" ++ f7 ++ "!" ++ f8)%string)
      = Some [d_name d; tq; tm; ts; tf; tc; d_rname d; str_of (rstrip_l is_space (chars f8))]) as M.
    { unfold match_species, str_strip. rewrite chars_str_of.
      assert (lstrip_l is_space (chars (f1 ++ ":" ++ f2 ++ ";" ++ f3 ++ "&" ++ f4 ++ "]" ++ f5 ++ "[" ++ f6 ++ "@" ++ f7 ++ "!" ++ f8)%string)
        = line_of [(lstrip_l is_space (chars f1), ":"); (chars f2, ";"); (chars f3, "&"); (chars f4, "]"); (chars f5, "["); (chars f6, "@"); (chars f7, "!")]%char (chars f8)) as ->.
      { rewrite !chars_app. cbn [line_of chars app]. now rewrite lstrip_mid by reflexivity. }
      rewrite rstrip_line; [|discriminate|intros c Hc; cbn in Hc |- *; tauto].
      match goal with |- words ?ds (line_of ?l ?c) = _ => change ds with (map snd l) end.
      rewrite (words_ok [chars (d_name d); chars tq; chars tm; chars ts; chars tf; chars tc; chars (d_rname d)]).
      - cbn [map app]. rewrite !str_of_chars. reflexivity.
      - repeat constructor; cbn [fst]; auto; try (apply N || apply RN || apply Tq || apply Tm || apply Ts || apply Tf || apply Tc).
        apply padded_lstrip; [now apply word_tight|exact S1].
      - repeat constructor; cbn; intuition discriminate.
      - intros c Hc; cbn in Hc |- *; tauto.
      - intros c Hc. apply rstrip_incl in Hc. revert c Hc. now apply (free_padded (chars (d_comment d))). }
    unfold species_line. rewrite M. unfold to_int, to_float. rewrite Pq, Pm, Ps, Pf, Pc. cbn [bind].
    rewrite (strip_comment (chars (d_comment d))) by assumption. rewrite str_of_chars. reflexivity.
  Qed.

  Lemma reaction_line_ok d line : rx_text E d line -> reaction_line E (str_strip line) = Ok (hrx_of d).
  Proof.
    intros (ta & tb & tc & th & ts & f1 & f2 & f3 & f4 & f5 & f6 & f7 & f8 & NL & NR & NT & CM & Ta & Pa & Tb & Pb & Tc & Pc & Th & Ph & Ts & Ps
      & S1 & S2 & S3 & S4 & S5 & S6 & S7 & S8 & ->).
    apply spaced_padded in S1, S2, S3, S4, S5, S6, S7, S8. destruct CM as [CF CS]. apply strip_tight in CS.
    apply token_word in Ta, Tb, Tc, Th, Ts.
    assert (NS : forall n, In n (d_lhs d ++ d_rhs d) -> n <> "" /\ no_spaces (chars n)).
    { intros n Hn. destruct (NT n Hn) as [(N & _ & S) _]. split; [exact N|exact S]. }
    assert (TL : tight (chars (str_join " + " (d_lhs d)))).
    { apply strip_tight, join_tight. intros n Hn. apply NS, in_app_iff. now left. }
    assert (TR : tight (chars (str_join " + " (d_rhs d)))).
    { apply strip_tight, join_tight. intros n Hn. apply NS, in_app_iff. now right. }
    assert (FJ : forall l, incl l (d_lhs d ++ d_rhs d) -> freel (chars (str_join " + " l))).
    { induction l as [|n l IH]; intros I; [intros c []|]. assert (freel (chars n)) as Fn by (apply (NT n); apply I; now left).
      destruct l as [|m l]; [exact Fn|]. change (str_join " + " (n :: m :: l)) with (n ++ " + " ++ str_join " + " (m :: l))%string.
      rewrite !chars_app. intros c Hc. rewrite !in_app_iff in Hc. destruct Hc as [Hc|[Hc|Hc]]; [now apply Fn| |].
      - cbn in Hc. intros R. cbn in R. destruct Hc as [<-|[<-|[<-|[]]]]; intuition discriminate.
      - apply IH; [|exact Hc]. intros x Hx. apply I. now right. }
    assert (F2 : freel (chars f2)).
    { apply (free_padded (chars (str_join " + " (d_rhs d)))); [apply FJ; intros x Hx; apply in_app_iff; now right|exact S2]. }
    set (tail := line_of [(chars f3, ";"); (chars f4, "&"); (chars f5, "]"); (chars f6, "["); (chars f7, "!")]%char (rstrip_l is_space (chars f8))).
    assert (match_reaction (str_strip (f1 ++ ">" ++ f2 ++ ":" ++ f3 ++ ";" ++ f4 ++ "&" ++ f5 ++ "]" ++ f6 ++ "[" ++ f7 ++ "!" ++ f8)%string)
      = Some [str_of (lstrip_l is_space (chars f1)); f2; ta; tb; tc; th; ts; str_of (rstrip_l is_space (chars f8))]) as M.
    { unfold match_reaction, str_strip. rewrite chars_str_of.
      assert (rstrip_l is_space (lstrip_l is_space (chars (f1 ++ ">" ++ f2 ++ ":" ++ f3 ++ ";" ++ f4 ++ "&" ++ f5 ++ "]" ++ f6 ++ "[" ++ f7 ++ "!" ++ f8)%string))
        = lstrip_l is_space (chars f1) ++ ">"%char :: chars f2 ++ ":"%char :: tail) as ->.
      { rewrite !chars_app. cbn [chars app]. rewrite lstrip_mid by reflexivity.
        rewrite rstrip_mid by reflexivity. do 2 f_equal. rewrite rstrip_mid by reflexivity. do 2 f_equal. unfold tail. rewrite <- rstrip_line; [reflexivity|discriminate|].
        intros c Hc; cbn in Hc |- *; tauto. }
      assert (FF : forall dl, In dl [">"; ":"]%char -> ~ In dl tail).
      { intros dl Hd. apply line_of_free.
        - repeat (apply Forall_cons; [cbn [fst]; eapply free_padded; [|eassumption]; first [apply Ta|apply Tb|apply Tc|apply Th|apply Ts]|]). apply Forall_nil.
        - intros c Hc. apply rstrip_incl in Hc. revert c Hc. now apply (free_padded (chars (d_rcomment d))).
        - cbn in Hd |- *. intuition.
        - cbn in Hd |- *. destruct Hd as [<-|[<-|[]]]; intuition discriminate. }
      rewrite (anything_ok ">" _ _ _ (chars f2, [ta; tb; tc; th; ts; str_of (rstrip_l is_space (chars f8))])).
      - rewrite str_of_chars. reflexivity.
      - rewrite in_app_iff. intros [H|[H|H]]; [apply (F2 _ H); cbn; tauto|discriminate H|]. revert H. apply FF. now left.
      - apply anything_ok; [apply FF; cbn; tauto|]. unfold tail.
        match goal with |- words ?ds (line_of ?l ?c) = _ => change ds with (map snd l) end.
        rewrite (words_ok [chars ta; chars tb; chars tc; chars th; chars ts]).
        + cbn [map app]. rewrite !str_of_chars. reflexivity.
        + repeat constructor; cbn [fst]; auto; (apply Ta || apply Tb || apply Tc || apply Th || apply Ts).
        + repeat constructor; cbn; intuition discriminate.
        + intros c Hc; cbn in Hc |- *; tauto.
        + intros c Hc. apply rstrip_incl in Hc. revert c Hc. now apply (free_padded (chars (d_rcomment d))). }
    unfold reaction_line. rewrite M. unfold to_int, to_float. rewrite Pa, Pb, Pc, Ph, Ps. cbn [bind].
    rewrite (strip_comment (chars (d_rcomment d))) by assumption. rewrite str_of_chars.
    assert (str_strip (str_of (lstrip_l is_space (chars f1))) = str_join " + " (d_lhs d)) as ->.
    { unfold str_strip. rewrite chars_str_of, (strip_padded _ _ TL); [apply str_of_chars|]. now apply padded_lstrip. }
    assert (str_strip f2 = str_join " + " (d_rhs d)) as ->.
    { unfold str_strip. rewrite (strip_padded _ _ TR); [apply str_of_chars|exact S2]. }
    rewrite !split_names; [reflexivity|exact NR| |exact NL|]; intros n Hn; apply NS, in_app_iff; [now right|now left].
  Qed.

  Lemma species_line_star : species_line E "*" = Err EIndex.
  Proof. reflexivity. Qed.

  Lemma read_ok skip sps rxs lines : dat_file E sps rxs lines -> NoDup (map (fun d => rename (d_name d)) sps) ->
    read_hpem E skip lines = Ok (map (fun d => (rename (d_name d), hsp_of d)) sps, map hrx_of (filter (taken skip) rxs)).
  Proof.
    intros (l1 & star & l2 & -> & SS & F1 & F2) ND. unfold read_hpem.
    assert (str_strip star = "*") as Hs.
    { apply spaced_padded in SS. unfold str_strip. rewrite (strip_padded (chars "*")); [reflexivity| |exact SS]. split; reflexivity. }
    assert (Forall2 (fun l h => species_line E l = Ok h) (map str_strip l1) (map hsp_of sps)) as G1.
    { clear -F1. induction F1 as [|d l sps l1 H F IH]; cbn; constructor; [now apply species_line_ok|exact IH]. }
    assert (cut_at_star (map str_strip (l1 ++ star :: l2)) = Ok (map str_strip l1, map str_strip l2)) as ->.
    { rewrite map_app. cbn [map]. rewrite Hs. clear -G1. revert G1. generalize (map hsp_of sps). induction (map str_strip l1) as [|x l IH]; intros hs G1; cbn [app cut_at_star].
      - reflexivity.
      - inversion G1 as [|? h ? hs' H0 G2]; subst. destruct (String.eqb_spec x "*") as [->|_]; [rewrite species_line_star in H0; discriminate H0|].
        rewrite (IH _ G2). reflexivity. }
    cbn [bind fst snd]. rewrite (mapM_Ok_intro _ _ _ G1). cbn [bind].
    assert (Forall2 (fun l h => reaction_line E l = Ok h) (map str_strip l2) (map hrx_of rxs)) as G2.
    { clear -F2. induction F2 as [|d l rxs l2 H F IH]; cbn; constructor; [now apply reaction_line_ok|exact IH]. }
    rewrite (mapM_Ok_intro _ _ _ G2). cbn [bind]. do 2 f_equal.
    - unfold species_dict. rewrite map_map. cbn [hsp_of h_name]. rewrite supdate_app; [reflexivity|]. cbn [akeys map app]. unfold akeys. rewrite map_map. exact ND.
    - clear. induction rxs as [|d l IH]; [reflexivity|]. cbn [map filter]. rewrite IH.
      assert (kept skip (hrx_of d) = taken skip d) as ->.
      { unfold kept, taken. cbn. destruct skip; cbn; [|reflexivity]. rewrite orb_false_r. apply orb_comm. }
      destruct (taken skip d); reflexivity.
  Qed.
End Lines.
