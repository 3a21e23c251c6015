(** Nesting in the text of tables of reactions. *)
From Coq Require Import Qabs Qround.
From Verif Require Import Base BaseLemmas Species Reactions Latex LatexName LatexRate TexTable TexSpec TexProofs TexNest.

(** ** The text of species *)
(** Reading braces only. *)
Fixpoint braces (st : list opened) (l : list ascii) : option (list opened) :=
  match l with
  | [] => Some st
  | c :: l' => if Ascii.eqb c "{" then braces (Brace :: st) l'
               else if Ascii.eqb c "}" then match st with Brace :: st' => braces st' l' | _ => None end
               else braces st l'
  end.
Lemma braces_app st a b : braces st (a ++ b) = match braces st a with Some s => braces s b | None => None end.
Proof.
  revert st. induction a as [|c a IH]; intros st; cbn [app braces]; [reflexivity|].
  destruct (Ascii.eqb c "{"); [apply IH|]. destruct (Ascii.eqb c "}"); [|apply IH]. destruct st as [|[] st]; [reflexivity|apply IH|reflexivity|reflexivity].
Qed.
Lemma braces_more st l st2 more : braces st l = Some st2 -> braces (st ++ more) l = Some (st2 ++ more).
Proof.
  revert st. induction l as [|c l IH]; intros st; cbn [braces]; [intros H; now injection H as ->|].
  destruct (Ascii.eqb c "{"); [apply (IH (Brace :: st))|]. destruct (Ascii.eqb c "}"); [|apply IH]. destruct st as [|[] st]; try discriminate. apply IH.
Qed.
Definition closed (l : list ascii) : bool := match braces [] l with Some [] => true | _ => false end.
Lemma closed_braces l st : closed l = true -> braces st l = Some st.
Proof. unfold closed. destruct (braces [] l) as [[|]|] eqn:B; try discriminate. intros _. apply (braces_more [] l [] st) in B. exact B. Qed.

Lemma braces_replace old new : old <> [] -> closed old = true -> closed new = true ->
  forall l st, braces st (replace_l old new 0 l) = braces st l.
Proof.
  intros N O W. apply (replace_ind old (fun l => forall st, braces st (replace_l old new 0 l) = braces st l)); [exact N|reflexivity| |].
  - intros m IH st. rewrite replace_match by exact N. rewrite !braces_app, (closed_braces new st W), (closed_braces old st O). apply IH.
  - intros c l H IH st. rewrite replace_step by exact H. cbn [braces]. destruct (Ascii.eqb c "{"); [apply IH|]. destruct (Ascii.eqb c "}"); [|apply IH]. destruct st as [|[] st]; try reflexivity. apply IH.
Qed.
Definition pair_ok (p : string * string) : bool :=
  closed (chars (fst p)) && closed (chars (snd p)) && negb (String.eqb (fst p) "") && negb (existsb (fun c => Ascii.eqb c "%" || Ascii.eqb c "\") (chars (snd p))).
Lemma all_pairs_ok : forallb pair_ok (sup_pairs ++ sub_pairs ++ ion_pairs) = true.
Proof. vm_compute. reflexivity. Qed.

(** No comments and commands. *)
Definition calm (l : list ascii) : Prop := forall c, In c l -> c <> "%"%char /\ c <> "\"%char.
Lemma replaced ps : (forall p, In p ps -> pair_ok p = true) -> forall l, calm l ->
  calm (replace_all ps l) /\ forall st, braces st (replace_all ps l) = braces st l.
Proof.
  induction ps as [|p ps IH]; intros P l C; [now split|]. rewrite replace_all_cons.
  assert (K := P p (or_introl eq_refl)). unfold pair_ok in K. apply andb_prop in K as [K K4]. apply andb_prop in K as [K K3]. apply andb_prop in K as [K1 K2].
  assert (N : chars (fst p) <> []) by (destruct (fst p); [discriminate|discriminate]).
  destruct (IH (fun q Hq => P q (or_intror Hq)) (replace_l (chars (fst p)) (chars (snd p)) 0 l)) as [A B].
  - intros c Hc. apply replace_chars in Hc as [Hc|Hc]; [now apply C| |exact N].
    apply Bool.negb_true_iff in K4. split; intros ->; assert (existsb (fun c => Ascii.eqb c "%" || Ascii.eqb c "\") (chars (snd p)) = true) by (apply existsb_exists; eexists; split; [exact Hc|reflexivity]); congruence.
  - split; [exact A|]. intros st. rewrite B. now apply braces_replace.
Qed.

(** [l], read with [st] open, leaves [st2] open. *)
Definition bringsl (st : list opened) (l : list ascii) (st2 : list opened) : Prop :=
  forall m st', nested st2 m st' -> nested st (l ++ m) st'.
Lemma const_mathrm st : bringsl st (chars "\mathrm{") (Brace :: st).
Proof. const. Qed.
Lemma const_mathrm' st : bringsl st (chars " \mathrm{") (Brace :: st).
Proof. const. Qed.
Lemma bringsl_app st a st1 b st2 : bringsl st a st1 -> bringsl st1 b st2 -> bringsl st (a ++ b) st2.
Proof. intros A B l st' H. rewrite <- app_assoc. apply A, B, H. Qed.

Lemma alpha_plain c : is_alpha c = true -> ~ In c ["{"; "}"; "%"; "\"]%char.
Proof. intros H I. cbn in I. repeat (destruct I as [<-|I]; [discriminate H|]). contradiction. Qed.

Lemma wrapped_read l : calm l -> forall st st2, braces st l = Some st2 ->
  bringsl (if snd (fold_right wrap_step ([], false) l) then Brace :: st else st) (fst (fold_right wrap_step ([], false) l)) st2.
Proof.
  induction l as [|c l IH]; intros C st st2 B; [injection B as ->; intros m st' H; exact H|].
  cbn [fold_right]. specialize (IH (fun d Hd => C d (or_intror Hd))). destruct (fold_right wrap_step ([], false) l) as [out in_env]. cbn [fst snd] in IH.
  unfold wrap_step. destruct (is_alpha c) eqn:A; cbn [fst snd].
  - pose proof (alpha_plain c A) as P.
    assert (B' : braces st l = Some st2).
    { cbn [braces] in B. destruct (Ascii.eqb_spec c "{"); [exfalso; apply P; subst; cbn; auto|]. destruct (Ascii.eqb_spec c "}"); [exfalso; apply P; subst; cbn; auto|exact B]. }
    specialize (IH _ _ B'). intros m st' H. destruct in_env; cbn [app].
    + apply n_plain; [exact P|]. now apply IH.
    + apply n_plain; [exact P|]. apply n_close. now apply IH.
  - assert (S : exists st1, braces st1 l = Some st2 /\ bringsl st [c] st1).
    { destruct (C c (or_introl eq_refl)) as [C1 C2]. cbn [braces] in B. destruct (Ascii.eqb_spec c "{") as [->|N1].
      - exists (Brace :: st). split; [exact B|]. intros m st' H. now apply n_open.
      - destruct (Ascii.eqb_spec c "}") as [->|N2].
        + destruct st as [|[] st]; try discriminate. exists st. split; [exact B|]. intros m st' H. now apply n_close.
        + exists st. split; [exact B|]. intros m st' H. apply n_plain; [|exact H]. cbn. intuition congruence. }
    destruct S as (st1 & B' & R). specialize (IH _ _ B'). destruct in_env.
    + change (c :: chars " \mathrm{" ++ out) with ([c] ++ chars " \mathrm{" ++ out). eapply bringsl_app; [exact R|]. eapply bringsl_app; [apply const_mathrm'|exact IH].
    + change (c :: out) with ([c] ++ out). eapply bringsl_app; [exact R|exact IH].
Qed.

Lemma wrap_read l : calm l -> forall st st2, braces st l = Some st2 -> bringsl st (wrap_letters l) st2.
Proof.
  intros C st st2 B. pose proof (wrapped_read l C st st2 B) as W. unfold wrap_letters. destruct l as [|c l]; [exact W|].
  cbn [fold_right] in *. destruct (fold_right wrap_step ([], false) l) as [out in_env]. unfold wrap_step in *. destruct (is_alpha c); cbn [fst snd] in *; [|exact W].
  eapply bringsl_app; [apply const_mathrm|exact W].
Qed.

Lemma ground_read l : (forall c, In c l -> ~ In c ["{"; "}"; "%"; "\"]%char) -> forall st, bringsl st (texify_ground_state l) st.
Proof.
  intros P st. assert (C : calm l) by (intros c Hc; specialize (P c Hc); split; intros ->; apply P; cbn; auto).
  assert (B : forall st, braces st l = Some st).
  { clear C. induction l as [|c l IH]; intros s; [reflexivity|]. cbn [braces]. specialize (IH (fun d Hd => P d (or_intror Hd))). specialize (P c (or_introl eq_refl)).
    destruct (Ascii.eqb_spec c "{"); [exfalso; apply P; subst; cbn; auto|]. destruct (Ascii.eqb_spec c "}"); [exfalso; apply P; subst; cbn; auto|apply IH]. }
  pose proof (proj1 (forallb_forall pair_ok _) all_pairs_ok) as AP.
  destruct (replaced sup_pairs (fun p Hp => AP p (in_or_app _ _ _ (or_introl Hp))) l C) as [C1 B1].
  destruct (replaced sub_pairs (fun p Hp => AP p (in_or_app _ _ _ (or_intror (in_or_app _ _ _ (or_introl Hp))))) _ C1) as [C2 B2].
  destruct (replaced ion_pairs (fun p Hp => AP p (in_or_app _ _ _ (or_intror (in_or_app _ _ _ (or_intror Hp))))) _ C2) as [C3 B3].
  apply wrap_read; [exact C3|]. rewrite B3, B2, B1. apply B.
Qed.

Lemma In_firstn {A} (x : A) n l : In x (firstn n l) -> In x l.
Proof. intros H. rewrite <- (firstn_skipn n l). apply in_or_app. now left. Qed.
Lemma In_skipn {A} (x : A) n l : In x (skipn n l) -> In x l.
Proof. intros H. rewrite <- (firstn_skipn n l). apply in_or_app. now right. Qed.

Lemma species_neutral n t : plain n -> texify_species n = Ok t -> neutral t.
Proof.
  intros P H. unfold texify_species in H. pose proof ground_read as G. revert G H. generalize texify_ground_state. intros tgs G H.
  destruct (positions "(" 0 (chars n)) as [|i [|]]; destruct (positions ")" 0 (chars n)) as [|j [|]]; try discriminate.
  - injection H as <-. intros st l st' Hn. rewrite chars_str_of. now apply G.
  - destruct (negb (Nat.ltb i j)); [discriminate|]. destruct (negb _); [discriminate|]. injection H as <-. intros st l st' Hn. rewrite chars_str_of, <- app_assoc.
    apply G; [intros c Hc; apply P; now apply In_firstn in Hc|]. cbn [app]. apply n_plain; [cbn; intuition discriminate|].
    pose proof (plain_neutral (str_of (skipn i (chars n)))) as Q. unfold plain, neutral in Q. rewrite chars_str_of in Q. apply Q; [|exact Hn].
    intros c Hc. apply P. now apply In_skipn in Hc.
Qed.

(** ** The text of numbers *)
Lemma plain_app a b : plain a -> plain b -> plain (a ++ b).
Proof. intros A B c H. rewrite chars_append in H. apply in_app_or in H as [H|H]; [now apply A|now apply B]. Qed.
Lemma plain_list l : (forall c, In c l -> ~ In c ["{"; "}"; "%"; "\"]%char) -> plain (str_of l).
Proof. intros H c Hc. rewrite chars_str_of in Hc. now apply H. Qed.
Lemma lstrip_In p l c : In c (lstrip_l p l) -> In c l.
Proof. induction l as [|d l IH]; cbn; [easy|]. destruct (p d); [intros H; right; now apply IH|easy]. Qed.
Lemma strip_plain s : plain s -> plain (rstrip_dot0 s).
Proof.
  intros P. apply plain_list. intros c Hc. unfold rstrip_l in Hc. apply in_rev, lstrip_In in Hc. apply P. now apply in_rev.
Qed.
Lemma digits_of_plain z c : 0 <= z -> In c (digits z) -> ~ In c ["{"; "}"; "%"; "\"]%char.
Proof. intros Hz. apply digits_plain; [exact Hz|intros d []]. Qed.
Lemma mod10_plain z : ~ In (digit_char (z mod 10)) ["{"; "}"; "%"; "\"]%char.
Proof. apply digit_plain, Z.mod_pos_bound. lia. Qed.
Lemma tens_plain z : ~ In (digit_char (z mod 100 / 10)) ["{"; "}"; "%"; "\"]%char.
Proof. apply digit_plain. pose proof (Z.mod_pos_bound z 100). split; [apply Z.div_pos; lia|apply Z.div_lt_upper_bound; lia]. Qed.
Lemma point_plain : ~ In "."%char ["{"; "}"; "%"; "\"]%char. Proof. cbn. intuition discriminate. Qed.
Lemma sign_plain (b : bool) c : In c (if b then ["-"%char] else []) -> ~ In c ["{"; "}"; "%"; "\"]%char.
Proof. destruct b; [|easy]. intros [<-|[]]. cbn. intuition discriminate. Qed.

Lemma round_even_nonneg q : (0 <= q)%Q -> 0 <= round_even q.
Proof.
  intros H. unfold round_even. assert (0 <= Qfloor q) by (change 0 with (Qfloor 0); now apply Qfloor_resp_le).
  repeat match goal with |- context [if ?b then _ else _] => destruct b end; lia.
Qed.
Lemma hundredths_plain neg n : 0 <= n -> plain (show_hundredths neg n).
Proof.
  intros H. unfold show_hundredths. apply plain_list. intros c Hc. apply in_app_or in Hc as [Hc|Hc]; [now apply sign_plain in Hc|].
  apply in_app_or in Hc as [Hc|Hc]; [apply digits_of_plain in Hc; [exact Hc|apply Z.div_pos; lia]|].
  destruct Hc as [<-|[<-|Hc]]; [apply point_plain|apply tens_plain|]. destruct (_ =? 0); [contradiction|]. destruct Hc as [<-|[]]. apply mod10_plain.
Qed.
Lemma rounded_plain E x : (forall f, plain (fshow E f)) -> plain (show_rounded E x).
Proof.
  intros P. unfold show_rounded. destruct x as [q| | |]; try apply P. destruct (_ <? _); [|apply P]. apply hundredths_plain, round_even_nonneg.
  apply Qmult_le_0_compat; [apply Qabs_nonneg|discriminate].
Qed.
Lemma format_plain x m e : format_2E x = Ok (m, e) -> plain m.
Proof.
  unfold format_2E. destruct x as [q| | |]; try discriminate.
  assert (T : forall m, 0 <= m -> plain (str_of ((if Qle_bool 0 q then [] else ["-"%char]) ++ digits (m / 100) ++ ["."%char; digit_char (m mod 100 / 10); digit_char (m mod 10)]))).
  { intros z Hz. apply plain_list. intros c Hc. apply in_app_or in Hc as [Hc|Hc]; [destruct (Qle_bool 0 q); [contradiction|]; now apply (sign_plain true) in Hc|].
    apply in_app_or in Hc as [Hc|Hc]; [apply digits_of_plain in Hc; [exact Hc|apply Z.div_pos; lia]|].
    destruct Hc as [<-|[<-|[<-|[]]]]; [apply point_plain|apply tens_plain|apply mod10_plain]. }
  destruct (Qeq_bool q 0) eqn:Q0; [intros H; apply Ok_same in H; apply (f_equal fst) in H; cbn [fst] in H; rewrite <- H; apply (T 0); lia|].
  assert (P : (0 < Qabs q)%Q).
  { destruct (Qlt_le_dec 0 (Qabs q)) as [N|N]; [exact N|]. exfalso. pose proof (Qabs_nonneg q) as N'. pose proof (Qle_antisym _ _ N N') as N''.
    assert (q == 0)%Q as Z0; [|apply Qeq_bool_iff in Z0; congruence]. revert N''. apply (Qabs_case q (fun x => x == 0 -> q == 0)%Q); [tauto|]. intros _ K. rewrite <- (Qopp_involutive q), K. reflexivity. }
  pose proof (scientific_spec (Qabs q) P) as S.
  destruct (scientific (Qabs q)) as [s e']. destruct S as [_ [S _]]. intros H. apply Ok_same in H. apply (f_equal fst) in H. cbn [fst] in H. rewrite <- H. clear H.
  destruct (_ =? 1000); cbn [fst]; [apply (T 100); lia|]. apply T, round_even_nonneg. apply Qmult_le_0_compat; [|discriminate].
  apply Qle_trans with 1%Q; [discriminate|exact S].
Qed.

(** ** Reactions *)
Lemma rp_neutral p t : tame_species p -> rp_get_latex p = Ok t -> neutral t.
Proof.
  intros [A B] H. unfold rp_get_latex in H. destruct (rattr p "latex") as [[]| |] eqn:L; try discriminate.
  - destruct (get_name p) as [n|] eqn:N; [|discriminate]. cbn [bind] in H. apply (species_neutral n); [now apply B|exact H].
  - injection H as <-. now apply A.
Qed.
Lemma rp_of r i p : reaction_get_rp r (KId i) = Ok p -> In p (r_lhs r ++ r_rhs r).
Proof.
  unfold reaction_get_rp. destruct (names_of _); [|discriminate]. cbn [bind]. destruct (find _ _) as [q|] eqn:F; [|discriminate]. intros H. injection H as <-. now apply find_some in F.
Qed.
Lemma side_neutral r st : (forall p, In p (r_lhs r ++ r_rhs r) -> tame_species p) -> forall d d',
  (forall k v, In (k, v) d -> neutral k /\ neutral v) -> side_latex r st d = Ok d' -> forall k v, In (k, v) d' -> neutral k /\ neutral v.
Proof.
  intros T. induction st as [|[i n] st IH]; intros d d' D H; cbn [side_latex] in H; [injection H as <-; exact D|].
  destruct (reaction_get_rp r (KId i)) as [p|] eqn:P; [|discriminate]. cbn [bind] in H. destruct (rp_get_latex p) as [t|] eqn:L; [|discriminate]. cbn [bind] in H.
  assert (N : neutral t) by (apply (rp_neutral p); [now apply T, (rp_of r i)|exact L]).
  eapply IH; [|exact H]. intros k v Hk. destruct (n =? 1).
  - apply In_sset in Hk as [Q|Q]; [injection Q as -> ->; split; [exact N|apply neutral_nil]|now apply D].
  - destruct (1 <? n); [|now apply D]. apply In_sset in Hk as [Q|Q]; [|now apply D]. injection Q as -> ->. split; [exact N|].
    apply neutral_app; [apply digits_neutral|]. intros s. const.
Qed.
Lemma c_plus : neutral " + ". Proof. intros st. const. Qed.
Lemma c_arrow : neutral " \rightarrow ". Proof. intros st. const. Qed.
Lemma c_dollar : neutral "$". Proof. intros st. const. Qed.

Lemma rx_neutral r t : tame_reaction r -> rx_get_latex r = Ok t -> neutral t.
Proof.
  intros (A & B & _) H. unfold rx_get_latex in H. destruct (xattr r "latex") as [[]| |] eqn:L; try discriminate.
  - specialize (B eq_refl). destruct (side_latex r (get_stoich_coefs Lhs r) []) as [dl|] eqn:DL; [|discriminate]. cbn [bind] in H.
    destruct (side_latex r (get_stoich_coefs Rhs r) []) as [dr|] eqn:DR; [|discriminate]. cbn [bind] in H. apply Ok_same in H. rewrite <- H.
    assert (G : forall st d, side_latex r st [] = Ok d -> neutral (str_join " + " (map (fun kv => (snd kv ++ fst kv)%string) d))).
    { intros st d Hd. apply join_neutral; [apply c_plus|]. intros x Hx. apply in_map_iff in Hx as ([k v] & <- & Hx). cbn [fst snd].
      destruct (side_neutral r st B [] d) with (k := k) (v := v) as [Nk Nv]; [intros ? ? []|exact Hd|exact Hx|]. now apply neutral_app. }
    apply neutral_app; [eapply G, DL|]. apply neutral_app; [apply c_arrow|eapply G, DR].
  - injection H as <-. now apply A.
Qed.

Lemma rate_neutral E si dfrac r t : (forall f, plain (fshow E f)) -> texify_rate_coefficient E si dfrac r = Ok t -> neutral t.
Proof.
  intros P H. unfold texify_rate_coefficient in H.
  destruct (get_arrh_a E si r) as [[a|]|]; try discriminate. cbn [bind] in H.
  destruct (format_2E a) as [[m e]|] eqn:F; [|discriminate]. cbn [bind fst snd] in H.
  destruct (get_arrh_bc E "arrh_b" r) as [b|]; [|discriminate]. cbn [bind] in H.
  match type of H with bind ?x _ = _ => destruct x as [tb|] eqn:TB; [|discriminate] end. cbn [bind] in H.
  destruct (get_arrh_bc E "arrh_c" r) as [c|]; [|discriminate]. cbn [bind] in H.
  match type of H with bind ?x _ = _ => destruct x as [tc|] eqn:TC; [|discriminate] end. cbn [bind] in H.
  apply Ok_same in H. rewrite <- H. clear H.
  assert (NM : neutral (rstrip_dot0 m)) by (apply plain_neutral, strip_plain, (format_plain a m e F)).
  assert (NR : forall x, neutral (rstrip_dot0 (show_rounded E x))) by (intros x; apply plain_neutral, strip_plain, rounded_plain, P).
  apply neutral_app; [|apply neutral_app].
  - destruct (e =? 0); [exact NM|]. apply neutral_app; [exact NM|]. apply neutral_of. intros st. apply (wrapped _ _ _ st (Brace :: st)); [apply digits_neutral|const|const].
  - destruct b as [b|]; [|discriminate]. destruct (feqb b fzero); [apply Ok_same in TB; rewrite <- TB; apply neutral_nil|].
    destruct (is_electron_process r) as [el|]; [|discriminate]. cbn [bind] in TB. apply Ok_same in TB. rewrite <- TB.
    apply neutral_of. intros st. destruct el; [|destruct dfrac]; (apply (wrapped _ _ _ st (Brace :: st)); [apply NR|const|const]).
  - destruct c as [c|]; [|discriminate]. destruct (feqb c fzero); [apply Ok_same in TC; rewrite <- TC; apply neutral_nil|].
    destruct (is_electron_process r) as [el|]; [|discriminate]. cbn [bind] in TC. apply Ok_same in TC. rewrite <- TC.
    assert (NS : neutral (if fltb fzero c then "-" else "")) by (destruct (fltb fzero c); [intros st; const|apply neutral_nil]).
    assert (NT : neutral (if el then "T_\mathrm{e}" else "\mathrm{T_g}")) by (destruct el; intros st; const).
    assert (C1 : neutral " \exp \left( ") by (intros st; const). assert (C2 : neutral " \right)") by (intros st; const).
    assert (C3 : neutral "/") by (intros st; const).
    destruct dfrac.
    + apply neutral_app; [exact C1|]. apply neutral_app; [exact NS|]. apply neutral_of. intros st. eapply brings_app with (st1 := Brace :: st); [const|].
      eapply brings_app; [apply neutral_at, NR|]. eapply brings_app with (st1 := Brace :: st); [const|]. eapply brings_app; [apply neutral_at, NT|]. const.
    + repeat (apply neutral_app; [assumption || apply NR|]). exact C2.
Qed.

Lemma cell_neutral E c r t : (forall f, plain (fshow E f)) -> tame_reaction r -> cell E c r = Ok t -> neutral t.
Proof.
  intros P T H. destruct c; cbn [cell] in H.
  - injection H as <-. apply digits_neutral.
  - destruct (rx_get_latex r) as [x|] eqn:L; [|discriminate]. cbn [bind] in H. apply Ok_same in H. rewrite <- H.
    apply neutral_app; [apply c_dollar|]. apply neutral_app; [now apply (rx_neutral r)|apply c_dollar].
  - destruct (texify_rate_coefficient E true false r) as [x|] eqn:L; [|discriminate]. cbn [bind] in H. apply Ok_same in H. rewrite <- H.
    apply neutral_app; [apply c_dollar|]. apply neutral_app; [now apply (rate_neutral E true false r)|apply c_dollar].
  - destruct (get_rx_float E "el_en_loss" r) as [x|]; [|discriminate]. cbn [bind] in H. apply Ok_same in H. rewrite <- H.
    destruct (feqb x fzero); [apply neutral_nil|]. apply plain_neutral, strip_plain, rounded_plain, P.
  - apply Ok_same in H. rewrite <- H. destruct T as (_ & _ & D). destruct (xattr r "doi") as [[]| |] eqn:X; try (apply D; reflexivity); apply plain_neutral; intros c Hc; cbn in Hc;
      repeat (destruct Hc as [<-|Hc]; [cbn; intuition discriminate|]); contradiction.
Qed.

Lemma reactions_nested E cols rs t tab ops s :
  (forall f, plain (fshow E f)) -> (forall r, In r rs -> tame_reaction r) -> (forall o, In o ops -> neutral_op o) -> neutral tab ->
  new_reactions_table E cols rs = Ok t -> tex_str tab (texrun ops t) = Ok s -> nested [] (chars s) [].
Proof.
  intros P T N Nt H S. unfold new_reactions_table in H. destruct (reactions_table E cols rs) as [rows|] eqn:R; [|discriminate]. cbn [bind] in H. apply Ok_same in H.
  rewrite <- H in S. clear H.
  change (tex_str tab (texrun (TLoad (MkFrame (map column_name cols) (combine (map r_id rs) rows)) :: ops) (new_table "longtable" "1.5" "tiny")) = Ok s) in S.
  eapply text_nested; [|exact Nt| | |exact S].
  - intros o [<-|Ho]; [|now apply N]. cbn [neutral_op f_cols f_rows]. split.
    + intros c Hc. apply in_map_iff in Hc as (k & <- & _). destruct k; cbn [column_name]; intros st; const.
    + intros r x Hr Hx. destruct r as [i row]. apply in_combine_r in Hr. cbn [snd] in Hx. unfold reactions_table in R.
      destruct (mapM _ cols) as [bc|] eqn:M; [|discriminate]. cbn [bind] in R. apply Ok_same in R. rewrite <- R in Hr.
      apply in_map_iff in Hr as (k & <- & Hk). apply in_map_iff in Hx as (col & <- & Hc). apply mapM_Ok_inv in M.
      assert (exists c, mapM (cell E c) rs = Ok col) as (c & Mc).
      { clear -M Hc. induction M as [|c y cs ys Hy F IH]; [contradiction|]. destruct Hc as [->|Hc]; [now exists c|now apply IH]. }
      destruct (nth_in_or_default k col ""%string) as [I|D]; [|rewrite D; apply neutral_nil].
      apply mapM_Ok_inv in Mc. revert I. generalize (nth k col ""%string). intros z I.
      assert (exists r, In r rs /\ cell E c r = Ok z) as (r & Hr & Cr).
      { clear -Mc I. induction Mc as [|r y rs ys Hy F IH]; [contradiction|]. destruct I as [->|I]; [exists r; split; [now left|exact Hy]|].
        destruct (IH I) as (r' & A & B). exists r'. split; [now right|exact B]. }
      apply (cell_neutral E c r); [exact P|now apply T|exact Cr].
  - intros st. const.
  - intros st. const.
Qed.
