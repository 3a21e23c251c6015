(** Nesting in the text of LaTeX tables. *)
From Verif Require Import Base BaseLemmas Reactions Latex TexTable TexSpec TexProofs.

Lemma chars_append a b : chars (a ++ b) = chars a ++ chars b.
Proof. induction a as [|c a IH]; cbn; [reflexivity|]. now rewrite IH. Qed.

Lemma Ok_same {A} (x y : A) : Ok x = Ok y -> x = y.
Proof. intros H. now injection H. Qed.

(** [s], read with [st] open, leaves [st2] open. *)
Definition brings (st : list opened) (s : string) (st2 : list opened) : Prop :=
  forall l st', nested st2 l st' -> nested st (chars s ++ l) st'.

Lemma brings_app st a st1 b st2 : brings st a st1 -> brings st1 b st2 -> brings st (a ++ b) st2.
Proof. intros A B l st' H. rewrite chars_append, <- app_assoc. apply A, B, H. Qed.
Lemma brings_nil st : brings st "" st.
Proof. intros l st' H. exact H. Qed.
Lemma neutral_at s st : neutral s -> brings st s st.
Proof. intros H l st' Hn. now apply H. Qed.
Lemma neutral_of s : (forall st, brings st s st) -> neutral s.
Proof. intros H st l st' Hn. now apply H. Qed.
Lemma neutral_app a b : neutral a -> neutral b -> neutral (a ++ b).
Proof. intros A B st l st' H. rewrite chars_append, <- app_assoc. apply A, B, H. Qed.
Lemma neutral_nil : neutral "". Proof. intros st l st' H. exact H. Qed.

Lemma plain_neutral s : plain s -> neutral s.
Proof.
  induction s as [|c s IH]; intros P; [apply neutral_nil|]. intros st l st' H. cbn [chars app]. apply n_plain; [apply P; now left|].
  apply IH; [|exact H]. intros d Hd. apply P. now right.
Qed.
Lemma brace_neutral s : neutral s -> neutral ("{" ++ s ++ "}").
Proof.
  intros N st l st' H. rewrite !chars_append, <- !app_assoc. cbn [chars app]. apply n_open. apply N. now apply n_close.
Qed.

Lemma fin_named name st l r n r' st' : after_prefix (chars "\end{") l = Some r -> env_name r = Some (n, r') -> str_of n = name ->
  nested st r' st' -> nested (Env name :: st) l st'.
Proof. intros A N <- H. exact (n_fin st l r n r' st' A N H). Qed.

Ltac step1 :=
  first [ apply n_open | apply n_close
        | apply n_command; [intros p Hp; cbn in Hp; repeat (destruct Hp as [<-|Hp]; [reflexivity|]); contradiction|]
        | eapply n_begingroup; [reflexivity|] | eapply n_endgroup; [reflexivity|]
        | eapply n_begin; [reflexivity|reflexivity|cbn [str_of]]
        | eapply fin_named; [reflexivity|reflexivity|reflexivity|]
        | apply n_plain; [cbn; intuition discriminate|] ].
Ltac const := let H := fresh in intros ? ? H; cbn [chars app]; repeat first [exact H | step1].

Lemma c_textbf st : brings st "\textbf{" (Brace :: st). Proof. const. Qed.
Lemma c_multicol st : brings st "\multicolumn{1}{l}{\textbf{" (Brace :: Brace :: st). Proof. const. Qed.
Lemma c_mathrm st : brings st "$^\mathrm{" (Brace :: st). Proof. const. Qed.
Lemma c_close st : brings (Brace :: st) "}" st. Proof. const. Qed.
Lemma c_close2 st : brings (Brace :: Brace :: st) "}}" st. Proof. const. Qed.
Lemma c_closemath st : brings (Brace :: st) "}$ " st. Proof. const. Qed.
Lemma c_eol : neutral " \\". Proof. intros st. const. Qed.
Lemma c_and : neutral " & ". Proof. intros st. const. Qed.

Lemma join_neutral sep l : neutral sep -> (forall x, In x l -> neutral x) -> neutral (str_join sep l).
Proof.
  intros S. induction l as [|x l IH]; intros H; [apply neutral_nil|]. destruct l as [|y l]; [apply H; now left|].
  change (str_join sep (x :: y :: l)) with (x ++ sep ++ str_join sep (y :: l))%string.
  apply neutral_app; [apply H; now left|]. apply neutral_app; [exact S|]. apply IH. intros z Hz. apply H. now right.
Qed.
Lemma times_neutral n s : neutral s -> neutral (times n s).
Proof. intros H. induction n; cbn [times]; [apply neutral_nil|now apply neutral_app]. Qed.

Lemma digit_plain z : 0 <= z < 10 -> ~ In (digit_char z) ["{"; "}"; "%"; "\"]%char.
Proof.
  intros H. assert (z = 0 \/ z = 1 \/ z = 2 \/ z = 3 \/ z = 4 \/ z = 5 \/ z = 6 \/ z = 7 \/ z = 8 \/ z = 9) as Q by lia.
  repeat (destruct Q as [->|Q]; [cbn; intuition discriminate|]). rewrite Q. cbn. intuition discriminate.
Qed.
Lemma digits_plain fuel : forall z acc, 0 <= z -> (forall c, In c acc -> ~ In c ["{"; "}"; "%"; "\"]%char) ->
  forall c, In c (digits_from fuel z acc) -> ~ In c ["{"; "}"; "%"; "\"]%char.
Proof.
  induction fuel as [|f IH]; intros z acc Hz HA c Hc; [now apply HA|]. cbn [digits_from] in Hc. destruct (Z.ltb_spec z 10).
  - destruct Hc as [<-|Hc]; [apply digit_plain; lia|now apply HA].
  - revert c Hc. apply IH; [apply Z.div_pos; lia|]. intros c [<-|Hc]; [apply digit_plain, Z.mod_pos_bound; lia|now apply HA].
Qed.
Lemma digits_neutral z : neutral (show_int z).
Proof.
  apply plain_neutral. intros c Hc. unfold show_int in Hc. rewrite chars_str_of in Hc. apply in_app_or in Hc as [Hc|Hc].
  - destruct (z <? 0); [|contradiction]. destruct Hc as [<-|[]]. cbn. intuition discriminate.
  - revert c Hc. apply digits_plain; [apply Z.abs_nonneg|intros c []].
Qed.

(** ** Lines *)
Definition brings_nl (st : list opened) (line : string) (st1 : list opened) : Prop :=
  forall l st', nested st1 l st' -> nested st (chars line ++ ascii_of_nat 10 :: l) st'.
Lemma brings_line st s st1 : brings st s st1 -> brings_nl st s st1.
Proof. intros B l st' H. apply B. apply n_plain; [cbn; intuition discriminate|exact H]. Qed.
Lemma neutral_line st s : neutral s -> brings_nl st s st.
Proof. intros N. apply brings_line. intros l st' H. now apply N. Qed.

Inductive chain : list opened -> list string -> list opened -> Prop :=
| chain_nil st : chain st [] st
| chain_cons st a st1 ls st2 : brings_nl st a st1 -> chain st1 ls st2 -> chain st (a :: ls) st2.
Lemma chain_app st a st1 b st2 : chain st a st1 -> chain st1 b st2 -> chain st (a ++ b) st2.
Proof. induction 1 as [|st x st' ls st1 B C IH]; intros H; [exact H|]. cbn [app]. eapply chain_cons; [exact B|now apply IH]. Qed.
Lemma chain_neutral st ls : (forall x, In x ls -> neutral x) -> chain st ls st.
Proof. induction ls as [|x ls IH]; intros H; [constructor|]. eapply chain_cons; [apply neutral_line, H; now left|]. apply IH. intros y Hy. apply H. now right. Qed.

Lemma chain_join st ls st2 last st3 : chain st ls st2 -> brings st2 last st3 -> brings st (str_join newline (ls ++ [last])) st3.
Proof.
  induction 1 as [|st a st1 ls st2 B C IH]; intros L; [exact L|]. cbn [app].
  assert (exists b m, ls ++ [last] = b :: m) as (b & m & Q) by (destruct ls; [now exists last, []|now exists s, (ls ++ [last])]).
  assert (str_join newline (a :: ls ++ [last]) = (a ++ newline ++ str_join newline (ls ++ [last]))%string) as -> by (rewrite Q; reflexivity).
  intros l st' H. rewrite !chars_append, <- !app_assoc. cbn [newline chars app]. apply B. now apply IH.
Qed.

Section Table.
  Variable t : textable.
  Variable tab : string.
  Hypothesis Ntab : neutral tab.
  Hypothesis Ncap : neutral (t_caption t).
  Hypothesis Nlabel : neutral (t_label t).
  Hypothesis Nspace : neutral (t_spacing t).
  Hypothesis Nfont : neutral ("\" ++ t_font t).
  Hypothesis Nnotes : forall s n, In (s, n) (t_notes t) -> neutral s /\ neutral n.
  Hypothesis Ncols : forall c, In c (f_cols (t_frame t)) -> neutral c.
  Hypothesis Ncells : forall r x, In r (f_rows (t_frame t)) -> In x (snd r) -> neutral x.
  Hypothesis Ndecs : forall i c d x, In ((i, c), d) (t_decs t) -> neutral x -> neutral (d x).

  Lemma dec_neutral i c x : neutral x -> neutral (dec_at (t_decs t) i c x).
  Proof using Ndecs.
    intros N. revert Ndecs. induction (t_decs t) as [|[[j c'] d] ds IH]; intros D; [exact N|]. cbn [dec_at].
    destruct (Z.eqb j i && String.eqb c' c); [apply (D j c'); [now left|exact N]|]. apply IH. intros i0 c0 d0 y Hy. apply (D i0 c0). now right.
  Qed.

  Lemma at_neutral i c x : frame_at (t_frame t) i c = Ok x -> neutral x.
  Proof using Ncells.
    unfold frame_at. destruct (filter _ (f_rows (t_frame t))) as [|row [|]] eqn:F; try discriminate.
    assert (Hr : In row (f_rows (t_frame t))) by (assert (In row (filter (fun r => Z.eqb (fst r) i) (f_rows (t_frame t)))) as Q by (rewrite F; now left); now apply filter_In in Q).
    destruct (filter _ (combine _ _)) as [|[c' y] [|]] eqn:G; try discriminate. intros H. injection H as ->.
    assert (In (c', x) (filter (fun c0 => String.eqb (fst c0) c) (combine (f_cols (t_frame t)) (snd row)))) as Q by (rewrite G; now left).
    apply filter_In in Q as [Q _]. apply in_combine_r in Q. now apply (Ncells row).
  Qed.

  Lemma body_neutral body : tex_body t = Ok body -> forall l, In l body -> neutral l.
  Proof using Ncells Ndecs.
    intros H l Hl. unfold tex_body in H. apply mapM_Ok_inv in H. revert Hl. induction H as [|i line is body Hi F IH]; [now intros []|].
    intros [<-|Hl]; [|now apply IH].
    destruct (mapM _ (f_cols (t_frame t))) as [cs|] eqn:M in Hi; [|discriminate]. injection Hi as <-.
    apply neutral_app; [|apply c_eol]. apply join_neutral; [apply c_and|]. intros x Hx. apply mapM_Ok_inv in M.
    clear -M Hx Ncells Ndecs. revert Hx. induction M as [|c y cs ys Hy F IH]; [now intros []|]. intros [<-|Hx]; [|now apply IH].
    destruct (frame_at (t_frame t) i c) as [z|] eqn:A; [|discriminate]. injection Hy as <-. apply dec_neutral. now apply (at_neutral i c).
  Qed.

  Lemma header_neutral type h : header_line type t = Ok h -> neutral h.
  Proof using Ncols.
    assert (A : forall wrap, (forall c, neutral c -> neutral (wrap c)) -> neutral (str_join " & " (map wrap (f_cols (t_frame t))) ++ " \\")).
    { intros wrap W. apply neutral_app; [|apply c_eol]. apply join_neutral; [apply c_and|]. intros x Hx. apply in_map_iff in Hx as (c & <- & Hc). now apply W, Ncols. }
    unfold header_line. destruct (String.eqb type "table"); [|destruct (String.eqb type "longtable"); [|discriminate]]; intros H;
      apply (f_equal (fun r => match r with Ok x => x | Err _ => ""%string end)) in H; rewrite <- H; apply A; intros c N; apply neutral_of; intros st.
    - apply (brings_app st "\textbf{" (Brace :: st)); [apply c_textbf|]. eapply brings_app; [apply neutral_at, N|apply c_close].
    - apply (brings_app st "\multicolumn{1}{l}{\textbf{" (Brace :: Brace :: st)); [apply c_multicol|]. eapply brings_app; [apply neutral_at, N|apply c_close2].
  Qed.

  Lemma captions_neutral l : In l (caption_lines t) -> neutral l.
  Proof using Ncap Nnotes.
    intros [<-|H]; [apply neutral_app; [exact Ncap|apply c_eol]|]. apply in_map_iff in H as ([s n] & <- & H). cbn [fst snd].
    destruct (Nnotes s n H) as [Ns Nn]. apply neutral_of. intros st.
    eapply brings_app; [apply c_mathrm|]. eapply brings_app; [apply neutral_at; exact Ns|]. eapply brings_app; [apply c_closemath|].
    eapply brings_app; [apply neutral_at; exact Nn|]. apply neutral_at, c_eol.
  Qed.

  Lemma seps_neutral l : In l sep_lines -> neutral l.
  Proof. intros H. cbn in H. repeat (destruct H as [<-|H]; [intros st; const|]). contradiction. Qed.

  Lemma ind_neutral n l : neutral l -> neutral (times n tab ++ l).
  Proof using Ntab. intros H. apply neutral_app; [now apply times_neutral|exact H]. Qed.
  Lemma ind_brings n st s st1 : brings st s st1 -> brings st (times n tab ++ s) st1.
  Proof using Ntab. intros H. eapply brings_app; [|exact H]. now apply neutral_at, times_neutral. Qed.
  Lemma inds_chain n st ls : (forall x, In x ls -> neutral x) -> chain st (map (fun s => (times n tab ++ s)%string) ls) st.
  Proof using Ntab. intros H. apply chain_neutral. intros x Hx. apply in_map_iff in Hx as (y & <- & Hy). now apply ind_neutral, H. Qed.

  Lemma wrapped a x b st st1 : neutral x -> brings st a st1 -> brings st1 b st -> brings st (a ++ x ++ b) st.
  Proof. intros N A B. eapply brings_app; [exact A|]. eapply brings_app; [apply neutral_at; exact N|exact B]. Qed.

  Lemma plain_ls n : neutral (times n "l").
  Proof. apply times_neutral. intros st. const. Qed.

  Lemma join_end st ls st2 last st3 l : chain st ls st2 -> brings st2 last st3 -> l = ls ++ [last] -> brings st (str_join newline l) st3.
  Proof. intros C B ->. now apply (chain_join st ls st2). Qed.

  Lemma c_comment st : brings_nl st "\resizebox{\textwidth}{!}{%" (Brace :: st).
  Proof. intros l st' H. cbn [chars app]. repeat step1. apply n_comment. exact H. Qed.
  Lemma ind_nl n st s st1 : brings_nl st s st1 -> brings_nl st (times n tab ++ s) st1.
  Proof using Ntab. intros H l st' Hn. rewrite chars_append, <- app_assoc. apply (times_neutral n tab Ntab). now apply H. Qed.

  Lemma table_nested s : str_table tab t = Ok s -> brings [] s [].
  Proof using Ntab Ncap Nlabel Nspace Nnotes Ncols Ncells Ndecs.
    unfold str_table. destruct (header_line (t_type t) t) as [h|] eqn:Hh; [|discriminate]. cbn [bind].
    destruct (tex_body t) as [body|] eqn:Hb; [|discriminate]. cbn [bind]. intros H. apply Ok_same in H. rewrite <- H. clear H.
    pose proof (header_neutral _ _ Hh) as NH. pose proof (body_neutral _ Hb) as NB.
    set (ind := fun n s => (times n tab ++ s)%string).
    eapply (join_end [] (["\begin{table}[!htb]"; ind 1%nat "\centering"; ind 1%nat "\caption{"] ++
      map (ind 2%nat) (caption_lines t) ++
      [ind 1%nat "}"; ind 1%nat ("\label{" ++ t_label t ++ "}")%string; "\begingroup";
       ("\renewcommand{\arraystretch}{" ++ t_spacing t ++ "}")%string;
       ind 1%nat "\resizebox{\textwidth}{!}{%";
       ind 1%nat ("\begin{tabular}{" ++ times (List.length (f_cols (t_frame t))) "l" ++ "}")%string;
       ind 2%nat h] ++
      map (ind 2%nat) sep_lines ++ map (ind 2%nat) body ++ map (ind 2%nat) sep_lines ++
      [ind 1%nat "\end{tabular}"; ind 1%nat "}"; ind 1%nat "\endgroup"]) [Env "table"] "\end{table}").
    - apply chain_app with [Brace; Env "table"].
      + eapply chain_cons; [apply brings_line; const|]. eapply chain_cons; [apply brings_line, ind_brings; const|].
        eapply chain_cons; [apply brings_line, ind_brings; const|]. constructor.
      + eapply chain_app; [apply inds_chain, captions_neutral|].
        cbn [app]. eapply chain_cons; [apply brings_line, ind_brings; const|].
        eapply chain_cons; [apply brings_line, ind_brings; eapply wrapped; [exact Nlabel|const|const]|].
        eapply chain_cons; [apply brings_line; const|].
        eapply chain_cons; [apply brings_line; eapply wrapped; [exact Nspace|const|const]|].
        eapply chain_cons; [apply ind_nl, c_comment|].
        eapply chain_cons; [apply brings_line, ind_brings; eapply brings_app; [|eapply brings_app; [apply neutral_at, plain_ls|]]; const|].
        eapply chain_cons; [apply neutral_line, ind_neutral, NH|].
        eapply chain_app; [apply inds_chain, seps_neutral|]. eapply chain_app; [apply inds_chain, NB|]. eapply chain_app; [apply inds_chain, seps_neutral|].
        eapply chain_cons; [apply brings_line, ind_brings; const|]. eapply chain_cons; [apply brings_line, ind_brings; const|].
        eapply chain_cons; [apply brings_line, ind_brings; const|]. constructor.
    - const.
    - repeat (progress (cbn [app]; rewrite <- ?app_assoc)). reflexivity.
  Qed.


  Lemma long_nested s : str_longtable tab t = Ok s -> brings [] s [].
  Proof using Ntab Ncap Nlabel Nfont Nnotes Ncols Ncells Ndecs.
    unfold str_longtable. destruct (header_line (t_type t) t) as [h|] eqn:Hh; [|discriminate]. cbn [bind].
    destruct (tex_body t) as [body|] eqn:Hb; [|discriminate]. cbn [bind]. intros H. apply Ok_same in H. rewrite <- H. clear H.
    pose proof (header_neutral _ _ Hh) as NH. pose proof (body_neutral _ Hb) as NB.
    set (ind := fun n s => (times n tab ++ s)%string). set (cols := List.length (f_cols (t_frame t))).
    eapply (join_end [] ([("\" ++ t_font t)%string; ("\begin{longtable}{" ++ times cols "l" ++ "}")%string; ind 1%nat "\caption{"] ++
      map (ind 2%nat) (caption_lines t) ++
      [ind 1%nat "}"; ind 1%nat ("\label{" ++ t_label t ++ "} \\")%string; ind 1%nat h] ++
      map (ind 1%nat) sep_lines ++
      [ind 1%nat "\endfirsthead"; "";
       ind 1%nat ("\multicolumn{" ++ show_int (Z.of_nat cols) ++ "}{c}{{\tablename\ \thetable{} (\textit{Continued})}} \\")%string;
       ind 1%nat h] ++
      map (ind 1%nat) sep_lines ++
      [ind 1%nat "\endhead"; ""] ++
      map (ind 1%nat) sep_lines ++
      [ind 1%nat ("\multicolumn{" ++ show_int (Z.of_nat cols) ++ "}{r}{\textit{Continued on next page}} \\")%string;
       ind 1%nat "\endfoot"; ""] ++
      map (ind 1%nat) sep_lines ++
      [ind 1%nat "\endlastfoot"; ""] ++
      map (ind 1%nat) body ++
      ["\end{longtable}"]) [] "\normalsize").
    - assert (SEP : chain [Env "longtable"] (map (ind 1%nat) sep_lines) [Env "longtable"]) by apply inds_chain, seps_neutral.
      assert (HD : brings_nl [Env "longtable"] (ind 1%nat h) [Env "longtable"]) by apply neutral_line, ind_neutral, NH.
      assert (EM : brings_nl [Env "longtable"] "" [Env "longtable"]) by apply neutral_line, neutral_nil.
      apply chain_app with [Brace; Env "longtable"].
      { eapply chain_cons; [apply neutral_line, Nfont|].
        eapply chain_cons; [apply brings_line; eapply brings_app; [|eapply brings_app; [apply neutral_at, plain_ls|]]; const|].
        eapply chain_cons; [apply brings_line, ind_brings; const|]. constructor. }
      eapply chain_app; [apply inds_chain, captions_neutral|]. apply chain_app with [Env "longtable"].
      { eapply chain_cons; [apply brings_line, ind_brings; const|].
        eapply chain_cons; [apply brings_line, ind_brings; eapply wrapped; [exact Nlabel|const|const]|].
        eapply chain_cons; [exact HD|]. constructor. }
      eapply chain_app; [exact SEP|]. apply chain_app with [Env "longtable"].
      { eapply chain_cons; [apply brings_line, ind_brings; const|]. eapply chain_cons; [exact EM|].
        eapply chain_cons; [apply brings_line, ind_brings; eapply wrapped; [apply digits_neutral|const|const]|].
        eapply chain_cons; [exact HD|]. constructor. }
      eapply chain_app; [exact SEP|]. apply chain_app with [Env "longtable"].
      { eapply chain_cons; [apply brings_line, ind_brings; const|]. eapply chain_cons; [exact EM|]. constructor. }
      eapply chain_app; [exact SEP|]. apply chain_app with [Env "longtable"].
      { eapply chain_cons; [apply brings_line, ind_brings; eapply wrapped; [apply digits_neutral|const|const]|].
        eapply chain_cons; [apply brings_line, ind_brings; const|]. eapply chain_cons; [exact EM|]. constructor. }
      eapply chain_app; [exact SEP|]. apply chain_app with [Env "longtable"].
      { eapply chain_cons; [apply brings_line, ind_brings; const|]. eapply chain_cons; [exact EM|]. constructor. }
      eapply chain_app; [apply inds_chain, NB|].
      eapply chain_cons; [apply brings_line; const|]. constructor.
    - const.
    - repeat (progress (cbn [app]; rewrite <- ?app_assoc)). reflexivity.
  Qed.

  Lemma tex_nested s : tex_str tab t = Ok s -> nested [] (chars s) [].
  Proof.
    unfold tex_str. intros H. rewrite <- (app_nil_r (chars s)).
    assert (B : brings [] s []) by (destruct (String.eqb (t_type t) "table"); [now apply table_nested|]; destruct (String.eqb (t_type t) "longtable"); [now apply long_nested|discriminate]).
    apply B. constructor.
  Qed.
End Table.

(** ** Any calls *)
Definition fine (t : textable) : Prop :=
  neutral (t_caption t) /\ neutral (t_label t) /\ neutral (t_spacing t) /\ neutral ("\" ++ t_font t) /\
  (forall s n, In (s, n) (t_notes t) -> neutral s /\ neutral n) /\ (forall c, In c (f_cols (t_frame t)) -> neutral c) /\
  (forall r x, In r (f_rows (t_frame t)) -> In x (snd r) -> neutral x) /\
  (forall i c d x, In ((i, c), d) (t_decs t) -> neutral x -> neutral (d x)).

Lemma In_sset (s n : string) l x : In x (sset s n l) -> x = (s, n) \/ In x l.
Proof.
  induction l as [|[k v] l IH]; cbn; [intros [<-|[]]; now left|]. destruct (String.eqb_spec s k) as [->|]; cbn.
  - intros [<-|H]; [now left|right; now right].
  - intros [<-|H]; [right; now left|]. destruct (IH H); [now left|right; now right].
Qed.

Lemma fine_step o t : neutral_op o -> fine t -> fine (apply_tex o t).
Proof.
  intros N (A & B & C & D & F & G & H & I).
  destruct o as [f|s|sp n|s|i c d]; cbn in N; unfold fine; cbn [apply_tex t_caption t_label t_spacing t_font t_notes t_frame t_decs];
    refine (conj _ (conj _ (conj _ (conj _ (conj _ (conj _ (conj _ _))))))); try assumption; try apply N.
  - intros ? ? ? ? [].
  - intros s n0 K. apply In_sset in K as [Q|Q]; [injection Q as -> ->; exact N|now apply F].
  - intros j c' d' x [Q|Q] Nx; [injection Q as <- <- <-; now apply N|now apply (I j c')].
Qed.
Lemma fine_run ops t : (forall o, In o ops -> neutral_op o) -> fine t -> fine (texrun ops t).
Proof.
  revert t. induction ops as [|o ops IH]; intros t N F; [exact F|]. cbn. apply IH; [intros o' Ho; apply N; now right|]. apply fine_step; [apply N; now left|exact F].
Qed.

Lemma text_nested tab type spacing font ops s :
  (forall o, In o ops -> neutral_op o) -> neutral tab -> neutral spacing -> neutral ("\" ++ font) ->
  tex_str tab (texrun ops (new_table type spacing font)) = Ok s -> nested [] (chars s) [].
Proof.
  intros N T S F H. assert (Q : fine (texrun ops (new_table type spacing font))).
  { apply fine_run; [exact N|]. unfold fine. cbn [new_table t_caption t_label t_spacing t_font t_notes t_frame t_decs f_cols f_rows].
    repeat split; try assumption; try apply neutral_nil; try (intros; contradiction); contradiction. }
  destruct Q as (A & B & C & D & G & K & L & M). now apply (tex_nested (texrun ops (new_table type spacing font)) tab).
Qed.

Lemma note_neutral sups x : (forall s, In s sups -> neutral s) -> neutral x -> neutral (note_decorator sups x).
Proof.
  intros S N. apply neutral_app; [exact N|]. apply neutral_of. intros st. eapply brings_app with (st1 := Brace :: st); [const|].
  eapply brings_app; [apply neutral_at, join_neutral; [intros st0; const|exact S]|]. const.
Qed.
