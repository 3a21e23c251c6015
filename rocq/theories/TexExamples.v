(** Examples of LaTeX tables. *)
From Verif Require Import Base BaseLemmas Species Reactions Chemistry ChemSpec ChemHist ChemLoad ChemExamples MolSpec MolExamples Views ConserveSpec BalanceExamples
  Latex LatexExamples TexTable TexSpec TexProofs TexText TexNest TexReact TexDet TexColumns.

Definition frame_x : frame := MkFrame ["ID"; "k"] [(1, ["1"; "$k_1$"]); (2, ["2"; "$k_2$"])].
Definition ops_x : list texop :=
  [TCaption "First"; TNote "b" "Old."; TDecorate 1 "k" (fun _ => "lost"); TLoad frame_x; TNote "a" "Fitted."; TLabel "tab:r";
   TDecorate 2 "k" (note_decorator ["a"; "b"]); TNote "b" "Measured."; TCaption "Reactions"].

Lemma frame_x_regular : regular frame_x.
Proof.
  split; [|split]; cbn.
  - repeat (constructor; [cbn; intuition discriminate|]). constructor.
  - repeat (constructor; [cbn; intuition discriminate|]). constructor.
  - intros r [<-|[<-|[]]]; reflexivity.
Qed.
Lemma ops_x_split : exists a b, ops_x = a ++ TLoad frame_x :: b /\ forall o, In o b -> sel_frame o = None.
Proof.
  exists [TCaption "First"; TNote "b" "Old."; TDecorate 1 "k" (fun _ => "lost")].
  eexists. split; [reflexivity|]. cbn. intros o H. repeat (destruct H as [<-|H]; [reflexivity|]). contradiction.
Qed.
Example text_x : tex_str "  " (texrun ops_x (new_table "longtable" "1.5" "tiny")) = Ok (String.concat newline
  ["\tiny"; "\begin{longtable}{ll}"; "  \caption{"; "    Reactions \\"; "    $^\mathrm{b}$ Measured. \\"; "    $^\mathrm{a}$ Fitted. \\"; "  }";
   "  \label{tab:r} \\"; "  \multicolumn{1}{l}{\textbf{ID}} & \multicolumn{1}{l}{\textbf{k}} \\";
   "  \noalign{\vskip 1mm}"; "  \hline"; "  \noalign{\vskip 1mm}"; "  \endfirsthead"; "";
   "  \multicolumn{2}{c}{{\tablename\ \thetable{} (\textit{Continued})}} \\"; "  \multicolumn{1}{l}{\textbf{ID}} & \multicolumn{1}{l}{\textbf{k}} \\";
   "  \noalign{\vskip 1mm}"; "  \hline"; "  \noalign{\vskip 1mm}"; "  \endhead"; "";
   "  \noalign{\vskip 1mm}"; "  \hline"; "  \noalign{\vskip 1mm}"; "  \multicolumn{2}{r}{\textit{Continued on next page}} \\"; "  \endfoot"; "";
   "  \noalign{\vskip 1mm}"; "  \hline"; "  \noalign{\vskip 1mm}"; "  \endlastfoot"; "";
   "  1 & $k_1$ \\"; "  2 & $k_2$ $^\mathrm{a,b}$ \\"; "\end{longtable}"; "\normalsize"]).
Proof. vm_compute. reflexivity. Qed.

Ltac plainly := apply plain_neutral; intros ? H; cbn in H; repeat (destruct H as [<-|H]; [cbn; intuition discriminate|]); contradiction.
Lemma ops_x_neutral : (forall o, In o ops_x -> neutral_op o) /\ neutral "  " /\ neutral "1.5" /\ neutral "\tiny".
Proof.
  split; [|split; [plainly|split; [plainly|intros st; const]]].
  assert (NA : forall s, In s ["a"; "b"]%string -> neutral s) by (intros s [<-|[<-|[]]]; plainly).
  intros o H. cbn [ops_x In] in H. repeat (destruct H as [<-|H]); [..|contradiction]; cbn [neutral_op frame_x f_cols f_rows].
  - plainly.
  - split; plainly.
  - intros x _. plainly.
  - split.
    + intros c [<-|[<-|[]]]; plainly.
    + intros r x [<-|[<-|[]]] [<-|[<-|[]]]; plainly.
  - split; plainly.
  - plainly.
  - intros x Nx. now apply note_neutral.
  - split; plainly.
  - plainly.
Qed.

(** A table of reactions. *)
Definition tab_B : textable := match new_reactions_table E1 [ColId; ColReaction; ColRate; ColLoss; ColSource] rxsB with Ok t => t | Err _ => new_table "" "" "" end.
Lemma tab_B_ok : new_reactions_table E1 [ColId; ColReaction; ColRate; ColLoss; ColSource] rxsB = Ok tab_B.
Proof. vm_compute. reflexivity. Qed.
Lemma rxsB_tame : (forall f, plain (fshow E1 f)) /\ forall r, In r rxsB -> tame_reaction r.
Proof.
  split; [intros f c []|]. intros r Hr. assert (A : xattr r "latex" = VNone /\ xattr r "doi" = VNone) by (destruct Hr as [<-|[<-|[]]]; split; vm_compute; reflexivity).
  destruct A as [A B]. split; [rewrite A; discriminate|]. split; [|rewrite B; discriminate]. intros _ p Hp.
  assert (K : In p [sp_e; sp_O; sp_Op]).
  { destruct Hr as [<-|[<-|[]]]; vm_compute in Hp; cases Hp; subst p; vm_compute; tauto. }
  assert (L : rattr p "latex" = VNone) by (destruct K as [<-|[<-|[<-|[]]]]; vm_compute; reflexivity).
  split; [rewrite L; discriminate|]. intros _ n Hn c Hc.
  assert (N : In n ["e"; "O"; "O+"]%string) by (destruct K as [<-|[<-|[<-|[]]]]; vm_compute in Hn; injection Hn as <-; cbn; auto).
  destruct N as [<-|[<-|[<-|[]]]]; cbn in Hc; repeat (destruct Hc as [<-|Hc]; [cbn; intuition discriminate|]); contradiction.
Qed.
Lemma tab_B_text : exists s, tex_str "  " (texrun [TCaption "Reactions"] tab_B) = Ok s.
Proof. eexists. vm_compute. reflexivity. Qed.

(** A DOI with an ampersand. *)
Definition rx_doi := mkr 12 [sp_O; sp_Ox] [sp_Ox; sp_O] [("arrh_a", VFlt (Fin 3)); ("doi", VStr "10.1000/a&b")] [("arrh_a", Some "m3.s-1")].
Lemma doi_columns : exists r t h row, rx_history E1 r /\ new_reactions_table E1 [ColId; ColSource] [r] = Ok t /\
  header_line "longtable" t = Ok h /\ tex_body t = Ok [row] /\ amps h = 1%nat /\ amps row = 2%nat.
Proof.
  exists rx_doi. do 3 eexists. split; [eapply mkr_history; vm_compute; reflexivity|]. split; [vm_compute; reflexivity|].
  split; [vm_compute; reflexivity|]. split; [vm_compute; reflexivity|]. split; vm_compute; reflexivity.
Qed.

(** A pre-factor set in the chemistry. *)
Definition cT : chem := run E1 cB [OSetRx "arrh_a" 1 (VFlt (Fin 7))].
Lemma adhoc_not_shown : reachable E1 cT /\ objects E1 objsB rxsB cT /\ In rx_ion rxsB /\ r_id rx_ion = 1 /\
  (exists l, get_reactions_arrh_a cT false true = Ok l /\ zget 1 l = Some (SFlt (Fin (7 # 1000000)))) /\
  cell E1 ColRate rx_ion = Ok "$3 \times 10^{-6} \exp \left( -2/T_\mathrm{e} \right)$".
Proof.
  split; [apply run_reachable, cB_reachable|]. split.
  - destruct cB_objects as (A & B & C). split; [rewrite A; vm_compute; reflexivity|]. split; [rewrite B; vm_compute; reflexivity|exact C].
  - split; [now left|]. split; [vm_compute; reflexivity|]. split; [eexists; split; vm_compute; reflexivity|]. vm_compute. reflexivity.
Qed.

Lemma row_x : shown_row [TDecorate 2 "k" (note_decorator ["a"])] ["ID"; "k"] (2, ["2"; "$k_2$"]) ["2"; "$k_2$ $^\mathrm{a}$"].
Proof.
  split; [reflexivity|]. intros [|[|k]] c x y Hc Hx Hy; cbn in Hc, Hx, Hy; try (destruct k; discriminate); injection Hc as <-; injection Hx as <-; injection Hy as <-.
  - exists (fun z => z). split; [|reflexivity]. left. split; [|reflexivity]. intros o [<-|[]]. reflexivity.
  - exists (note_decorator ["a"]). split; [|reflexivity]. right. exists [], (TDecorate 2 "k" (note_decorator ["a"])), []. split; [reflexivity|]. split; [reflexivity|]. intros o [].
Qed.
Lemma tab_B_nodup : NoDup [ColId; ColReaction; ColRate; ColLoss; ColSource] /\ NoDup (map r_id rxsB).
Proof.
  split; [repeat (constructor; [cbn; intuition discriminate|]); constructor|]. vm_compute. repeat (constructor; [cbn; intuition discriminate|]). constructor.
Qed.
