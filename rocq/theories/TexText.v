(** The text of LaTeX tables: contents and nesting. *)
From Verif Require Import Base BaseLemmas Latex TexTable TexSpec TexProofs.

(** ** Contents *)
Lemma times_l n : String.length (times n "l") = n /\ forall c, In c (chars (times n "l")) -> c = "l"%char.
Proof. induction n as [|n [L A]]; cbn; [now split|]. split; [now rewrite L|]. intros c [<-|H]; auto. Qed.

Lemma frame_of ops a fr b t : ops = a ++ TLoad fr :: b -> (forall o, In o b -> sel_frame o = None) -> t_frame (texrun ops t) = fr.
Proof.
  intros H N. pose proof (said_frame ops t) as L. assert (L' : latest sel_frame (t_frame t) ops fr) by (apply (latest_some _ _ _ a (TLoad fr) b); [exact H|reflexivity|exact N]).
  clear -L L'. revert L L'. generalize (t_frame (texrun ops t)). induction ops as [|o ops IH] using rev_ind; intros x A B.
  - apply latest_nil in A, B. congruence.
  - apply latest_snoc in A, B. destruct (sel_frame o); [congruence|]. now apply IH.
Qed.

Lemma text_contents ops a fr b type tab spacing font :
  ops = a ++ TLoad fr :: b -> (forall o, In o b -> sel_frame o = None) -> regular fr -> In type ["table"; "longtable"] ->
  exists cap label notes rows ind pad p1 p2 p3 p4 p5 tl pre ls,
    latest sel_caption "" ops cap /\ latest sel_label "" ops label /\ notes_said ops notes /\
    Forall2 (fun r line => exists ys, shown_row b (f_cols fr) r ys /\ line = (ind ++ String.concat " & " ys ++ " \\")%string) (f_rows fr) rows /\
    tex_str tab (texrun ops (new_table type spacing font)) = Ok (String.concat newline
      (p1 ++ (pad ++ cap ++ " \\")%string :: map (fun n => (pad ++ "$^\mathrm{" ++ fst n ++ "}$ " ++ snd n ++ " \\")%string) notes ++
       p2 ++ (tab ++ "\label{" ++ label ++ "}" ++ tl)%string :: p3 ++
       (ind ++ String.concat " & " (map (heading type) (f_cols fr)) ++ " \\")%string :: p4 ++ rows ++ p5)) /\
    In (pre ++ ls ++ "}")%string (p1 ++ p3) /\ In pre [(tab ++ "\begin{tabular}{")%string; "\begin{longtable}{"] /\
    String.length ls = List.length (f_cols fr) /\ (forall c, In c (chars ls) -> c = "l"%char).
Proof.
  intros H N R Ty. set (t := texrun ops (new_table type spacing font)).
  assert (AA : forall a b c : string, ((a ++ b) ++ c = a ++ (b ++ c))%string).
  { clear. induction a as [|x a IH]; intros b c; cbn; [reflexivity|]. now rewrite IH. }
  assert (E0 : forall a, (a ++ "" = a)%string) by (clear; induction a as [|x a IH]; cbn; [reflexivity|now rewrite IH]).
  destruct (said_fixed ops (new_table type spacing font)) as (T1 & _ & _). fold t in T1. cbn [new_table t_type] in T1.
  assert (F : t_frame t = fr) by (apply (frame_of ops a fr b); assumption).
  pose proof (body_regular t) as B. rewrite F in B. specialize (B R).
  set (line := fun ind r => (ind ++ String.concat " & " (shown t r) ++ " \\")%string).
  assert (Rows : forall ind, Forall2 (fun r l => exists ys, shown_row b (f_cols fr) r ys /\ l = (ind ++ String.concat " & " ys ++ " \\")%string)
    (f_rows fr) (map (line ind) (f_rows fr))).
  { intros ind. assert (G : forall l, incl l (f_rows fr) -> Forall2 (fun r l => exists ys, shown_row b (f_cols fr) r ys /\ l = (ind ++ String.concat " & " ys ++ " \\")%string) l (map (line ind) l)).
    { induction l as [|r l IH]; intros I; cbn [map]; constructor.
      - exists (shown t r). split; [|reflexivity]. apply (shown_said ops a fr b); try assumption. apply I. now left.
      - apply IH. intros z Hz. apply I. now right. }
    apply G, incl_refl. }
  exists (t_caption t), (t_label t), (t_notes t).
  pose proof (said_caption ops (new_table type spacing font)) as C1. fold t in C1. cbn [new_table t_caption] in C1.
  pose proof (said_label ops (new_table type spacing font)) as C2. fold t in C2. cbn [new_table t_label] in C2.
  pose proof (notes_ok ops (new_table type spacing font) eq_refl) as C3. fold t in C3.
  destruct (times_l (List.length (f_cols fr))) as [LL LA].
  unfold tex_str. rewrite T1. unfold str_table, str_longtable, header_line. rewrite T1, B, F. cbn [bind].
  assert (NM : forall pad, map (fun s => (pad ++ s)%string) (map (fun n : string * string => ("$^\mathrm{" ++ fst n ++ "}$ " ++ snd n ++ " \\")%string) (t_notes t)) =
    map (fun n => (pad ++ "$^\mathrm{" ++ fst n ++ "}$ " ++ snd n ++ " \\")%string) (t_notes t)) by (intros pad; now rewrite map_map).
  assert (RM : forall ind, map (fun s => (ind ++ s)%string) (map (fun r => (str_join " & " (shown t r) ++ " \\")%string) (f_rows fr)) = map (line ind) (f_rows fr))
    by (intros ind; now rewrite map_map).
  destruct Ty as [<-|[<-|[]]].
  - exists (map (line (times 2 tab)) (f_rows fr)), (times 2 tab), (times 2 tab).
    exists ["\begin{table}[!htb]"; (times 1 tab ++ "\centering")%string; (times 1 tab ++ "\caption{")%string].
    exists [(times 1 tab ++ "}")%string].
    exists ["\begingroup"; ("\renewcommand{\arraystretch}{" ++ t_spacing t ++ "}")%string; (times 1 tab ++ "\resizebox{\textwidth}{!}{%")%string;
       (times 1 tab ++ "\begin{tabular}{" ++ times (List.length (f_cols fr)) "l" ++ "}")%string].
    exists (map (fun s => (times 2 tab ++ s)%string) sep_lines).
    exists (map (fun s => (times 2 tab ++ s)%string) sep_lines ++ [(times 1 tab ++ "\end{tabular}")%string; (times 1 tab ++ "}")%string; (times 1 tab ++ "\endgroup")%string; "\end{table}"]).
    exists "", (tab ++ "\begin{tabular}{")%string, (times (List.length (f_cols fr)) "l").
    split; [exact C1|]. split; [exact C2|]. split; [exact C3|]. split; [apply Rows|]. split.
    + f_equal. change (str_join newline) with (String.concat newline). f_equal. cbn [app]. do 3 f_equal.
      unfold caption_lines. cbn [map app]. rewrite NM, <- ?app_assoc. f_equal. f_equal. cbn [app]. cbn [times]. rewrite !E0. f_equal. f_equal. do 4 f_equal.
      rewrite RM. reflexivity.
    + split; [|split; [now left|now split]]. apply in_app_iff. right. right. right. right. left. cbn [times]. rewrite E0, AA. reflexivity.
  - exists (map (line (times 1 tab)) (f_rows fr)), (times 1 tab), (times 2 tab).
    exists [("\" ++ t_font t)%string; ("\begin{longtable}{" ++ times (List.length (f_cols fr)) "l" ++ "}")%string; (times 1 tab ++ "\caption{")%string].
    exists [(times 1 tab ++ "}")%string]. exists [].
    set (ind1 := fun s => (times 1 tab ++ s)%string).
    exists (map ind1 sep_lines ++
      [ind1 "\endfirsthead"; "";
       ind1 ("\multicolumn{" ++ show_int (Z.of_nat (List.length (f_cols fr))) ++ "}{c}{{\tablename\ \thetable{} (\textit{Continued})}} \\")%string;
       ind1 (String.concat " & " (map (heading "longtable") (f_cols fr)) ++ " \\")%string] ++
      map ind1 sep_lines ++ [ind1 "\endhead"; ""] ++ map ind1 sep_lines ++
      [ind1 ("\multicolumn{" ++ show_int (Z.of_nat (List.length (f_cols fr))) ++ "}{r}{\textit{Continued on next page}} \\")%string; ind1 "\endfoot"; ""] ++
      map ind1 sep_lines ++ [ind1 "\endlastfoot"; ""]).
    exists ["\end{longtable}"; "\normalsize"].
    exists " \\", "\begin{longtable}{", (times (List.length (f_cols fr)) "l").
    split; [exact C1|]. split; [exact C2|]. split; [exact C3|]. split; [apply Rows|]. split.
    + change (String.eqb "longtable" "table") with false. change (String.eqb "longtable" "longtable") with true. cbv iota.
      f_equal. change (str_join newline) with (String.concat newline). f_equal.
      unfold caption_lines, sep_lines. cbn [map app]. rewrite NM. cbn [times]. rewrite <- ?app_assoc. cbn [app].
      unfold ind1. cbn [times]. rewrite !E0. do 4 f_equal. f_equal. rewrite RM. reflexivity.
    + split; [|split; [right; now left|now split]]. right. now left.
Qed.

Lemma unknown_type ops type tab spacing font : ~ In type ["table"; "longtable"] ->
  tex_str tab (texrun ops (new_table type spacing font)) = Err EValue.
Proof.
  intros H. destruct (said_fixed ops (new_table type spacing font)) as (T & _ & _). unfold tex_str. rewrite T. cbn [new_table t_type].
  destruct (String.eqb_spec type "table") as [->|_]; [exfalso; apply H; now left|].
  destruct (String.eqb_spec type "longtable") as [->|_]; [exfalso; apply H; right; now left|]. reflexivity.
Qed.
