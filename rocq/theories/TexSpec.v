(** Specification of LaTeX tables: what was said last, and nesting. *)
From Verif Require Import Base Species Reactions TexTable.

(** [x] is what the last of the calls picked by [sel] said; without such a
    call it is [d]. *)
Definition latest {A} (sel : texop -> option A) (d : A) (ops : list texop) (x : A) : Prop :=
  ((forall o, In o ops -> sel o = None) /\ x = d) \/
  exists u o v, ops = u ++ o :: v /\ sel o = Some x /\ forall o', In o' v -> sel o' = None.

Definition sel_caption (o : texop) : option string := match o with TCaption s => Some s | _ => None end.
Definition sel_label (o : texop) : option string := match o with TLabel s => Some s | _ => None end.
Definition sel_frame (o : texop) : option frame := match o with TLoad f => Some f | _ => None end.
Definition sel_dec (i : Z) (col : string) (o : texop) : option (string -> string) :=
  match o with
  | TDecorate j c d => if Z.eq_dec j i then if string_dec c col then Some d else None else None
  | _ => None
  end.
Definition sel_note (s : string) (o : texop) : option string :=
  match o with TNote s' n => if string_dec s' s then Some n else None | _ => None end.
Definition superscripts (ops : list texop) : list string :=
  flat_map (fun o => match o with TNote s _ => [s] | _ => [] end) ops.

(** The notes: each superscript once, in the order of first mention, with the
    last text. *)
Definition notes_said (ops : list texop) (ns : list (string * string)) : Prop :=
  NoDup (map fst ns) /\
  (forall s n, In (s, n) ns <-> exists u v, ops = u ++ TNote s n :: v /\ forall o, In o v -> sel_note s o = None) /\
  (forall u x v y w, map fst ns = u ++ x :: v ++ y :: w ->
     exists a b, superscripts ops = a ++ x :: b /\ ~ In x a /\ ~ In y a).

(** A frame whose rows have as many cells as there are columns, with distinct
    labels. *)
Definition regular (f : frame) : Prop :=
  NoDup (map fst (f_rows f)) /\ NoDup (f_cols f) /\
  forall r, In r (f_rows f) -> List.length (snd r) = List.length (f_cols f).

(** The texts shown in a row: the cells, decorated. *)
Definition shown_row (b : list texop) (cols : list string) (r : Z * list string) (ys : list string) : Prop :=
  List.length ys = List.length cols /\
  forall k col x y, nth_error cols k = Some col -> nth_error (snd r) k = Some x -> nth_error ys k = Some y ->
    exists d, latest (sel_dec (fst r) col) (fun z => z) b d /\ y = d x.

(** ** Nesting of groups and environments in LaTeX text *)
Inductive opened := Brace | Group | Env (name : string).

(** The name up to the closing brace, and what is left behind it. *)
Fixpoint env_name (l : list ascii) : option (list ascii * list ascii) :=
  match l with
  | [] => None
  | c :: l' => if Ascii.eqb c "}" then Some ([], l')
               else match env_name l' with Some (n, r) => Some (c :: n, r) | None => None end
  end.
(** What comes after [p], if [l] starts with it. *)
Fixpoint after_prefix (p l : list ascii) : option (list ascii) :=
  match p, l with
  | [], _ => Some l
  | a :: p', b :: l' => if Ascii.eqb a b then after_prefix p' l' else None
  | _, [] => None
  end.
(** The rest of the text after the end of the line. *)
Fixpoint next_line (l : list ascii) : list ascii :=
  match l with [] => [] | c :: l' => if Ascii.eqb c (ascii_of_nat 10) then l' else next_line l' end.

(** [nested st l st']: reading [l] with the groups [st] open (the innermost
    first) leaves [st'] open.  Groups and environments have to be closed in
    the reverse order; comments are skipped, other commands taken as they
    come. *)
Inductive nested : list opened -> list ascii -> list opened -> Prop :=
| n_end st : nested st [] st
| n_open st l st' : nested (Brace :: st) l st' -> nested st ("{"%char :: l) st'
| n_close st l st' : nested st l st' -> nested (Brace :: st) ("}"%char :: l) st'
| n_comment st l st' : nested st (next_line l) st' -> nested st ("%"%char :: l) st'
| n_begingroup st l r st' : after_prefix (chars "\begingroup") l = Some r -> nested (Group :: st) r st' -> nested st l st'
| n_endgroup st l r st' : after_prefix (chars "\endgroup") l = Some r -> nested st r st' -> nested (Group :: st) l st'
| n_begin st l r n r' st' : after_prefix (chars "\begin{") l = Some r -> env_name r = Some (n, r') ->
    nested (Env (str_of n) :: st) r' st' -> nested st l st'
| n_fin st l r n r' st' : after_prefix (chars "\end{") l = Some r -> env_name r = Some (n, r') ->
    nested st r' st' -> nested (Env (str_of n) :: st) l st'
| n_command st c l st' :
    (forall p, In p ["begingroup"; "endgroup"; "begin{"; "end{"] -> after_prefix (chars p) (c :: l) = None) ->
    nested st l st' -> nested st ("\"%char :: c :: l) st'
| n_plain st c l st' : ~ In c ["{"; "}"; "%"; "\"]%char -> nested st l st' -> nested st (c :: l) st'.

(** A text that leaves the nesting as it is, whatever is open and follows. *)
Definition neutral (s : string) : Prop := forall st l st', nested st l st' -> nested st (chars s ++ l) st'.

(** Calls with such texts only. *)
Definition neutral_op (o : texop) : Prop :=
  match o with
  | TLoad f => (forall c, In c (f_cols f) -> neutral c) /\ forall r x, In r (f_rows f) -> In x (snd r) -> neutral x
  | TLabel s => neutral s
  | TNote s n => neutral s /\ neutral n
  | TCaption s => neutral s
  | TDecorate _ _ d => forall x, neutral x -> neutral (d x)
  end.

(** Text without braces, comments and commands. *)
Definition plain (s : string) : Prop := forall c, In c (chars s) -> ~ In c ["{"; "}"; "%"; "\"]%char.

(** Reactions whose own texts keep the nesting: the LaTeX given, the names of
    species without it, the DOI. *)
Definition tame_species (p : rp) : Prop :=
  (forall t, rattr p "latex" = VStr t -> neutral t) /\
  (rattr p "latex" = VNone -> forall n, get_name p = Ok n -> plain n).
Definition tame_reaction (r : reaction) : Prop :=
  (forall t, xattr r "latex" = VStr t -> neutral t) /\
  (xattr r "latex" = VNone -> forall p, In p (r_lhs r ++ r_rhs r) -> tame_species p) /\
  (forall s, xattr r "doi" = VStr s -> neutral s).

(** Column headings. *)
Definition heading (type c : string) : string :=
  if string_dec type "table" then ("\textbf{" ++ c ++ "}")%string else ("\multicolumn{1}{l}{\textbf{" ++ c ++ "}}")%string.

(** The number of column separators in a line. *)
Definition amps (s : string) : nat := List.length (filter (Ascii.eqb "&") (chars s)).
