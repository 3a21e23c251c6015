(** Model of plaschem/latex.py and of the [get_latex] methods of
    plaschem/species.py and plaschem/reactions.py. *)
From Coq Require Import Qabs Qround.
From Verif Require Import Base Species Reactions.

(** ** Text *)

(** [s.replace(old, new)] for a non-empty [old]: left to right, without
    overlaps; [skip] counts the characters of a match still to be dropped. *)
Fixpoint replace_l (old new : list ascii) (skip : nat) (l : list ascii) : list ascii :=
  match l with
  | [] => []
  | c :: l' =>
      match skip with
      | S k => replace_l old new k l'
      | O => if prefixb old l then new ++ replace_l old new (pred (List.length old)) l'
             else c :: replace_l old new 0 l'
      end
  end.

(** A loop of replacements [of = of.replace(a, b)]. *)
Definition replace_all (ps : list (string * string)) (l : list ascii) : list ascii :=
  fold_left (fun l p => replace_l (chars (fst p)) (chars (snd p)) 0 l) ps l.

(** [s.rstrip('.0')]: drops trailing dots and zeros. *)
Definition rstrip_dot0 (s : string) : string :=
  str_of (rstrip_l (fun c => Ascii.eqb c "." || Ascii.eqb c "0") (chars s)).

(** [char.isalpha()] on ASCII text (other letters are not modelled). *)
Definition is_alpha (c : ascii) : bool :=
  let n := nat_of_ascii c in
  (Nat.leb 65 n && Nat.leb n 90) || (Nat.leb 97 n && Nat.leb n 122).

(** ** Decimal text of numbers *)

Definition digit_char (z : Z) : ascii := ascii_of_nat (48 + Z.to_nat z).
Fixpoint digits_from (fuel : nat) (z : Z) (acc : list ascii) : list ascii :=
  match fuel with
  | O => acc
  | S f => if z <? 10 then digit_char z :: acc
           else digits_from f (z / 10) (digit_char (z mod 10) :: acc)
  end.
(** Decimal digits of a number [z >= 0]. *)
Definition digits (z : Z) : list ascii := digits_from (S (Z.to_nat (Z.log2 z))) z [].
(** [str(z)] of an integer. *)
Definition show_int (z : Z) : string :=
  str_of ((if z <? 0 then ["-"%char] else []) ++ digits (Z.abs z)).

(** The integer closest to [q], ties to even. *)
Definition round_even (q : Q) : Z :=
  let f := Qfloor q in
  let r := (q - inject_Z f)%Q in
  if Qle_bool (1 # 2) r then
    if Qle_bool r (1 # 2) then (if Z.even f then f else f + 1) else f + 1
  else f.

(** [str(round(x, 2))] of a finite number: [n] hundredths, with one or two
    decimals.  The result of rounding keeps the sign of [x], also when it is
    a zero.  From 10^15 hundredths on the shortest text of the float is left
    to the environment. *)
Definition show_hundredths (neg : bool) (n : Z) : string :=
  let f := n mod 100 in
  str_of ((if neg then ["-"%char] else []) ++ digits (n / 100) ++ "."%char ::
          digit_char (f / 10) :: (if f mod 10 =? 0 then [] else [digit_char (f mod 10)])).
Definition show_rounded (E : env) (x : flt) : string :=
  match x with
  | Fin q =>
      let n := round_even (Qabs q * 100) in
      if n <? 10 ^ 15 then show_hundredths (negb (Qle_bool 0 q)) n
      else fshow E (Fin ((if Qle_bool 0 q then n else - n) # 100))
  | _ => fshow E x
  end.

(** The exponent and significand of a positive number. *)
Fixpoint scale_down (fuel : nat) (q : Q) (e : Z) : Q * Z :=
  match fuel with
  | O => (q, e)
  | S f => if Qle_bool 10 q then scale_down f (q / 10)%Q (e + 1) else (q, e)
  end.
Fixpoint scale_up (fuel : nat) (q : Q) (e : Z) : Q * Z :=
  match fuel with
  | O => (q, e)
  | S f => if Qle_bool 1 q then (q, e) else scale_up f (q * 10)%Q (e - 1)
  end.
Definition scientific (q : Q) : Q * Z :=
  let (q1, e1) := scale_down (S (Z.to_nat (Z.log2 (Qnum q)))) q 0 in
  scale_up (S (Z.to_nat (Z.log2 (Zpos (Qden q1))))) q1 e1.

(** ['{:.2E}'.format(x).split('E')] with the exponent as an integer (latex.py
    L107-108): the significand with two decimals and the exponent.  The
    texts 'INF' and 'NAN' have no 'E' to split at: ValueError (unpacking). *)
Definition format_2E (x : flt) : res (string * Z) :=
  match x with
  | Fin q =>
      let sign := if Qle_bool 0 q then [] else ["-"%char] in
      let text m := str_of (sign ++ digits (m / 100) ++
        ["."%char; digit_char (m mod 100 / 10); digit_char (m mod 10)]) in
      if Qeq_bool q 0 then Ok (text 0, 0)
      else let (s, e) := scientific (Qabs q) in
           let m := round_even (s * 100) in
           Ok (if m =? 1000 then (text 100, e + 1) else (text m, e))
  | _ => Err EValue
  end.

(** ** plaschem/latex.py L10-22 [Texify.element_symbols] *)
Definition element_symbols : list string :=
  ["H"; "He"; "Li"; "Be"; "B"; "C"; "N"; "O"; "F"; "Ne"; "Na"; "Mg"; "Al";
   "Si"; "P"; "S"; "Cl"; "Ar"; "K"; "Ca"; "Sc"; "Ti"; "V"; "Cr"; "Mn"; "Fe";
   "Co"; "Ni"; "Cu"; "Zn"; "Ga"; "Ge"; "As"; "Se"; "Br"; "Kr"; "Rb"; "Sr"; "Y";
   "Zr"; "Nb"; "Mo"; "Tc"; "Ru"; "Rh"; "Pd"; "Ag"; "Cd"; "In"; "Sn"; "Sb"; "Te";
   "I"; "Xe"; "Cs"; "Ba"; "La"; "Ce"; "Pr"; "Nd"; "Pm"; "Sm"; "Eu"; "Gd"; "Tb";
   "Dy"; "Ho"; "Er"; "Tm"; "Yb"; "Lu"; "Hf"; "Ta"; "W"; "Re"; "Os"; "Ir"; "Pt";
   "Au"; "Hg"; "Tl"; "Pb"; "Bi"; "Po"; "At"; "Rn"; "Fr"; "Ra"; "Ac"; "Th"; "Pa";
   "U"; "Np"; "Pu"; "Am"; "Cm"; "Bk"; "Cf"; "Es"; "Fm"; "Md"; "No"; "Lr"; "Rf";
   "Db"; "Sg"; "Bh"; "Hs"; "Mt"; "Ds"; "Rg"; "Cn"; "Nh"; "Fl"; "Mc"; "Lv"; "Ts";
   "Og"].

(** L35-39: the replacements that raise signs, in the order of the loops. *)
Definition sup_of (e : string) : list (string * string) :=
  map (fun s => (e ++ s, e ++ "^{" ++ s ++ "}"))%string ["****"; "***"; "**"; "+++"; "++"; "---"; "--"] ++
  map (fun s => (e ++ s, e ++ "^" ++ s))%string ["+"; "-"; "*"].
Definition sup_pairs : list (string * string) :=
  flat_map sup_of (element_symbols ++ map show_int [0; 1; 2; 3; 4; 5; 6; 7; 8; 9]).
(** L41-45: the replacements that lower numbers. *)
Definition sub_of (a : string) : list (string * string) :=
  map (fun n => (a ++ show_int n, a ++ "_{" ++ show_int n ++ "}"))%string
      [10; 11; 12; 13; 14; 15; 16; 17; 18; 19] ++
  map (fun n => (a ++ show_int n, a ++ "_" ++ show_int n))%string [1; 2; 3; 4; 5; 6; 7; 8; 9].
Definition sub_pairs : list (string * string) := flat_map sub_of element_symbols.
(** L47-48: multiple ionisation. *)
Definition ion_pairs : list (string * string) :=
  [("^{++}", "^{2+}"); ("^{+++}", "^{3+}"); ("^{--}", "^{2-}"); ("^{---}", "^{3-}")].

(** L50-63: the loop over the characters from the last to the first.  The
    pair is the text behind the current position and [in_env]. *)
Definition wrap_step (c : ascii) (st : list ascii * bool) : list ascii * bool :=
  let (out, in_env) := st in
  if is_alpha c then (if in_env then c :: out else c :: "}"%char :: out, true)
  else (if in_env then c :: chars " \mathrm{" ++ out else c :: out, false).
Definition wrap_letters (l : list ascii) : list ascii :=
  let out := fst (fold_right wrap_step ([], false) l) in
  match l with
  | c :: _ => if is_alpha c then chars "\mathrm{" ++ out else out
  | [] => out
  end.

(** plaschem/latex.py L24-65 [_texify_ground_state]. *)
Definition texify_ground_state (f : list ascii) : list ascii :=
  wrap_letters (replace_all ion_pairs (replace_all sub_pairs (replace_all sup_pairs f))).

(** The positions of a character. *)
Fixpoint positions (c : ascii) (i : nat) (l : list ascii) : list nat :=
  match l with
  | [] => []
  | d :: l' => if Ascii.eqb d c then i :: positions c (S i) l' else positions c (S i) l'
  end.

(** plaschem/latex.py L67-97 [texify_species]. *)
Definition texify_species (name : string) : res string :=
  let l := chars name in
  match positions "(" 0 l, positions ")" 0 l with
  | [], [] => Ok (str_of (texify_ground_state l))
  | [i], [j] =>
      if negb (Nat.ltb i j) then Err EAssertion
      else if negb (Nat.eqb j (pred (List.length l))) then Err EAssertion
      else Ok (str_of (texify_ground_state (firstn i l) ++ " "%char :: skipn i l))
  | _, _ => Err EAssertion   (* different numbers, or more than one bracket *)
  end.

(** plaschem/species.py L394-404 [RP.get_latex]; the attribute is a text or
    None (its type is checked when it is set). *)
Definition rp_get_latex (s : rp) : res string :=
  match rattr s "latex" with
  | VSc (SStr t) => Ok t
  | VSc SNone => let* n := get_name s in texify_species n
  | _ => Err ERPAttr
  end.

(** plaschem/reactions.py L622-628: the texts of the species of one side with
    their coefficients, keyed by the text. *)
Fixpoint side_latex (r : reaction) (st : list (Z * Z)) (d : list (string * string))
  : res (list (string * string)) :=
  match st with
  | [] => Ok d
  | (i, n) :: st' =>
      let* s := reaction_get_rp r (KId i) in
      let* t := rp_get_latex s in
      side_latex r st'
        (if n =? 1 then sset t "" d
         else if 1 <? n then sset t (show_int n ++ " ")%string d else d)
  end.

(** plaschem/reactions.py L612-637 [Reaction.get_latex]. *)
Definition rx_get_latex (r : reaction) : res string :=
  match xattr r "latex" with
  | VSc (SStr t) => Ok t
  | VSc SNone =>
      let* dl := side_latex r (get_stoich_coefs Lhs r) [] in
      let* dr := side_latex r (get_stoich_coefs Rhs r) [] in
      let side d := str_join " + " (map (fun kv => (snd kv ++ fst kv)%string) d) in
      Ok (side dl ++ " \rightarrow " ++ side dr)%string
  | _ => Err EReactionAttr
  end.

(** ** Rate coefficients *)

Definition fabs (x : flt) : flt :=
  match x with Fin q => Fin (Qabs q) | NInf => PInf | _ => x end.

(** plaschem/latex.py L99-145 [texify_rate_coefficient].  A reaction without
    pre-exponential factor fails at the format of None (TypeError). *)
Definition texify_rate_coefficient (E : env) (si dfrac : bool) (r : reaction) : res string :=
  let* a := get_arrh_a E si r in
  match a with
  | None => Err EType
  | Some a =>
      let* ae := format_2E a in
      let m := rstrip_dot0 (fst ae) in
      let tex_a := if snd ae =? 0 then m
                   else (m ++ " \times 10^{" ++ show_int (snd ae) ++ "}")%string in
      let* b := get_arrh_bc E "arrh_b" r in
      let* tex_b :=
        match b with
        | None => Err EType
        | Some b =>
            if feqb b fzero then Ok ""%string
            else let x := rstrip_dot0 (show_rounded E b) in
                 let* el := is_electron_process r in
                 Ok (if el then (" T_\mathrm{e}^{" ++ x ++ "}")%string
                     else if dfrac then (" \left( \dfrac{\mathrm{T_g}}{300} \right)^{" ++ x ++ "}")%string
                     else (" \left( \mathrm{T_g}/300 \right)^{" ++ x ++ "}")%string)
        end in
      let* c := get_arrh_bc E "arrh_c" r in
      let* tex_c :=
        match c with
        | None => Err EType
        | Some c =>
            if feqb c fzero then Ok ""%string
            else let x := rstrip_dot0 (show_rounded E (fabs c)) in
                 let sign := if fltb fzero c then "-"%string else ""%string in
                 let* el := is_electron_process r in
                 let t := if el then "T_\mathrm{e}"%string else "\mathrm{T_g}"%string in
                 Ok (if dfrac then (" \exp \left( " ++ sign ++ "\dfrac{" ++ x ++ "}{" ++ t ++ "} \right)")%string
                     else (" \exp \left( " ++ sign ++ x ++ "/" ++ t ++ " \right)")%string)
        end in
      Ok (tex_a ++ tex_b ++ tex_c)%string
  end.

(** ** The table of reactions *)

Inductive column := ColId | ColReaction | ColRate | ColLoss | ColSource.

(** plaschem/latex.py L344-366: one cell of [ReactionsTable]. [str(None)] is
    'None'. *)
Definition cell (E : env) (c : column) (r : reaction) : res string :=
  match c with
  | ColId => Ok (show_int (r_id r))
  | ColReaction => let* t := rx_get_latex r in Ok ("$" ++ t ++ "$")%string
  | ColRate => let* t := texify_rate_coefficient E true false r in Ok ("$" ++ t ++ "$")%string
  | ColLoss => let* x := get_rx_float E "el_en_loss" r in
               Ok (if feqb x fzero then ""%string else rstrip_dot0 (show_rounded E x))
  | ColSource => Ok (match xattr r "doi" with VSc (SStr s) => s | _ => "None"%string end)
  end.

(** plaschem/latex.py L336-370 [ReactionsTable.__init__]: the frame is built
    column by column; [decorators] are the identity (L166). *)
Definition reactions_table (E : env) (cols : list column) (rs : list reaction) : res (list (list string)) :=
  let* by_col := mapM (fun c => mapM (cell E c) rs) cols in
  Ok (map (fun i => map (fun col => nth i col ""%string) by_col) (seq 0 (List.length rs))).

(** plaschem/latex.py L200-208 [_get_body_lines], without decorators. *)
Definition body_lines (rows : list (list string)) : list string :=
  map (fun row => (str_join " & " row ++ " \\")%string) rows.
