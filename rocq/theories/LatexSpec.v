(** What the LaTeX texts are supposed to say, independently of the code that
    builds them. *)
From Coq Require Import Qabs.
From Verif Require Import Base.

(** ** Decimal numerals *)

(** The value of a digit. *)
Definition digit_value (c : ascii) : option Z :=
  match c with
  | "0" => Some 0 | "1" => Some 1 | "2" => Some 2 | "3" => Some 3 | "4" => Some 4
  | "5" => Some 5 | "6" => Some 6 | "7" => Some 7 | "8" => Some 8 | "9" => Some 9
  | _ => None
  end%char.
(** The value of a row of digits, read behind a number [v]. *)
Fixpoint digits_value (v : Z) (l : list ascii) : option Z :=
  match l with
  | [] => Some v
  | c :: l' => match digit_value c with Some d => digits_value (10 * v + d) l' | None => None end
  end.
(** The text before and after the decimal point. *)
Fixpoint cut_point (l : list ascii) : list ascii * option (list ascii) :=
  match l with
  | [] => ([], None)
  | c :: l' => if Ascii.eqb c "." then ([], Some l')
               else let (i, f) := cut_point l' in (c :: i, f)
  end.
(** The number an unsigned decimal numeral (like [12] or [0.5]) stands for. *)
Definition unsigned_value (l : list ascii) : option Q :=
  match cut_point l with
  | (c :: i, None) => match digits_value 0 (c :: i) with Some v => Some (inject_Z v) | None => None end
  | (c :: i, Some (d :: f)) =>
      match digits_value 0 (c :: i), digits_value 0 (d :: f) with
      | Some v, Some w => Some (inject_Z v + inject_Z w / inject_Z (10 ^ Z.of_nat (List.length (d :: f))))%Q
      | _, _ => None
      end
  | _ => None
  end.
Definition numeral_value (s : string) : option Q :=
  match chars s with
  | "-"%char :: l => match unsigned_value l with Some q => Some (- q)%Q | None => None end
  | l => unsigned_value l
  end.
(** The text is a numeral and stands for [q]. *)
Definition denotes (s : string) (q : Q) : Prop := exists v, numeral_value s = Some v /\ (v == q)%Q.
(** The text is a numeral and stands for a number within [d] of [q]. *)
Definition denotes_within (d : Q) (s : string) (q : Q) : Prop :=
  exists v, numeral_value s = Some v /\ (Qabs (v - q) <= d)%Q.

(** The text of a number in scientific notation: a significand between 1 and
    10 with a power of ten (left out when it is the zeroth), together within
    half a unit of the third digit of [q]. *)
Definition scientific_text (s : string) (q : Q) : Prop :=
  exists m v e,
    numeral_value m = Some v /\ (1 <= Qabs v /\ Qabs v < 10)%Q /\
    (Qabs (v * Qpower 10 e - q) <= (1 # 200) * Qpower 10 e)%Q /\
    (e = 0 /\ s = m \/
     e <> 0 /\ exists z, denotes z (inject_Z e) /\ s = (m ++ " \times 10^{" ++ z ++ "}")%string).

(** ** Chemical formulas *)

(** The periodic table. *)
Definition elements : list string :=
  ["H"; "He";
   "Li"; "Be"; "B"; "C"; "N"; "O"; "F"; "Ne";
   "Na"; "Mg"; "Al"; "Si"; "P"; "S"; "Cl"; "Ar";
   "K"; "Ca"; "Sc"; "Ti"; "V"; "Cr"; "Mn"; "Fe"; "Co"; "Ni"; "Cu"; "Zn"; "Ga"; "Ge"; "As"; "Se"; "Br"; "Kr";
   "Rb"; "Sr"; "Y"; "Zr"; "Nb"; "Mo"; "Tc"; "Ru"; "Rh"; "Pd"; "Ag"; "Cd"; "In"; "Sn"; "Sb"; "Te"; "I"; "Xe";
   "Cs"; "Ba"; "La"; "Ce"; "Pr"; "Nd"; "Pm"; "Sm"; "Eu"; "Gd"; "Tb"; "Dy"; "Ho"; "Er"; "Tm"; "Yb"; "Lu";
   "Hf"; "Ta"; "W"; "Re"; "Os"; "Ir"; "Pt"; "Au"; "Hg"; "Tl"; "Pb"; "Bi"; "Po"; "At"; "Rn";
   "Fr"; "Ra"; "Ac"; "Th"; "Pa"; "U"; "Np"; "Pu"; "Am"; "Cm"; "Bk"; "Cf"; "Es"; "Fm"; "Md"; "No"; "Lr";
   "Rf"; "Db"; "Sg"; "Bh"; "Hs"; "Mt"; "Ds"; "Rg"; "Cn"; "Nh"; "Fl"; "Mc"; "Lv"; "Ts"; "Og"].

(** A charge or excitation mark: its plain text and its LaTeX. *)
Definition marks : list (string * string) :=
  [("", ""); ("+", "^+"); ("-", "^-"); ("++", "^{2+}"); ("--", "^{2-}"); ("+++", "^{3+}"); ("---", "^{3-}");
   ("*", "^*"); ("**", "^{**}"); ("***", "^{***}"); ("****", "^{****}")].

(** Counts that the LaTeX writes as subscripts: plain text and LaTeX. *)
Definition counts : list (string * string) :=
  [("1", "_1"); ("2", "_2"); ("3", "_3"); ("4", "_4"); ("5", "_5"); ("6", "_6"); ("7", "_7"); ("8", "_8"); ("9", "_9");
   ("10", "_{10}"); ("11", "_{11}"); ("12", "_{12}"); ("13", "_{13}"); ("14", "_{14}"); ("15", "_{15}");
   ("16", "_{16}"); ("17", "_{17}"); ("18", "_{18}"); ("19", "_{19}")].

(** A formula: runs of elements each followed by a count, a last run without
    count, a mark.  SiH4+ is one counted run; C2H5OH has two counted runs and
    the last run OH. *)
Record formula : Type := MkFormula {
  f_groups : list (list string * (string * string));
  f_tail : list string;
  f_mark : string * string
}.
Definition run_ok (l : list string) : Prop := l <> [] /\ forall x, In x l -> In x elements.
Definition formula_ok (f : formula) : Prop :=
  (forall g, In g (f_groups f) -> run_ok (fst g) /\ In (snd g) counts) /\
  (f_tail f = [] \/ run_ok (f_tail f)) /\
  (f_groups f <> [] \/ f_tail f <> []) /\
  In (f_mark f) marks.
Definition concat_text (l : list string) : string := String.concat "" l.
(** The plain name of the formula. *)
Definition formula_text (f : formula) : string :=
  (concat_text (map (fun g => concat_text (fst g) ++ fst (snd g)) (f_groups f)) ++
   concat_text (f_tail f) ++ fst (f_mark f))%string.
(** Its LaTeX: upright letters, lowered counts, raised mark. *)
Definition upright (l : list string) : string := ("\mathrm{" ++ concat_text l ++ "}")%string.
Definition formula_latex (f : formula) : string :=
  (String.concat " " (map (fun g => upright (fst g) ++ snd (snd g)) (f_groups f) ++
                      match f_tail f with [] => [] | t => [upright t] end) ++ snd (f_mark f))%string.

(** ** Reading a species text back *)

(** Characters with a meaning in LaTeX. *)
Definition tex_special (c : ascii) : bool := existsb (Ascii.eqb c) ["^"; "_"; "{"; "}"; "\"; " "]%char.
(** Names that use none of them, no bracket, and no doubled sign. *)
Fixpoint doubled_sign (l : list ascii) : bool :=
  match l with
  | c :: ((d :: _) as l') => (Ascii.eqb c d && (Ascii.eqb c "+" || Ascii.eqb c "-")) || doubled_sign l'
  | _ => false
  end.
Definition plain_name (s : string) : Prop :=
  (forall c, In c (chars s) -> tex_special c = false /\ c <> "("%char /\ c <> ")"%char) /\
  doubled_sign (chars s) = false.

Definition bracket_free (l : list ascii) : Prop := ~ In "("%char l /\ ~ In ")"%char l.
(** A name, plain or plain with a state in brackets. *)
Inductive stated : string -> Prop :=
| stated_none s : plain_name s -> stated s
| stated_some s x : plain_name s -> bracket_free (chars x) -> stated (s ++ "(" ++ x ++ ")").

(** ** Rate coefficients *)

(** A temperature raised to the power [x]: the electron temperature, or the
    gas temperature in units of 300 K, as a fraction or with a slash. *)
Local Open Scope string_scope.
Definition power_text (electron dfrac : bool) (x : string) : string :=
  match electron, dfrac with
  | true, _ => " T_\mathrm{e}^{" ++ x ++ "}"
  | false, true => " \left( \dfrac{\mathrm{T_g}}{300} \right)^{" ++ x ++ "}"
  | false, false => " \left( \mathrm{T_g}/300 \right)^{" ++ x ++ "}"
  end.
(** The exponential of [sign x] over a temperature. *)
Definition exp_text (electron dfrac : bool) (sign x : string) : string :=
  match electron, dfrac with
  | true, true => " \exp \left( " ++ sign ++ "\dfrac{" ++ x ++ "}{T_\mathrm{e}} \right)"
  | true, false => " \exp \left( " ++ sign ++ x ++ "/T_\mathrm{e} \right)"
  | false, true => " \exp \left( " ++ sign ++ "\dfrac{" ++ x ++ "}{\mathrm{T_g}} \right)"
  | false, false => " \exp \left( " ++ sign ++ x ++ "/\mathrm{T_g} \right)"
  end.
(** The number is, up to the rounding to two decimals, a multiple of ten. *)
Definition multiple_of_ten (q : Q) : Prop := exists k, (Qabs (inject_Z (10 * k) - q) <= 1 # 200)%Q.

(** ** Reactions *)
From Verif Require Import Species Reactions.
Local Open Scope Z_scope.

(** The species of a side, each once with its number of occurrences (by id),
    in the order in which they appear first. *)
Inductive tally : list rp -> list (rp * Z) -> Prop :=
| tally_nil : tally [] []
| tally_cons s l n rest :
    n = 1 + Z.of_nat (List.length (filter (fun x => rp_id x =? rp_id s) l)) ->
    tally (filter (fun x => negb (rp_id x =? rp_id s)) l) rest ->
    tally (s :: l) ((s, n) :: rest).
(** The text of one species of a side: its LaTeX behind its number (left out
    when it is one). *)
Definition term_text (latex : rp -> res string) (p : rp * Z) (s : string) : Prop :=
  exists x, latex (fst p) = Ok x /\
    (snd p = 1 /\ s = x \/
     snd p <> 1 /\ exists z, denotes z (inject_Z (snd p)) /\ s = (z ++ " " ++ x)%string).
