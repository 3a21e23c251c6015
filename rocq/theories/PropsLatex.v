(** Property theorems about LaTeX texts (C31, C113 - C116).  The vocabulary is
    that of LatexSpec.v. *)
From Coq Require Import Qabs.
From Verif Require Import Base BaseLemmas Species Reactions MolSpec MolExamples Latex LatexSpec LatexNum LatexRate LatexName
  LatexFormula LatexSet LatexReact LatexExamples.
Local Open Scope string_scope.

(** C31: the text of a rate coefficient is the factor, the power and the
    exponential; the factor is right to three digits, the exponent and the
    energy are right to two decimals exactly when they are no multiples of
    ten (up to that rounding).  A factor of zero is excluded. *)
Theorem C31_rate_partial E si dfrac r a b c el :
  get_arrh_a E si r = Ok (Some (Fin a)) -> get_arrh_bc E "arrh_b" r = Ok (Some (Fin b)) ->
  get_arrh_bc E "arrh_c" r = Ok (Some (Fin c)) -> is_electron_process r = Ok el ->
  ~ (a == 0)%Q -> (Qabs b <= inject_Z (10 ^ 12))%Q -> (Qabs c <= inject_Z (10 ^ 12))%Q ->
  exists ta tb tc,
    texify_rate_coefficient E si dfrac r = Ok (ta ++ tb ++ tc) /\
    scientific_text ta a /\
    ((b == 0)%Q /\ tb = "" \/
     ~ (b == 0)%Q /\ exists x, tb = power_text el dfrac x /\ (denotes_within (1 # 200) x b <-> ~ multiple_of_ten b)) /\
    ((c == 0)%Q /\ tc = "" \/
     ~ (c == 0)%Q /\ exists x, tc = exp_text el dfrac (if Qlt_le_dec 0 c then "-" else "") x /\
                     (denotes_within (1 # 200) x (Qabs c) <-> ~ multiple_of_ten (Qabs c))).
Proof. exact (rate_text E si dfrac r a b c el). Qed.

Theorem C31_loss_partial E r x : get_rx_float E "el_en_loss" r = Ok (Fin x) -> (Qabs x <= inject_Z (10 ^ 12))%Q ->
  ((x == 0)%Q -> cell E ColLoss r = Ok "") /\
  (~ (x == 0)%Q -> exists t, cell E ColLoss r = Ok t /\ (denotes_within (1 # 200) t x <-> ~ multiple_of_ten x)).
Proof. exact (loss_text E r x). Qed.

(** 300 is printed as 3. *)
Theorem C31_loss_refuted :
  exists r, rx_history E1 r /\ get_rx_float E1 "el_en_loss" r = Ok (Fin 300) /\ cell E1 ColLoss r = Ok "3".
Proof. exact loss_lost. Qed.
(** The power 10 is printed as 1, the energy 20 as 2. *)
Theorem C31_exponents_refuted : exists r, rx_history E1 r /\
  get_arrh_bc E1 "arrh_b" r = Ok (Some (Fin 10)) /\ get_arrh_bc E1 "arrh_c" r = Ok (Some (Fin 20)) /\
  texify_rate_coefficient E1 true false r = Ok "3 T_\mathrm{e}^{1} \exp \left( -2/T_\mathrm{e} \right)".
Proof. exact exponent_lost. Qed.
(** A small power is printed as nothing. *)
Theorem C31_small_exponent_refuted : exists r, rx_history E1 r /\
  get_arrh_bc E1 "arrh_b" r = Ok (Some (Fin (1 # 1000))) /\
  texify_rate_coefficient E1 true false r = Ok "3 \left( \mathrm{T_g}/300 \right)^{}".
Proof. exact small_exponent_lost. Qed.
(** A factor of zero is printed as nothing. *)
Theorem C31_zero_refuted : exists r, rx_history E1 r /\ get_arrh_a E1 true r = Ok (Some (Fin 0)) /\
  texify_rate_coefficient E1 true false r = Ok "".
Proof. exact zero_lost. Qed.

(** C113: the LaTeX of every formula built of elements, counts below 20 and
    up to three signs (or four stars), with or without a state. *)
Theorem C113_formula_partial f : formula_ok f -> texify_species (formula_text f) = Ok (formula_latex f).
Proof. exact (formula_texified f). Qed.
Theorem C113_state_partial f x : formula_ok f -> bracket_free (chars x) ->
  texify_species (formula_text f ++ "(" ++ x ++ ")") = Ok (formula_latex f ++ " (" ++ x ++ ")").
Proof. exact (formula_state_texified f x). Qed.
(** Larger counts are lowered only in their first digit, a fourth sign is not
    raised. *)
Theorem C113_large_count_refuted : texify_species "C60" = Ok "\mathrm{C}_60".
Proof. exact large_count. Qed.
Theorem C113_many_signs_refuted : texify_species "Ar++++" = Ok "\mathrm{Ar}^{3+}+".
Proof. exact many_signs. Qed.

(** C114: plain names, with or without a state, have a LaTeX text, and
    different names have different texts. *)
Theorem C114_total_partial n : stated n -> exists t, texify_species n = Ok t.
Proof. exact (texify_total n). Qed.
Theorem C114_injective_partial m n t : stated m -> stated n ->
  texify_species m = Ok t -> texify_species n = Ok t -> m = n.
Proof. exact (texify_inj m n t). Qed.
(** Which names have a text at all, and what happens to the others. *)
Theorem C114_accepted n t : texify_species n = Ok t ->
  bracket_free (chars n) \/ exists s x, n = s ++ "(" ++ x ++ ")" /\ bracket_free (chars s) /\ bracket_free (chars x).
Proof. exact (texify_ok_shape n t). Qed.
Theorem C114_rejected n e : texify_species n = Err e -> e = EAssertion.
Proof. exact (texify_error n e). Qed.
(** Names with LaTeX characters can coincide. *)
Theorem C114_clash_refuted : exists m n t, m <> n /\ texify_species m = Ok t /\ texify_species n = Ok t.
Proof. exact names_clash. Qed.
(** A formula with brackets inside has none. *)
Theorem C114_brackets_refuted : texify_species "CH(OH)3" = Err EAssertion.
Proof. exact not_texified. Qed.

(** C115: a reaction's text lists the species of each side once, with their
    numbers and in the order of their first appearance, provided different
    species of a side have different texts ... *)
Theorem C115_reaction_partial r tl tr :
  xattr r "latex" = VNone -> (exists ns, names_of (r_lhs r ++ r_rhs r)%list = Ok ns) ->
  (forall s, In s (r_lhs r ++ r_rhs r)%list -> exists x, rp_get_latex s = Ok x) ->
  (forall x y, In x (r_lhs r ++ r_rhs r)%list -> In y (r_lhs r ++ r_rhs r)%list ->
     rp_id x = rp_id y -> rp_get_latex x = rp_get_latex y) ->
  (forall x y, In x (r_lhs r) -> In y (r_lhs r) -> rp_get_latex x = rp_get_latex y -> rp_id x = rp_id y) ->
  (forall x y, In x (r_rhs r) -> In y (r_rhs r) -> rp_get_latex x = rp_get_latex y -> rp_id x = rp_id y) ->
  tally (r_lhs r) tl -> tally (r_rhs r) tr ->
  exists ls rs,
    Forall2 (term_text rp_get_latex) tl ls /\ Forall2 (term_text rp_get_latex) tr rs /\
    rx_get_latex r = Ok (String.concat " + " ls ++ " \rightarrow " ++ String.concat " + " rs).
Proof. exact (reaction_terms r tl tr). Qed.
(** ... which they have if they leave the LaTeX to the names. *)
Theorem C115_default_partial r tl tr :
  xattr r "latex" = VNone ->
  (forall s, In s (r_lhs r ++ r_rhs r)%list -> exists n, rattr s "latex" = VNone /\ get_name s = Ok n /\ stated n) ->
  (forall x y, In x (r_lhs r ++ r_rhs r)%list -> In y (r_lhs r ++ r_rhs r)%list ->
     rp_id x = rp_id y <-> get_name x = get_name y) ->
  tally (r_lhs r) tl -> tally (r_rhs r) tr ->
  exists ls rs,
    Forall2 (term_text rp_get_latex) tl ls /\ Forall2 (term_text rp_get_latex) tr rs /\
    rx_get_latex r = Ok (String.concat " + " ls ++ " \rightarrow " ++ String.concat " + " rs).
Proof. exact (reaction_default_terms r tl tr). Qed.
(** Every side has its tally. *)
Theorem C115_tally l : exists t, tally l t.
Proof. exact (tally_exists l). Qed.
(** Species with the same LaTeX are merged and their numbers lost: here 2 X +
    X on the left (three particles), X + 2 X on the right. *)
Theorem C115_merged_refuted : exists r, rx_history E1 r /\ xattr r "latex" = VNone /\
  List.length (r_lhs r) = 3%nat /\ List.length (r_rhs r) = 3%nat /\
  rx_get_latex r = Ok "X \rightarrow 2 X".
Proof. exact merged. Qed.

(** C116: the table has one row for each reaction, in their order, with the
    reaction's own cells in the order of the columns. *)
Theorem C116_rows E cols rs rows : reactions_table E cols rs = Ok rows ->
  List.length rows = List.length rs /\
  forall i r row, nth_error rs i = Some r -> nth_error rows i = Some row -> Forall2 (fun c t => cell E c r = Ok t) cols row.
Proof. exact (table_rows E cols rs rows). Qed.
(** What stands in the cells: the id, the reaction, its rate coefficient in SI
    units with slashes for fractions, the source. *)
Theorem C116_cells E r :
  (exists t, cell E ColId r = Ok t /\ denotes t (inject_Z (r_id r))) /\
  (forall t, cell E ColReaction r = Ok t <-> exists x, rx_get_latex r = Ok x /\ t = "$" ++ x ++ "$") /\
  (forall t, cell E ColRate r = Ok t <-> exists x, texify_rate_coefficient E true false r = Ok x /\ t = "$" ++ x ++ "$") /\
  (forall d, xattr r "doi" = VStr d -> cell E ColSource r = Ok d).
Proof. exact (cells_say E r). Qed.
Theorem C116_body rows i row : nth_error rows i = Some row ->
  nth_error (body_lines rows) i = Some (String.concat " & " row ++ " \\").
Proof. exact (body_rows rows i row). Qed.
(** One reaction whose cell cannot be written prevents the whole table ... *)
Theorem C116_all_or_nothing E cols rs c r e : In c cols -> In r rs -> cell E c r = Err e ->
  exists e', reactions_table E cols rs = Err e'.
Proof. exact (table_fails E cols rs c r e). Qed.
(** ... as do the special reactions without pre-exponential factor, and a
    factor that is not a number. *)
Theorem C116_special_refuted : exists r, rx_history E1 r /\ get_arrh_a E1 true r = Ok None /\ cell E1 ColRate r = Err EType.
Proof. exact none_rate. Qed.
Theorem C116_nan_refuted : exists r, rx_history E1 r /\ cell E1 ColRate r = Err EValue.
Proof. exact nan_rate. Qed.

(** All theorems of this file at once (one traversal instead of one per
    theorem). *)
Definition all_theorems := (
  @C31_rate_partial,
  @C31_loss_partial,
  @C31_loss_refuted,
  @C31_exponents_refuted,
  @C31_small_exponent_refuted,
  @C31_zero_refuted,
  @C113_formula_partial,
  @C113_state_partial,
  @C113_large_count_refuted,
  @C113_many_signs_refuted,
  @C114_total_partial,
  @C114_injective_partial,
  @C114_accepted,
  @C114_rejected,
  @C114_clash_refuted,
  @C114_brackets_refuted,
  @C115_reaction_partial,
  @C115_default_partial,
  @C115_tally,
  @C115_merged_refuted,
  @C116_rows,
  @C116_cells,
  @C116_body,
  @C116_all_or_nothing,
  @C116_special_refuted,
  @C116_nan_refuted).
Print Assumptions all_theorems.
