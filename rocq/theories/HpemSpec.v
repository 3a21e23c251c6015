(** What an HPEM input file says, independently of how it is read. *)
From Verif Require Import Base Species Reactions MolSpec Xml XmlSpec.

(** ** Texts *)
Definition blank (s : string) : Prop := forall c, In c (chars s) -> is_space c = true.
(** [w] with white space around it. *)
Definition spaced (w s : string) : Prop := exists a b, blank a /\ blank b /\ s = (a ++ w ++ b)%string.

(** Characters with a meaning in the file. *)
Definition reserved : list ascii := [":"; ";"; "&"; "]"; "["; "@"; "!"; ">"]%char.
Definition free (s : string) : Prop := forall c, In c (chars s) -> ~ In c reserved.
(** A word: neither white space nor reserved characters. *)
Definition token (s : string) : Prop := s <> "" /\ free s /\ forall c, In c (chars s) -> is_space c = false.
(** A comment: without reserved characters and without white space around it. *)
Definition comment (s : string) : Prop := free s /\ str_strip s = s.
(** A species' name: a word without commas. *)
Definition name_token (s : string) : Prop := token s /\ ~ contains s ",".

(** ** The data of a species and of a reaction *)
Record sp_data : Type := MkSpData {
  d_name : string; d_charge : Z; d_mass : flt; d_stick : flt; d_flag : Z; d_rcoef : flt; d_rname : string; d_comment : string }.
Record rx_data : Type := MkRxData {
  d_lhs : list string; d_rhs : list string; d_a : flt; d_b : flt; d_c : flt; d_heat : flt; d_special : Z; d_rcomment : string }.

(** [name : charge ; mass & sticking \] flag \[ coefficient @ returned ! comment],
    with any white space. *)
Definition sp_text (E : env) (d : sp_data) (line : string) : Prop :=
  exists tq tm ts tf tc f1 f2 f3 f4 f5 f6 f7 f8,
    name_token (d_name d) /\ name_token (d_rname d) /\ comment (d_comment d) /\
    token tq /\ iparse E tq = Some (d_charge d) /\ token tm /\ fparse E tm = Some (d_mass d) /\
    token ts /\ fparse E ts = Some (d_stick d) /\ token tf /\ iparse E tf = Some (d_flag d) /\
    token tc /\ fparse E tc = Some (d_rcoef d) /\
    spaced (d_name d) f1 /\ spaced tq f2 /\ spaced tm f3 /\ spaced ts f4 /\ spaced tf f5 /\ spaced tc f6 /\
    spaced (d_rname d) f7 /\ spaced (d_comment d) f8 /\
    line = (f1 ++ ":" ++ f2 ++ ";" ++ f3 ++ "&" ++ f4 ++ "]" ++ f5 ++ "[" ++ f6 ++ "@" ++ f7 ++ "!" ++ f8)%string.

(** [reactants > products : a ; b & c \] heat \[ special ! comment]. *)
Definition rx_text (E : env) (d : rx_data) (line : string) : Prop :=
  exists ta tb tc th ts f1 f2 f3 f4 f5 f6 f7 f8,
    d_lhs d <> [] /\ d_rhs d <> [] /\ (forall n, In n (d_lhs d ++ d_rhs d) -> name_token n) /\ comment (d_rcomment d) /\
    token ta /\ fparse E ta = Some (d_a d) /\ token tb /\ fparse E tb = Some (d_b d) /\
    token tc /\ fparse E tc = Some (d_c d) /\ token th /\ fparse E th = Some (d_heat d) /\
    token ts /\ iparse E ts = Some (d_special d) /\
    spaced (str_join " + " (d_lhs d)) f1 /\ spaced (str_join " + " (d_rhs d)) f2 /\
    spaced ta f3 /\ spaced tb f4 /\ spaced tc f5 /\ spaced th f6 /\ spaced ts f7 /\ spaced (d_rcomment d) f8 /\
    line = (f1 ++ ">" ++ f2 ++ ":" ++ f3 ++ ";" ++ f4 ++ "&" ++ f5 ++ "]" ++ f6 ++ "[" ++ f7 ++ "!" ++ f8)%string.

(** Species, a line with an asterisk, reactions. *)
Definition dat_file (E : env) (sps : list sp_data) (rxs : list rx_data) (lines : list string) : Prop :=
  exists l1 star l2, lines = l1 ++ star :: l2 /\ spaced "*" star /\
    Forall2 (sp_text E) sps l1 /\ Forall2 (rx_text E) rxs l2.

(** ** What they mean *)

(** The electron is called E, a caret stands for a plus. *)
Definition renamed (n n' : string) : Prop :=
  (n = "E" /\ n' = "e") \/
  (n <> "E" /\ Forall2 (fun c c' => (c = "^"%char -> c' = "+"%char) /\ (c <> "^"%char -> c' = c)) (chars n) (chars n')).

(** [s] is the species with the data [d]; the returned species matters only
    if the sticking coefficient is not zero. *)
Definition sp_object (d : sp_data) (s : rp) : Prop :=
  exists uid n rn, renamed (d_name d) n /\ renamed (d_rname d) rn /\
    rp_init uid (VInt 999)
      ([("name", VStr n); ("charge", VInt (d_charge d)); ("mass", VFlt (d_mass d)); ("stick_coef", VFlt (d_stick d))] ++
       (if feqb (d_stick d) fzero then [] else [("ret_coefs", VDict [(rn, SFlt (d_rcoef d))])]) ++
       (if String.eqb (d_comment d) "" then [] else [("comments", VStr (d_comment d))]))
      [] [("charge", Some "e"); ("mass", Some "amu")] = Ok s.

(** [r] is the reaction with the data [d] between species of [sps]. *)
Definition rx_object (E : env) (sps : list rp) (d : rx_data) (r : reaction) : Prop :=
  exists lhs rhs ua uc,
    Forall2 (fun n s => In s sps /\ exists n', renamed n n' /\ get_name s = Ok n') (d_lhs d) lhs /\
    Forall2 (fun n s => In s sps /\ exists n', renamed n n' /\ get_name s = Ok n') (d_rhs d) rhs /\
    In (List.length lhs, ua) [(1%nat, "s-1"); (2%nat, "cm3.s-1"); (3%nat, "cm6.s-1")] /\
    ((uc = "eV" /\ exists s, In s lhs /\ get_name s = Ok "e") \/ (uc = "K" /\ forall s, In s lhs -> get_name s <> Ok "e")) /\
    reaction_init E (VInt 999) lhs rhs
      ([("arrh_a", VFlt (d_a d)); ("arrh_b", VFlt (d_b d)); ("arrh_c", VFlt (d_c d)); ("gas_heat_contrib", VFlt (d_heat d));
        ("special_number", VInt (d_special d))] ++
       (if String.eqb (d_rcomment d) "" then [] else [("comments", VStr (d_rcomment d))]))
      [] [("arrh_a", Some ua); ("arrh_c", Some uc); ("gas_heat_contrib", Some "eV")] = Ok r.

(** Reactions that are taken over. *)
Definition taken (skip : bool) (d : rx_data) : bool := negb skip || (d_special d =? 1) || (d_special d =? -1).
