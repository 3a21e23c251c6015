(** What is claimed about the data of single species and reactions: which
    values and units are accepted, and what is reported. *)
From Verif Require Import Base Species Reactions MolSpec.

(** ** Numbers *)

(** Python's [float] and [int] of the values that can be stored. *)
Definition as_float (E : env) (v : pyval) : res flt :=
  match v with
  | VSc (SInt z) => Ok (Fin (inject_Z z))
  | VSc (SFlt f) => Ok f
  | VSc (SNp f) => Ok f
  | VSc (SStr s) => match fparse E s with Some f => Ok f | None => Err EValue end
  | _ => Err EType
  end.
Definition as_int (E : env) (v : pyval) : res Z :=
  match v with
  | VSc (SInt z) => Ok z
  | VSc (SStr s) => match iparse E s with Some z => Ok z | None => Err EValue end
  | _ => Err EType
  end.
Definition as_text (v : pyval) : option string := match v with VSc (SStr s) => Some s | _ => None end.
(** A number, or [d] for None. *)
Definition float_or (E : env) (d : flt) (v : pyval) : res flt := match v with VSc SNone => Ok d | _ => as_float E v end.
Definition some {A} (r : res A) : res (option A) := match r with Ok x => Ok (Some x) | Err e => Err e end.

Inductive number : pyval -> Prop :=
| num_int z : number (VSc (SInt z)) | num_flt f : number (VSc (SFlt f)) | num_np f : number (VSc (SNp f)) | num_str s : number (VSc (SStr s)).
Inductive integer : pyval -> Prop := int_int z : integer (VSc (SInt z)) | int_str s : integer (VSc (SStr s)).

(** ** What was said last: [calls] in order, those refused have no effect. *)
Section Told.
  Variable accepts : string -> pyval -> option string -> Prop.
  Variables (start : string -> pyval) (units : string -> option string).
  Inductive told : list assignment -> string -> pyval -> option string -> Prop :=
  | told_start k : told [] k (start k) (units k)
  | told_now calls k v u : accepts k v u -> told (calls ++ [(k, v, u)]) k v u
  | told_before calls k v u k' v' u' : told calls k v u -> k' <> k \/ ~ accepts k' v' u' -> told (calls ++ [(k', v', u')]) k v u.
End Told.

Definition given (attributes more : list (string * pyval)) (k : string) : option pyval :=
  match sget k more with Some v => Some v | None => sget k attributes end.
Definition given_or_none attributes more (k : string) : pyval := match given attributes more k with Some v => v | None => VSc SNone end.
Definition unit_given (units : list (string * option string)) (k : string) : option string := match sget k units with Some u => u | None => None end.

(** ** Species *)

Inductive sp_value : string -> pyval -> Prop :=
| spv_none k : In k ["name"; "stateless"; "state"; "mass"; "charge"; "h_form"; "lj_epsilon"; "lj_sigma"; "hpem_name"; "qdb_id"; "stick_coef"; "ret_coefs"; "comments"; "latex"] ->
    sp_value k (VSc SNone)
| spv_number k v : In k ["mass"; "h_form"; "lj_epsilon"; "lj_sigma"; "stick_coef"] -> number v -> sp_value k v
| spv_integer k v : In k ["charge"; "qdb_id"] -> integer v -> sp_value k v
| spv_text k s : In k ["name"; "stateless"; "state"; "hpem_name"; "comments"; "latex"] -> sp_value k (VSc (SStr s))
| spv_table d : sp_value "ret_coefs" (VDict d).
Definition sp_units : list (string * string) := [("mass", "amu"); ("charge", "e"); ("h_form", "eV"); ("lj_epsilon", "K"); ("lj_sigma", "A")].
(** A unit is only looked at together with a value. *)
Definition sp_accepts (k : string) (v : pyval) (u : option string) : Prop :=
  sp_value k v /\ forall w, u = Some w -> v <> VSc SNone -> In (k, w) sp_units.

Definition sp_assign (r : rp) (a : assignment) : rp :=
  match a with (k, v, u) => match set_species_attribute r k v u with Ok r' => r' | Err _ => r end end.
Definition sp_assigns (r : rp) (l : list assignment) : rp := fold_left sp_assign l r.

(** The arguments of the constructor that are accepted. *)
Record sp_arguments (id : pyval) (attributes more : list (string * pyval)) (units : list (string * option string)) : Prop := {
  sa_id : exists z, id = VSc (SInt z) /\ 0 <= z;
  sa_name : exists n, given attributes more "name" = Some (VSc (SStr n)) /\ ~ In "<"%char (chars n) /\ ~ In ">"%char (chars n) /\
    (n <> "M" -> given attributes more "mass" <> None);
  sa_state : forall s, given attributes more "state" = Some (VSc (SStr s)) -> s <> "" -> given attributes more "stateless" <> None;
  sa_values : forall k v, given attributes more k = Some v -> sp_accepts k v (unit_given units k);
  sa_units : forall k, In k (map fst units) -> In k (map fst sp_units) /\ given attributes more k <> None
}.

(** What a species of which [val] and [unit] were said last reports. *)
Record sp_reports (E : env) (r : rp) (val : string -> pyval) (unit : string -> option string) : Prop := {
  sr_name : get_name r = match as_text (val "name") with Some n => Ok n | None => Err ERPAttr end;
  sr_data : forall n, as_text (val "name") = Some n ->
    (n = "M" -> get_mass E r = Ok None /\ get_charge E r = Ok None) /\
    (n <> "M" -> get_mass E r = (match val "mass" with VSc SNone => Err ERPAttr | v => some (as_float E v) end) /\
                 get_charge E r = (match val "charge" with VSc SNone => Ok (Some 0) | v => some (as_int E v) end)) /\
    (n = "M" \/ n = "e" -> get_h_form E r = Ok None /\ get_lj_epsilon E r = Ok None /\ get_lj_sigma E r = Ok None /\ get_state r = Ok None /\ get_stateless r = Ok n) /\
    (n <> "M" -> n <> "e" ->
       get_h_form E r = some (float_or E (Fin 0) (val "h_form")) /\
       get_lj_epsilon E r = some (float_or E (Fin 0) (val "lj_epsilon")) /\
       get_lj_sigma E r = some (float_or E (Fin 3) (val "lj_sigma")) /\
       get_state r = Ok (as_text (val "state")) /\
       get_stateless r = match as_text (val "stateless"), as_text (val "state") with
                         | Some s, _ => Ok s
                         | None, Some _ => Err ERPAttr
                         | None, None => Ok n
                         end);
  sr_hpem : get_hpem_name r = as_text (val "hpem_name");
  sr_comments : get_comments r = as_text (val "comments");
  sr_qdb : get_qdb_id E r = match val "qdb_id" with VSc SNone => Ok None | v => some (as_int E v) end;
  sr_unit : forall k w, In (k, w) sp_units -> rp_get_unit r k = Ok (match unit k with Some u => u | None => w end);
  sr_no_unit : forall k, ~ In k (map fst sp_units) -> rp_get_unit r k = Err ERPAttr
}.

(** ** Reactions *)

Inductive rx_value : string -> pyval -> Prop :=
| rxv_none k : In k ["arrh_a"; "arrh_b"; "arrh_c"; "elastic"; "el_en_loss"; "gas_heat_contrib"; "special_number"; "qdb_r_id"; "qdb_ds_id"; "doi"; "comments"; "latex"] ->
    rx_value k (VSc SNone)
| rxv_number k v : In k ["arrh_a"; "arrh_b"; "arrh_c"; "el_en_loss"; "gas_heat_contrib"] -> number v -> rx_value k v
| rxv_integer k v : In k ["special_number"; "qdb_r_id"; "qdb_ds_id"] -> integer v -> rx_value k v
| rxv_text k s : In k ["doi"; "comments"; "latex"] -> rx_value k (VSc (SStr s))
| rxv_bool b : rx_value "elastic" (VSc (SBool b))
| rxv_spelled s : In s ["true"; "True"; "TRUE"; "false"; "False"; "FALSE"] -> rx_value "elastic" (VSc (SStr s)).

(** [names] are those of the reactants. *)
Inductive rx_unit (names : list string) : string -> string -> Prop :=
| rxu_a u : prefactor_unit (List.length names) u -> rx_unit names "arrh_a" u
| rxu_ev : In "e" names -> rx_unit names "arrh_c" "eV"
| rxu_k : ~ In "e" names -> rx_unit names "arrh_c" "K"
| rxu_loss : rx_unit names "el_en_loss" "eV"
| rxu_heat : rx_unit names "gas_heat_contrib" "eV".
Definition not_negative (f : flt) : Prop := match f with Fin q => (0 <= q)%Q | NInf => False | _ => True end.
Definition rx_accepts (E : env) (names : list string) (k : string) (v : pyval) (u : option string) : Prop :=
  rx_value k v /\
  (v <> VSc SNone -> match u with Some w => rx_unit names k w | None => k <> "arrh_a" /\ k <> "arrh_c" end) /\
  (v <> VSc SNone -> k = "arrh_a" -> exists f, as_float E v = Ok f /\ not_negative f).

Record rx_arguments (E : env) (names : list string) (id : pyval) (lhs rhs : list rp) (attributes more : list (string * pyval)) (units : list (string * option string)) : Prop := {
  ra_id : exists z, id = VSc (SInt z) /\ 0 < z;
  ra_sides : (1 <= List.length lhs <= 3)%nat /\ rhs <> [];
  ra_law : given attributes more "arrh_a" <> None \/ given attributes more "special_number" <> None;
  ra_values : forall k v, given attributes more k = Some v -> rx_accepts E names k v (unit_given units k);
  ra_units : forall k, In k (map fst units) -> In k ["arrh_a"; "arrh_c"; "el_en_loss"; "gas_heat_contrib"] /\ given attributes more k <> None;
  ra_mandatory : forall k, In k ["arrh_a"; "arrh_c"] -> given attributes more k <> None -> In k (map fst units);
  ra_balanced : conserves E lhs rhs
}.

(** The pre-factor in SI units. *)
Definition in_si (x : res flt) (q : Q) : res (option flt) := match x with Ok f => Ok (Some (fmul f (Fin q))) | Err e => Err e end.
Record rx_reports (E : env) (r : reaction) (names : list string) (val : string -> pyval) (unit : string -> option string) : Prop := {
  xr_a : get_arrh_a E false r = match val "arrh_a" with VSc SNone => Ok None | v => some (as_float E v) end;
  xr_a_si : val "arrh_a" <> VSc SNone -> exists w q, unit "arrh_a" = Some w /\ si_value w q /\ get_arrh_a E true r = in_si (as_float E (val "arrh_a")) q;
  xr_a_none : val "arrh_a" = VSc SNone -> get_arrh_a E true r = Ok None;
  xr_bc : forall k, In k ["arrh_b"; "arrh_c"] -> get_arrh_bc E k r =
    match val k, val "arrh_a" with
    | VSc SNone, VSc SNone => Ok None
    | VSc SNone, _ => Ok (Some (Fin 0))
    | v, _ => some (as_float E v)
    end;
  xr_float : forall k, In k ["el_en_loss"; "gas_heat_contrib"] -> get_rx_float E k r = float_or E (Fin 0) (val k);
  xr_number : get_special_number E r =
    match val "special_number" with
    | VSc SNone => Ok (if in_dec string_dec "e" names then 10 else 20)
    | v => as_int E v
    end;
  xr_elastic : forall b, get_elastic r = Ok b ->
    match val "elastic" with
    | VSc (SBool b') => b = b'
    | VSc (SStr s) => b = true <-> In s ["true"; "True"; "TRUE"]
    | _ => exists ls rs, names_of (r_lhs r) = Ok ls /\ names_of (r_rhs r) = Ok rs /\ (b = true <-> incl ls rs /\ incl rs ls)
    end;
  xr_unit : forall k d, In (k, d) [("arrh_a", None); ("arrh_c", None); ("el_en_loss", Some "eV"); ("gas_heat_contrib", Some "eV")] ->
    rx_get_unit r k = Ok (match unit k with Some u => Some u | None => d end);
  xr_no_unit : forall k, ~ In k ["arrh_a"; "arrh_c"; "el_en_loss"; "gas_heat_contrib"] -> rx_get_unit r k = Err EReactionAttr
}.
