(** What the properties about model parameters (C32, C33, C89 - C93) say,
    independently of ModelParams.v. *)
From Verif Require Import Base ModelParams.

(** Every accepted spelling of a parameter name, with its nominal name. *)
Definition spellings : list (string * string) := [
  ("radius", "radius"); ("length", "length"); ("pressure", "pressure"); ("power", "power");
  ("t_power", "t_power"); ("temp_gas", "temp_gas"); ("feeds", "feeds"); ("t_end", "t_end");
  ("r", "radius"); ("R", "radius");
  ("z", "length"); ("Z", "length");
  ("p", "pressure");
  ("P", "power");
  ("t_P", "t_power"); ("time_P", "t_power"); ("time_power", "t_power");
  ("Tg", "temp_gas"); ("T_g", "temp_gas"); ("gas_temp", "temp_gas");
  ("feed_flows", "feeds");
  ("time_end", "t_end"); ("end_time", "t_end")].
Definition means (a k : string) : Prop := In (a, k) spellings.

Definition numeric : list string := ["radius"; "length"; "pressure"; "temp_gas"; "t_end"].
Definition mandatory : list string :=
  ["radius"; "length"; "pressure"; "power"; "t_power"; "temp_gas"; "feeds"; "t_end"].

(** [s] is a number (no bool, no NaN) with value [f]. *)
Definition a_number (s : scalar) (f : flt) : Prop :=
  f <> NaN /\ ((exists z, s = SInt z /\ f = Fin (inject_Z z)) \/ s = SFlt f \/ s = SNp f).
Definition above_zero (f : flt) : Prop :=
  match f with Fin q => 0 < q | PInf => True | _ => False end%Q.
Definition not_below_zero (f : flt) : Prop :=
  match f with Fin q => 0 <= q | PInf => True | _ => False end%Q.

(** The elements of a collection. *)
Definition elements (h : heap) (o : obj) (l : list scalar) : Prop :=
  o = OTuple l \/ (exists a, o = OList a /\ l = h a) \/ (exists d, o = ODict d /\ l = map fst d).

Definition array_of (P : flt -> Prop) (h : heap) (o : obj) (l : list scalar) : Prop :=
  elements h o l /\ (2 <= List.length l)%nat /\ forall s, In s l -> exists f, a_number s f /\ P f.

(** [o] is a proper value of the parameter [k]. *)
Definition proper_value (h : heap) (k : string) (o : obj) : Prop :=
  (In k numeric /\ exists s f, o = OSc s /\ a_number s f /\ above_zero f) \/
  (k = "power" /\ exists l, array_of not_below_zero h o l) \/
  (k = "t_power" /\ exists l, array_of (fun _ => True) h o l) \/
  (k = "feeds" /\ exists d, o = ODict d /\
     forall n s, In (n, s) d -> (exists x, n = SStr x) /\ exists f, a_number s f /\ above_zero f).

(** [o] is the value given last for the parameter [k]. *)
Definition given_last (d : list (string * obj)) (k : string) (o : obj) : Prop :=
  exists a pre post, d = pre ++ (a, o) :: post /\ means a k /\
    forall b x, In (b, x) post -> ~ means b k.

(** What the instance shows for a value [o] given for the parameter [k]. *)
Definition shows (h : heap) (k : string) (o : obj) (g : gval) : Prop :=
  (In k numeric /\ exists s, o = OSc s /\ g = GNum s) \/
  ((k = "power" \/ k = "t_power") /\ exists l, elements h o l /\ g = GArray (Some l)) \/
  (k = "feeds" /\ exists d, o = ODict d /\ g = GFeeds d).

Definition at_most (f g : flt) : Prop :=
  match f, g with
  | Fin a, Fin b => (a <= b)%Q
  | NInf, NInf | NInf, Fin _ | NInf, PInf | Fin _, PInf | PInf, PInf => True
  | _, _ => False
  end.

(** The time points [ts] start at or before 0 and reach at least 10 % beyond
    the end of the simulation. *)
Definition covers (ts : list scalar) (t_end : scalar) : Prop :=
  exists t0 tn te, a_number (hd SNone ts) t0 /\ a_number (last ts SNone) tn /\ a_number t_end te /\
    at_most t0 (Fin 0) /\
    at_most match te with Fin q => Fin ((11 # 10) * q) | x => x end tn.

(** All conditions on the dictionary [d] of parameters. *)
Definition all_proper (h : heap) (d : list (string * obj)) : Prop :=
  (forall a o, In (a, o) d -> exists k, means a k /\ proper_value h k o) /\
  (forall k, In k mandatory -> exists a o, In (a, o) d /\ means a k).
Definition matching (h : heap) (d : list (string * obj)) : Prop :=
  forall op ot oe lp lt, given_last d "power" op -> given_last d "t_power" ot -> given_last d "t_end" (OSc oe) ->
    elements h op lp -> elements h ot lt -> List.length lp = List.length lt /\ covers lt oe.

(** No parameter is given under two spellings. *)
Definition no_repetition (d : list (string * obj)) : Prop :=
  NoDup (map fst d) /\ forall a b k, In a (map fst d) -> In b (map fst d) -> means a k -> means b k -> a = b.

(** The dictionary passed as first argument. *)
Definition the_dict (src : source) : option (list (string * obj)) :=
  match src with SrcNone => Some [] | SrcDict d => Some d | SrcParams _ => None end.

(** What [dict(mp)] shows, as an argument of the constructor. *)
Definition again (g : list (string * gval)) : list (string * obj) := map (fun kv => (fst kv, as_obj (snd kv))) g.
