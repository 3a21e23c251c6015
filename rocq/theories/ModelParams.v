(** Model of pygmo_fwork/pygmol/model_parameters.py (class ModelParameters
    with its helpers TypeCheck, _ModelParametersFeeds and
    _ModelParametersPower).

    Simplifications: dictionary keys of the parameters are strings (any other
    key is unsupported just like an unknown string); numbers are int, float
    and numpy.float64 (numbers.Number also covers complex numbers, whose
    comparison with 0 raises TypeError: not modelled); a collection is a
    tuple, a list or a dictionary. *)
From Verif Require Import Base GlobalModel.

(** A value passed by the caller. A list is an object the caller may go on
    modifying: it is represented by its address, the contents are in the
    heap. [OOther] is a value that is no number, no string and has no
    [__iter__]. *)
Inductive obj : Type :=
| OSc (s : scalar)
| OTuple (l : list scalar)
| OList (a : nat)
| ODict (d : list (scalar * scalar))
| OOther.

Definition heap := nat -> list scalar.

(** L17-37 [TypeCheck.assert_is_number]. *)
Inductive sign := Positive | NonNegative | Any.
Definition number_of (s : scalar) : option flt :=
  match s with
  | SInt z => Some (Fin (inject_Z z))
  | SFlt f | SNp f => Some f
  | SBool _ | SNone | SStr _ => None
  end.
Definition assert_is_number (k : sign) (s : scalar) : res unit :=
  match number_of s with
  | None => Err EModelParamsType                                          (* L19-20, L24-25 *)
  | Some f =>
      if is_nan f then Err EModelParamsType                               (* L21-22 *)
      else match k with
           | Positive => raise_if (fleb f fzero) EModelParamsType         (* L27-29 *)
           | NonNegative => raise_if (fltb f fzero) EModelParamsType      (* L30-32 *)
           | Any => Ok tt
           end
  end.

(** L39-42 [assert_is_string]. *)
Definition assert_is_string (s : scalar) : res unit :=
  match s with SStr _ => Ok tt | _ => Err EModelParamsType end.

(** L49-56 [is_collection], [assert_is_collection]; iterating over a
    dictionary gives its keys. *)
Definition items (h : heap) (o : obj) : option (list scalar) :=
  match o with
  | OTuple l => Some l
  | OList a => Some (h a)
  | ODict d => Some (map fst d)
  | OSc _ | OOther => None
  end.
Definition assert_is_collection (h : heap) (o : obj) : res (list scalar) :=
  match items h o with Some l => Ok l | None => Err EModelParamsType end.

Fixpoint check_all {A} (f : A -> res unit) (l : list A) : res unit :=
  match l with
  | [] => Ok tt
  | x :: l' => let* _ := f x in check_all f l'
  end.

(** L63-73 [_ModelParametersFeeds.__init__]: the dictionary is copied. *)
Definition make_feeds (d : list (scalar * scalar)) : res (list (scalar * scalar)) :=
  let* _ := check_all (fun kv => let* _ := assert_is_string (fst kv) in assert_is_number Positive (snd kv)) d in
  Ok d.

(** L82-151 [_ModelParametersPower]: the two arrays are stored as passed,
    without a copy. *)
Record power : Type := MkPower { pw_power : option obj; pw_time : option obj }.

Definition size (h : heap) (o : obj) : nat :=
  match items h o with Some l => List.length l | None => 0 end.

(** Set one of the two arrays, L91-103 [set_power] and L114-126 [set_time]. *)
Definition check_array (h : heap) (k : sign) (other : option obj) (o : obj) (l : list scalar) : res unit :=
  let* _ := raise_if (Nat.ltb (List.length l) 2) EModelParamsConsistency in
  let* _ := check_all (assert_is_number k) l in
  match other with
  | Some o' => raise_if (negb (Nat.eqb (size h o') (List.length l))) EModelParamsConsistency
  | None => Ok tt
  end.
Definition set_power (h : heap) (p : power) (o : obj) (l : list scalar) : res power :=
  let* _ := check_array h NonNegative (pw_time p) o l in
  Ok (MkPower (Some o) (pw_time p)).
Definition set_time (h : heap) (p : power) (o : obj) (l : list scalar) : res power :=
  let* _ := check_array h Any (pw_power p) o l in
  Ok (MkPower (pw_power p) (Some o)).

(** L105-112, L128-135 [get_power], [get_time]: a new list. *)
Definition contents (h : heap) (o : option obj) : option (list scalar) :=
  match o with Some o => items h o | None => None end.

(** [a < b] for numbers *)
Definition num (s : scalar) : flt := match number_of s with Some f => f | None => NaN end.

(** L137-151 [assert_consistency]; both arrays are not empty. *)
Definition assert_power (h : heap) (p : power) (t_end : scalar) : res unit :=
  match contents h (pw_power p), contents h (pw_time p) with
  | Some _, Some ts =>
      match ts, rev ts with
      | t0 :: _, tn :: _ =>
          let* _ := raise_if (fltb fzero (num t0)) EModelParamsConsistency in               (* L148 *)
          raise_if (fltb (num tn) (fmul (Fin (11 # 10)) (num t_end))) EModelParamsConsistency (* L150 *)
      | _, _ => Err EIndex
      end
  | _, _ => Err EModelParamsConsistency                                                     (* L145 *)
  end.

(** L162-171 [nominal2alternative_map]. *)
Definition nominal2alternative : list (string * list string) := [
  ("radius", ["r"; "R"]);
  ("length", ["z"; "Z"]);
  ("pressure", ["p"]);
  ("power", ["P"]);
  ("t_power", ["t_P"; "time_P"; "time_power"]);
  ("temp_gas", ["Tg"; "T_g"; "gas_temp"]);
  ("feeds", ["feed_flows"]);
  ("t_end", ["time_end"; "end_time"])].

(** L172-177 [alternative2nominal_map]. *)
Definition alternative2nominal : list (string * string) :=
  fold_left (fun acc kv => supdate acc (map (fun a => (a, fst kv)) (snd kv)))
    nominal2alternative (map (fun kv => (fst kv, fst kv)) nominal2alternative).

(** The instance: the values of its dictionary [parameters]. 'power' and
    't_power' share one object, kept beside it. *)
Inductive pval : Type := PNum (s : scalar) | PPower | PFeeds (d : list (scalar * scalar)).
Record params : Type := MkParams { mp_dict : list (string * pval); mp_power : power }.

(** One turn of the loop L240-267. *)
Definition set_param (h : heap) (m : params) (kv : string * obj) : res params :=
  match sget (fst kv) alternative2nominal with
  | None => Err EKey
  | Some k =>
      let v := snd kv in
      if memS k ["radius"; "length"; "pressure"; "temp_gas"; "t_end"] then
        match v with
        | OSc s => let* _ := assert_is_number Positive s in
                   Ok (MkParams (sset k (PNum s) (mp_dict m)) (mp_power m))
        | _ => Err EModelParamsType
        end
      else if String.eqb k "power" then
        let* l := assert_is_collection h v in
        let* p := set_power h (mp_power m) v l in
        Ok (MkParams (sset k PPower (mp_dict m)) p)
      else if String.eqb k "t_power" then
        let* l := assert_is_collection h v in
        let* p := set_time h (mp_power m) v l in
        Ok (MkParams (sset k PPower (mp_dict m)) p)
      else if String.eqb k "feeds" then
        match v with
        | ODict d => let* f := make_feeds d in Ok (MkParams (sset k (PFeeds f) (mp_dict m)) (mp_power m))
        | _ => Err EModelParamsType
        end
      else Err EModelParams
  end.

Fixpoint set_params (h : heap) (m : params) (d : list (string * obj)) : res params :=
  match d with
  | [] => Ok m
  | kv :: d' => let* m' := set_param h m kv in set_params h m' d'
  end.

(** The dictionary argument: absent, a dictionary, or another ModelParameters
    instance (which has no method [copy]). *)
Inductive source : Type := SrcNone | SrcDict (d : list (string * obj)) | SrcParams (m : params).

(** L203-272 [ModelParameters.__init__]. *)
Definition init (h : heap) (src : source) (kwargs : list (string * obj)) : res params :=
  let* d := match src with
            | SrcNone => Ok []                                    (* L222-223 *)
            | SrcDict d => Ok d                                   (* L225 *)
            | SrcParams _ => Err EAttribute                       (* L225, no [copy] *)
            end in
  let all := supdate d kwargs in                                  (* L226 *)
  let* ks := mapM (fun kv => match sget (fst kv) alternative2nominal with
                             | Some k => Ok k
                             | None => Err EModelParams           (* L236 *)
                             end) all in
  let required := map fst nominal2alternative in
  let* _ := raise_if (negb (subsetS ks required)) EModelParams in (* L238-241 *)
  let* _ := raise_if (negb (subsetS required ks)) EModelParams in (* L242-245 *)
  let* m := set_params h (MkParams [] (MkPower None None)) all in
  match sget "power" (mp_dict m), sget "t_power" (mp_dict m), sget "t_end" (mp_dict m) with
  | Some PPower, Some PPower, Some (PNum t) => let* _ := assert_power h (mp_power m) t in Ok m  (* L269-272 *)
  | _, _, _ => Err EKey
  end.

(** What [mp[key]] returns. *)
Inductive gval : Type := GNum (s : scalar) | GArray (l : option (list scalar)) | GFeeds (d : list (scalar * scalar)).

(** L274-286 [__getitem__]. *)
Definition getitem (h : heap) (m : params) (key : string) : res gval :=
  match sget key alternative2nominal with
  | None => Err EModelParams
  | Some k =>
      if String.eqb k "feeds" then
        match sget k (mp_dict m) with
        | Some (PFeeds d) => Ok (GFeeds d)
        | _ => Err EKey
        end
      else if String.eqb k "power" then
        match sget k (mp_dict m) with Some PPower => Ok (GArray (contents h (pw_power (mp_power m)))) | _ => Err EKey end
      else if String.eqb k "t_power" then
        match sget k (mp_dict m) with Some PPower => Ok (GArray (contents h (pw_time (mp_power m)))) | _ => Err EKey end
      else match sget k (mp_dict m) with Some (PNum s) => Ok (GNum s) | _ => Err EKey end
  end.

(** L295-302: [keys], [__iter__], [__len__]. *)
Definition keys (m : params) : list string := map fst (mp_dict m).

(** [dict(mp)], as used by optichem/morris.py L401-427: the keys with what
    [__getitem__] returns for them. *)
Definition as_dict (h : heap) (m : params) : res (list (string * gval)) :=
  mapM (fun k => let* v := getitem h m k in Ok (k, v)) (keys m).

(** A value of [dict(mp)] used as an input again; the lists are new objects,
    known to nobody else, hence as good as tuples. *)
Definition as_obj (v : gval) : obj :=
  match v with
  | GNum s => OSc s
  | GArray (Some l) => OTuple l
  | GArray None => OSc SNone
  | GFeeds d => ODict d
  end.

(** Things a program can do with an accepted instance and its inputs:
    L179-183 [__setitem__] and [__delitem__] raise TypeError; a value returned
    by [mp[key]] is a number or a new object, changing it does not concern the
    instance; the caller may assign new contents to a list of its own. *)
Inductive pop : Type :=
| PSetItem (k : string) (v : obj)
| PDelItem (k : string)
| PChangeReturned (k : string)
| PCallerList (a : nat) (l : list scalar).

Definition run_op (s : heap * params) (o : pop) : heap * params * res unit :=
  match o with
  | PSetItem _ _ | PDelItem _ => (s, Err EType)
  | PChangeReturned k => (s, let* _ := getitem (fst s) (snd s) k in Ok tt)
  | PCallerList a l => ((fun b => if Nat.eqb a b then l else fst s b, snd s), Ok tt)
  end.
Definition run_ops (s : heap * params) (l : list pop) : heap * params :=
  fold_left (fun s o => fst (run_op s o)) l s.
