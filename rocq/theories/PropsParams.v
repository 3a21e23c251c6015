(** Property theorems about model parameters (C32, C33, C89 - C92); the
    vocabulary is that of ParamsSpec.v. [heap] holds the contents of the
    caller's list objects. *)
From Verif Require Import Base ModelParams ParamsSpec ParamsMain ParamsRound ParamsExamples.

(** C32: what is accepted is proper, complete and consistent, and the
    instance shows the values given last under every spelling. *)
Theorem C32_accepted_valid h src kw m :
  init h src kw = Ok m ->
  exists d, the_dict src = Some d /\ all_proper h (supdate d kw) /\ matching h (supdate d kw) /\
    forall k, In k mandatory ->
      exists o g, given_last (supdate d kw) k o /\ proper_value h k o /\ shows h k o g /\
        forall a, means a k -> getitem h m a = Ok g.
Proof. exact (accepted_valid h src kw m). Qed.

(** C32: nothing else is required as long as all power and time arrays have
    the same length. *)
Theorem C32_accepts h src kw d n :
  the_dict src = Some d -> all_proper h (supdate d kw) -> matching h (supdate d kw) ->
  (forall a o l, In (a, o) (supdate d kw) -> means a "power" \/ means a "t_power" -> elements h o l ->
     List.length l = n) ->
  exists m, init h src kw = Ok m.
Proof. exact (accepts h src kw d n). Qed.

(** C32: if no parameter is given under two spellings, exactly the proper and
    consistent dictionaries are accepted. *)
Theorem C32_exact h src kw d :
  the_dict src = Some d -> no_repetition (supdate d kw) ->
  ((exists m, init h src kw = Ok m) <-> all_proper h (supdate d kw) /\ matching h (supdate d kw)).
Proof. exact (accepted_iff h src kw d). Qed.

(** C32: a rejection is one of the three documented errors. *)
Theorem C32_rejections h src kw e :
  init h src kw = Err e -> (forall m, src <> SrcParams m) ->
  e = EModelParams \/ e = EModelParamsType \/ e = EModelParamsConsistency.
Proof. exact (rejects h src kw e). Qed.

Example C32_nonvacuous : exists m, init h1 (SrcDict d1) kw1 = Ok m /\
  getitem h1 m "r" = Ok (GNum (SFlt (Fin (1 # 5)))).
Proof. exact (ex_intro _ m1 (conj m1_init (proj1 (proj2 m1_values)))). Qed.
Example C32_exact_nonvacuous : no_repetition (supdate d2 []) /\ exists m, init h1 (SrcDict d2) [] = Ok m.
Proof. exact (conj d2_once d2_accepted). Qed.
Example C32_rejections_nonvacuous :
  init h1 (SrcDict (without "Tg" d2)) [] = Err EModelParams /\
  init h1 (SrcDict (with_value "x" (q 1) d2)) [] = Err EModelParams /\
  init h1 (SrcDict (with_value "r" (q 0) d2)) [] = Err EModelParamsType /\
  init h1 (SrcDict (with_value "P" (OTuple [SInt 1]) d2)) [] = Err EModelParamsConsistency /\
  init h1 (SrcDict (with_value "P" (OTuple [SInt 1; SInt 1; SInt 1]) d2)) [] = Err EModelParamsConsistency /\
  init h1 (SrcDict (with_value "t_end" (q 2) d2)) [] = Err EModelParamsConsistency.
Proof. exact d2_rejected. Qed.

(** C33: all spellings of a parameter read the same value; other keys raise. *)
Theorem C33_aliases h m a b k : means a k -> means b k -> getitem h m a = getitem h m b.
Proof. exact (same_spelling h m a b k). Qed.

Theorem C33_unknown_key h m a : (forall k, ~ means a k) -> getitem h m a = Err EModelParams.
Proof. exact (unknown_key h m a). Qed.

(** C33: an instance built from the items of an accepted one equals it. *)
Theorem C33_round_trip h src kw m :
  init h src kw = Ok m ->
  exists g, as_dict h m = Ok g /\
    forall h', exists m', init h' (SrcDict (again g)) [] = Ok m' /\ as_dict h' m' = Ok g.
Proof. exact (round_trip h src kw m). Qed.

(** C33: assignments and deletions raise TypeError, and no sequence of
    operations changes what the instance shows, unless the caller changes a
    list object it has passed as a parameter. *)
Theorem C33_assignment s o :
  (exists k v, o = PSetItem k v) \/ (exists k, o = PDelItem k) -> run_op s o = (s, Err EType).
Proof. exact (assignment s o). Qed.

Theorem C33_immutable h src kw m l :
  init h src kw = Ok m ->
  (forall a x, In (PCallerList a x) l -> forall d k, the_dict src = Some d -> ~ In (k, OList a) (supdate d kw)) ->
  forall k, getitem (fst (run_ops (h, m) l)) (snd (run_ops (h, m) l)) k = getitem h m k.
Proof. exact (immutable h src kw m l). Qed.

Example C33_nonvacuous :
  init h1 (SrcDict d1) kw1 = Ok m1 /\
  getitem h1 m1 "P" = Ok (GArray (Some [SInt 0; SInt 500])) /\
  keys m1 = ["radius"; "length"; "pressure"; "power"; "t_power"; "temp_gas"; "feeds"; "t_end"].
Proof. exact (conj m1_init (proj2 (proj2 m1_values))). Qed.

(** C89 is false: a list changed by the caller after the construction changes
    the instance, which may then show a power no constructor accepts. *)
Theorem C89_snapshot_refuted : exists h d m l,
  init h (SrcDict d) [] = Ok m /\
  (forall o, In o l -> exists a x, o = PCallerList a x) /\
  getitem h m "power" = Ok (GArray (Some [SInt 0; SInt 500])) /\
  getitem (fst (run_ops (h, m) l)) (snd (run_ops (h, m) l)) "power" = Ok (GArray (Some [SInt (-5); SInt 500])) /\
  (forall d', ~ exists m', init h (SrcDict (("P", OTuple [SInt (-5); SInt 500]) :: d')) [] = Ok m').
Proof. exact caller_list. Qed.

(** C90 is false: an infinite radius is accepted. *)
Theorem C90_finite_refuted : exists h d m,
  init h (SrcDict d) [] = Ok m /\ getitem h m "radius" = Ok (GNum (SFlt PInf)).
Proof. exact infinite_radius. Qed.

(** C91 is false: an accepted instance is no argument of the constructor. *)
Theorem C91_from_instance_refuted : exists h d m,
  init h (SrcDict d) [] = Ok m /\ init h (SrcParams m) [] = Err EAttribute.
Proof. exact from_instance. Qed.

(** C92 is false: a value overridden by a later spelling is still checked. *)
Theorem C92_overridden_refuted : exists h d m,
  init h (SrcDict d) [] = Ok m /\
  exists a v, ~ shas a d = true /\ means a "radius" /\ (exists o, In ("r", o) d) /\
    init h (SrcDict ((a, v) :: d)) [] = Err EModelParamsType.
Proof. exact overridden. Qed.

(** All theorems of this file at once (one traversal instead of one per
    theorem). *)
Definition all_theorems := (
  @C32_accepted_valid,
  @C32_accepts,
  @C32_exact,
  @C32_rejections,
  @C33_aliases,
  @C33_unknown_key,
  @C33_round_trip,
  @C33_assignment,
  @C33_immutable,
  @C89_snapshot_refuted,
  @C90_finite_refuted,
  @C91_from_instance_refuted,
  @C92_overridden_refuted).
Print Assumptions all_theorems.
