(** Property theorems about comparisons and plots of logged runs (C164 - C167);
    the vocabulary is that of RunCompareSpec.v. *)
From Verif Require Import Base Species Reactions Chemistry Morris MorrisStats MorrisRun Tables InitialGuess GlobalModel GlobalSpec Workspace
  RunCompare RunCompareSpec RunCompareProofs WorkspaceExamples RunCompareExamples.
Open Scope list_scope.

(** C164: a comparison leaves the files as they are. It has one row per run, in
    the order given, with the run's label and the final values of its solution;
    what a run does not have is NaN. *)
Theorem C164_compare cfg to_path other_csv nominal runs s s' f : compare cfg to_path other_csv nominal runs false s = (s', Ok f) ->
  grown s s' /\ exists ts, Forall2 (found cfg to_path other_csv nominal s s') runs ts /\
    ((forall lt, In lt ts -> NoDup (tb_cols (snd lt))) -> frame_of ts f).
Proof. exact (compare_ok cfg to_path other_csv nominal runs s s' f). Qed.

(** C164: a relative comparison has the rows and columns of the absolute one,
    every value as the difference to the first run in percent. *)
Theorem C164_relative cfg to_path other_csv nominal runs s s' d : compare cfg to_path other_csv nominal runs true s = (s', Ok d) ->
  exists f r0 rows, compare cfg to_path other_csv nominal runs false s = (s', Ok f) /\ cf_rows f = r0 :: rows /\ cf_cols d = cf_cols f /\
    Forall2 (fun r r' => fst r' = fst r /\ List.length (snd r') = List.length (snd r) /\
      forall i x0 x, nth_error (snd r0) i = Some x0 -> nth_error (snd r) i = Some x -> exists y, nth_error (snd r') i = Some y /\ percent_of x0 x y)
      (cf_rows f) (cf_rows d).
Proof. exact (relative_ok cfg to_path other_csv nominal runs s s' d). Qed.

(** C164: nothing can be compared, but not relatively. *)
Theorem C164_nothing cfg to_path other_csv nominal s : compare cfg to_path other_csv nominal [] true s = (s, Err EIndex) /\
  compare cfg to_path other_csv nominal [] false s = (s, Ok (MkCf [] [])).
Proof. exact (relative_nothing cfg to_path other_csv nominal s). Qed.

(** C164: the comparison succeeds if every run can be read, ... *)
Theorem C164_succeeds cfg to_path other_csv nominal s runs b :
  (forall r, In r runs -> readable cfg to_path other_csv nominal s r) -> (b = true -> runs <> []) ->
  exists f, compare cfg to_path other_csv nominal runs b s = (s, Ok f).
Proof. exact (succeeds cfg to_path other_csv nominal s runs b). Qed.

(** C164: ... and otherwise raises what reading the first other run raises. *)
Theorem C164_raises cfg to_path other_csv nominal s s' before run later e b :
  (forall r, In r before -> readable cfg to_path other_csv nominal s r) -> unreadable cfg to_path other_csv nominal s s' run e ->
  compare cfg to_path other_csv nominal (before ++ run :: later) b s = (s', Err e).
Proof. exact (raises cfg to_path other_csv nominal s s' before run later e b). Qed.

Example C164_case other_csv : (forall r, In r [["a"]; ["b"]; ["a"; "/y/res"]]%string -> readable cfg1 tp2 other_csv nomC fsC r) /\
  unreadable cfg1 tp2 other_csv nomC fsC fsC ["b"; "old.csv"]%string EIndex /\ unreadable cfg1 tp2 other_csv nomC fsC fsC ["c"]%string EResultsNotFound /\
  exists f d, compare cfg1 tp2 other_csv nomC [["a"]; ["b"]; ["a"; "/y/res"]]%string false fsC = (fsC, Ok f) /\
    compare cfg1 tp2 other_csv nomC [["a"]; ["b"]; ["a"; "/y/res"]]%string true fsC = (fsC, Ok d) /\
    cf_cols f = ["t"; "Ar"; "Ar+"; "e"; "Te"; "Tg"; "p"; "O2"]%string /\ map fst (cf_rows f) = ["...res/a"; "...res/b"; "...res/a"]%string /\
    map (fun r => map (fun x => match x with Fin q => Fin (Qred q) | y => y end) (snd r)) (cf_rows d) =
      [[Fin 0; Fin 0; Fin 0; Fin 0; NaN; Fin 0; Fin 0; NaN]; [Fin 100; Fin (-25); Fin 100; Fin 100; NaN; Fin 0; Fin 0; NaN];
       [Fin 100; Fin (-25); Fin 100; Fin 100; NaN; Fin 0; Fin 0; NaN]].
Proof. exact (conj (readable_all other_csv) (conj (unreadable_empty other_csv) (conj (unreadable_missing other_csv) (compared other_csv)))). Qed.

(** C165: of two runs of one directory, one of which has a short name, each
    has its own label. *)
Theorem C165_labels_partial p id id' l : labelled p id l -> labelled p id' l -> (String.length p + String.length id <= 36)%nat -> id = id'.
Proof. exact (labels_differ p id id' l). Qed.

(** C165: but different runs of different directories can have the same one,
    here with different solutions. *)
Theorem C165_labels_refuted other_csv : exists nominal s runs r r' f x, runs = [r; r'] /\ compare cfg1 tp2 other_csv nominal runs false s = (s, Ok f) /\ r <> r' /\
  found cfg1 tp2 other_csv nominal s s r (x, t1) /\ found cfg1 tp2 other_csv nominal s s r' (x, t2) /\ map fst (cf_rows f) = [x; x] /\ cf_rows f <> [].
Proof. exact (labels_clash other_csv). Qed.

(** C166: the named columns of the solution are plotted against the time, in the
    order given; the axis is labelled for densities alone if no temperature or
    pressure is among them. A column that the solution does not have is refused. *)
Theorem C166_named cfg to_path other_csv nominal id ps b d n s s' t : ps <> [] ->
  fetch_solution cfg to_path other_csv nominal id b d n s = (s', Ok t) -> In "t"%string (tb_cols t) ->
  (incl ps (tb_cols t) -> exists dens, plot_solution cfg to_path other_csv nominal id ps b d n s = (s', Ok (map (fun p => (p, points_in_time t p)) ps, dens)) /\
     (dens = true <-> forall x, In x ["p"; "Te"; "Tg"]%string -> ~ In x ps)) /\
  (~ incl ps (tb_cols t) -> plot_solution cfg to_path other_csv nominal id ps b d n s = (s', Err EKey)).
Proof. exact (plot_named cfg to_path other_csv nominal id ps b d n s s' t). Qed.

(** C166: by default exactly the densities of the heavy species are plotted. *)
Theorem C166_default cfg to_path other_csv nominal id b d n s s' t names : fetch_solution cfg to_path other_csv nominal id b d n s = (s', Ok t) ->
  tb_cols t = ("t" :: names ++ ["e"; "Te"; "Tg"; "p"])%string ->
  exists dens, plot_solution cfg to_path other_csv nominal id [] b d n s = (s', Ok (map (fun p => (p, points_in_time t p)) names, dens)).
Proof. exact (plot_default cfg to_path other_csv nominal id b d n s s' t names). Qed.

(** C166: a run that cannot be read cannot be plotted. *)
Theorem C166_unread cfg to_path other_csv nominal id ps b d n s s' e : fetch_solution cfg to_path other_csv nominal id b d n s = (s', Err e) ->
  plot_solution cfg to_path other_csv nominal id ps b d n s = (s', Err e).
Proof. exact (plot_unread cfg to_path other_csv nominal id ps b d n s s' e). Qed.

Example C166_case other_csv : exists cs, plot_solution cfg1 tp2 other_csv nomC "a" ["Te"; "Ar+"]%string None None None fsC = (fsC, Ok (cs, false)) /\
  map fst cs = ["Te"; "Ar+"]%string /\ map snd cs = [[(0, 0); (1, 0)]; [(0, 1); (1, 2)]]%Q.
Proof. exact (plot_example other_csv). Qed.

(** C167: not all densities are: that of the electrons is left out. *)
Theorem C167_electrons_refuted other_csv : exists nominal s id t cs l names, fetch_solution cfg1 tp2 other_csv nominal id None None None s = (s, Ok t) /\
  tb_cols t = ("t" :: names ++ ["e"; "Te"; "Tg"; "p"])%string /\ names <> [] /\
  plot_solution cfg1 tp2 other_csv nominal id [] None None None s = (s, Ok (cs, l)) /\ ~ In "e"%string (map fst cs).
Proof. exact (electrons_missing other_csv). Qed.

(** All theorems of this file at once (one traversal instead of one per
    theorem). *)
Definition all_theorems := (
  @C164_compare,
  @C164_relative,
  @C164_nothing,
  @C164_succeeds,
  @C164_raises,
  @C165_labels_partial,
  @C165_labels_refuted,
  @C166_named,
  @C166_default,
  @C166_unread,
  @C167_electrons_refuted).
Print Assumptions all_theorems.
