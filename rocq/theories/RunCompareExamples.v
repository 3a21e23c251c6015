(** Concrete comparisons of logged runs. *)
From Verif Require Import Base BaseLemmas Species Reactions Chemistry Morris MorrisStats MorrisRun Tables InitialGuess GlobalModel GlobalSpec
  Workspace RunCompare RunCompareSpec RunCompareProofs WorkspaceExamples.
Open Scope list_scope.
Open Scope string_scope.

(** Two species and the usual columns; the second run has one species more. *)
Definition sol (names : list string) (l : list (Q * (string -> Q))) : table :=
  MkTable ("t" :: names ++ ["e"; "Te"; "Tg"; "p"])
    (combine (map Z.of_nat (seq 0 (List.length l))) (map (fun x => fun c => if String.eqb c "t" then fst x else snd x c) l)).
Definition dens (a b e : Q) (c : string) : Q :=
  if String.eqb c "Ar" then a else if String.eqb c "Ar+" then b else if String.eqb c "e" then e else if String.eqb c "p" then 10 else if String.eqb c "Te" then 0 else 300.
Definition t1 : table := sol ["Ar"; "Ar+"] [(0, dens 100 1 1); (1, dens 80 2 2)].
Definition t2 : table := sol ["Ar"; "Ar+"; "O2"] [(0, dens 100 1 1); (2, dens 60 4 4)].

Definition tp2 (s : string) : path :=
  if String.eqb s "/x/res" then ["x"; "res"] else if String.eqb s "/y/res" then ["y"; "res"] else [s].
Definition fsC : gfs := MkGfs
  [[]; ["x"]; ["x"; "res"]; ["x"; "res"; "a"]; ["x"; "res"; "b"]; ["y"]; ["y"; "res"]; ["y"; "res"; "a"]]
  [(["x"; "res"; "a"; "solution.csv"], CTable t1); (["x"; "res"; "b"; "solution.csv"], CTable t2); (["y"; "res"; "a"; "solution.csv"], CTable t2);
   (["x"; "res"; "b"; "old.csv"], CTable (MkTable ["t"] []))].
Definition nomC : path := ["x"; "res"].

Section Cmp.
  Variable other_csv : content -> res table.
  Notation cmp := (compare cfg1 tp2 other_csv nomC).
  Notation ok := (readable cfg1 tp2 other_csv nomC fsC).

  Lemma readable_a : ok ["a"]. Proof. exists (MkIds "a" None None None), t1. split; [reflexivity|]. split; [reflexivity|discriminate]. Qed.
  Lemma readable_b : ok ["b"]. Proof. exists (MkIds "b" None None None), t2. split; [reflexivity|]. split; [reflexivity|discriminate]. Qed.
  Lemma readable_other : ok ["a"; "/y/res"]. Proof. exists (MkIds "a" None (Some "/y/res") None), t2. split; [reflexivity|]. split; [reflexivity|discriminate]. Qed.
  Lemma readable_all r : In r [["a"]; ["b"]; ["a"; "/y/res"]] -> ok r.
  Proof. intros [<-|[<-|[<-|[]]]]; [exact readable_a|exact readable_b|exact readable_other]. Qed.

  Lemma compared : exists f d, cmp [["a"]; ["b"]; ["a"; "/y/res"]] false fsC = (fsC, Ok f) /\ cmp [["a"]; ["b"]; ["a"; "/y/res"]] true fsC = (fsC, Ok d) /\
    cf_cols f = ["t"; "Ar"; "Ar+"; "e"; "Te"; "Tg"; "p"; "O2"] /\ map fst (cf_rows f) = ["...res/a"; "...res/b"; "...res/a"] /\
    map (fun r => map (fun x => match x with Fin q => Fin (Qred q) | y => y end) (snd r)) (cf_rows d) =
      [[Fin 0; Fin 0; Fin 0; Fin 0; NaN; Fin 0; Fin 0; NaN]; [Fin 100; Fin (-25); Fin 100; Fin 100; NaN; Fin 0; Fin 0; NaN]; [Fin 100; Fin (-25); Fin 100; Fin 100; NaN; Fin 0; Fin 0; NaN]].
  Proof. eexists _, _. split; [vm_compute; reflexivity|]. split; [vm_compute; reflexivity|]. split; [reflexivity|]. split; reflexivity. Qed.

  (** A run whose stored solution is empty, and one that is not there. *)
  Lemma unreadable_empty : unreadable cfg1 tp2 other_csv nomC fsC fsC ["b"; "old.csv"] EIndex.
  Proof. split; [reflexivity|]. right. exists (MkTable ["t"] []). now split. Qed.
  Lemma unreadable_missing : unreadable cfg1 tp2 other_csv nomC fsC fsC ["c"] EResultsNotFound.
  Proof. split; [reflexivity|]. now left. Qed.

  Lemma labels_clash : exists nominal s runs r r' f x, runs = [r; r'] /\ compare cfg1 tp2 other_csv nominal runs false s = (s, Ok f) /\ r <> r' /\
    found cfg1 tp2 other_csv nominal s s r (x, t1) /\ found cfg1 tp2 other_csv nominal s s r' (x, t2) /\ map fst (cf_rows f) = [x; x] /\ cf_rows f <> [].
  Proof.
    exists nomC, fsC, [["a"; "/x/res"]; ["a"; "/y/res"]], ["a"; "/x/res"], ["a"; "/y/res"].
    assert (C : exists f, cmp [["a"; "/x/res"]; ["a"; "/y/res"]] false fsC = (fsC, Ok f) /\ map fst (cf_rows f) = ["...res/a"; "...res/a"] /\ cf_rows f <> []).
    { eexists. split; [vm_compute; reflexivity|]. split; [reflexivity|discriminate]. }
    destruct C as (f & C & M & N). exists f, "...res/a". split; [reflexivity|]. split; [exact C|]. split; [discriminate|].
    assert (X : forall d t, In (d, t) [("/x/res", t1); ("/y/res", t2)] -> found cfg1 tp2 other_csv nomC fsC fsC ["a"; d] ("...res/a", t)).
    { intros d t I. exists fsC, fsC, (MkIds "a" None (Some d) None), "res". split; [apply grown_refl|]. split; [apply grown_refl|]. split; [apply grown_refl|].
      destruct I as [I|[I|[]]]; injection I as <- <-; (split; [reflexivity|]; split; [reflexivity|]; split; [|left; split; [cbn; lia|reflexivity]]); exact (base_name_ok _). }
    split; [apply X; now left|]. split; [apply X; right; now left|]. split; assumption.
  Qed.

  Lemma plot_example : exists cs, plot_solution cfg1 tp2 other_csv nomC "a" ["Te"; "Ar+"] None None None fsC = (fsC, Ok (cs, false)) /\
    map fst cs = ["Te"; "Ar+"] /\ map snd cs = [[(0, 0); (1, 0)]; [(0, 1); (1, 2)]]%Q.
  Proof. eexists. split; [vm_compute; reflexivity|]. split; reflexivity. Qed.
  Lemma electrons_missing : exists nominal s id t cs l names, fetch_solution cfg1 tp2 other_csv nominal id None None None s = (s, Ok t) /\
    tb_cols t = "t" :: names ++ ["e"; "Te"; "Tg"; "p"] /\ names <> [] /\
    plot_solution cfg1 tp2 other_csv nominal id [] None None None s = (s, Ok (cs, l)) /\ ~ In "e" (map fst cs).
  Proof.
    exists nomC, fsC, "a", t1. eexists _, _, ["Ar"; "Ar+"]. split; [reflexivity|]. split; [reflexivity|]. split; [discriminate|]. split; [reflexivity|].
    intros [X|[X|[]]]; discriminate.
  Qed.
End Cmp.
