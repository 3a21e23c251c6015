(** Concrete parameters for C32, C33, C89 - C92. *)
From Verif Require Import Base BaseLemmas GlobalModel ModelParams ParamsSpec ParamsProofs ParamsMain ParamsRound.

Definition q (z : Z) : obj := OSc (SInt z).
(** The list at address 0 is kept by the caller. *)
Definition h1 : heap := fun a => if Nat.eqb a 0 then [SInt 0; SInt 500] else [].
Definition d1 : list (string * obj) := [
  ("r", OSc (SFlt (Fin (1 # 10)))); ("length", OSc (SNp (Fin (1 # 10)))); ("p", q 100); ("power", OList 0);
  ("t_P", OTuple [SInt (-1); SInt 2]); ("Tg", q 300); ("feeds", ODict [(SStr "Ar", SInt 100)])].
Definition kw1 : list (string * obj) := [("t_end", q 1); ("R", OSc (SFlt (Fin (1 # 5))))].

Definition m1 : params := match init h1 (SrcDict d1) kw1 with Ok m => m | Err _ => MkParams [] (MkPower None None) end.

Lemma m1_init : init h1 (SrcDict d1) kw1 = Ok m1.
Proof. vm_compute. reflexivity. Qed.

Lemma m1_values : getitem h1 m1 "radius" = Ok (GNum (SFlt (Fin (1 # 5)))) /\
  getitem h1 m1 "r" = Ok (GNum (SFlt (Fin (1 # 5)))) /\
  getitem h1 m1 "P" = Ok (GArray (Some [SInt 0; SInt 500])) /\
  keys m1 = ["radius"; "length"; "pressure"; "power"; "t_power"; "temp_gas"; "feeds"; "t_end"].
Proof. vm_compute. repeat split. Qed.

(** Every parameter once. *)
Definition d2 : list (string * obj) := [
  ("r", q 1); ("z", q 1); ("p", q 100); ("P", OTuple [SInt 500; SInt 500]);
  ("t_P", OTuple [SInt (-1); SInt 2]); ("Tg", q 300); ("feeds", ODict []); ("t_end", q 1)].
Lemma d2_once : no_repetition d2.
Proof.
  split; [repeat constructor; cbn; intuition discriminate|]. intros a b k A B MA MB.
  apply sget_means in MA, MB.
  cbn in A, B. repeat (destruct A as [<-|A]; [repeat (destruct B as [<-|B]; [first [reflexivity|vm_compute in MA, MB; congruence]|]); destruct B|]).
  destruct A.
Qed.
Lemma d2_accepted : exists m, init h1 (SrcDict d2) [] = Ok m.
Proof. eexists. vm_compute. reflexivity. Qed.

Definition without (k : string) (d : list (string * obj)) := filter (fun kv => negb (String.eqb (fst kv) k)) d.
Definition with_value (k : string) (v : obj) (d : list (string * obj)) := sset k v d.

Lemma d2_rejected :
  init h1 (SrcDict (without "Tg" d2)) [] = Err EModelParams /\
  init h1 (SrcDict (with_value "x" (q 1) d2)) [] = Err EModelParams /\
  init h1 (SrcDict (with_value "r" (q 0) d2)) [] = Err EModelParamsType /\
  init h1 (SrcDict (with_value "P" (OTuple [SInt 1]) d2)) [] = Err EModelParamsConsistency /\
  init h1 (SrcDict (with_value "P" (OTuple [SInt 1; SInt 1; SInt 1]) d2)) [] = Err EModelParamsConsistency /\
  init h1 (SrcDict (with_value "t_end" (q 2) d2)) [] = Err EModelParamsConsistency.
Proof. vm_compute. repeat split. Qed.

(** C89: the caller changes its own list; the instance now shows a negative
    power, which the constructor refuses. *)
Lemma caller_list : exists h d m l,
  init h (SrcDict d) [] = Ok m /\
  (forall o, In o l -> exists a x, o = PCallerList a x) /\
  getitem h m "power" = Ok (GArray (Some [SInt 0; SInt 500])) /\
  getitem (fst (run_ops (h, m) l)) (snd (run_ops (h, m) l)) "power" = Ok (GArray (Some [SInt (-5); SInt 500])) /\
  (forall d', ~ exists m', init h (SrcDict (("P", OTuple [SInt (-5); SInt 500]) :: d')) [] = Ok m').
Proof.
  exists h1, (supdate d1 kw1), m1, [PCallerList 0 [SInt (-5); SInt 500]].
  split; [vm_compute; reflexivity|]. split; [intros o [<-|[]]; eauto|].
  split; [vm_compute; reflexivity|]. split; [vm_compute; reflexivity|].
  intros d' (m' & H). destruct (accepted_valid _ _ _ _ H) as (d & TD & [P _] & _). inversion TD; subst.
  destruct (P "P" (OTuple [SInt (-5); SInt 500]) (or_introl eq_refl)) as (k & M & V).
  apply sget_means in M. vm_compute in M. inversion M; subst.
  destruct V as [[X _]|[(_ & l & E & _ & N)|[[X _]|[X _]]]]; try discriminate; [cbn in X; intuition discriminate|].
  apply elements_items in E. inversion E; subst. destruct (N (SInt (-5)) (or_introl eq_refl)) as (f & F & G).
  apply a_number_of in F. destruct F as [F _]. inversion F; subst. cbn in G. unfold Qle in G. cbn in G. lia.
Qed.

(** C90 *)
Lemma infinite_radius : exists h d m, init h (SrcDict d) [] = Ok m /\ getitem h m "radius" = Ok (GNum (SFlt PInf)).
Proof. exists h1, (with_value "r" (OSc (SFlt PInf)) d2). eexists. split; vm_compute; reflexivity. Qed.

(** C91 *)
Lemma from_instance : exists h d m, init h (SrcDict d) [] = Ok m /\ init h (SrcParams m) [] = Err EAttribute.
Proof. exists h1, d2. eexists. split; vm_compute; reflexivity. Qed.

(** C92: the radius given first is overridden by the one given last. *)
Lemma overridden : exists h d m,
  init h (SrcDict d) [] = Ok m /\
  exists a v, ~ shas a d = true /\ means a "radius" /\
    (exists o, In ("r", o) d) /\
    init h (SrcDict ((a, v) :: d)) [] = Err EModelParamsType.
Proof.
  exists h1, d2. eexists. split; [vm_compute; reflexivity|]. exists "radius", (q (-1)).
  split; [vm_compute; discriminate|]. split; [now apply mandatory_means; left|]. split; [eexists; now left|].
  vm_compute. reflexivity.
Qed.
