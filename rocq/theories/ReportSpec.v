(** What is claimed about printed reports. *)
From Coq Require Import Reals.
From Verif Require Import Base Report.
Open Scope R_scope.

(** [print n u] prints the lines [l], whole or the first [n] of them, with dots
    below when lines are left out, in every unit that is supported. *)
Definition capped (print : option Z -> string -> res printed) (l : list (process * R)) : Prop :=
  (forall u, In u ["m-3/s"; "m-3.s-1"; "m-3s-1"]%string -> print None u = Ok (MkPrinted l false)) /\
  (forall u, In u ["cm-3/s"; "cm-3.s-1"; "cm-3s-1"]%string -> print None u = Ok (MkPrinted (map (fun kv => (fst kv, snd kv / 10 ^ 6)) l) false)) /\
  (forall n u, (0 <= n)%Z -> In u ["m-3/s"; "m-3.s-1"; "m-3s-1"]%string ->
     print (Some n) u = Ok (MkPrinted (firstn (Z.to_nat n) l) (Z.to_nat n <? List.length l)%nat)) /\
  (forall n u, (0 <= n)%Z -> In u ["cm-3/s"; "cm-3.s-1"; "cm-3s-1"]%string ->
     print (Some n) u = Ok (MkPrinted (map (fun kv => (fst kv, snd kv / 10 ^ 6)) (firstn (Z.to_nat n) l)) (Z.to_nat n <? List.length l)%nat)) /\
  (forall n u, ~ In u ["m-3/s"; "m-3.s-1"; "m-3s-1"; "cm-3/s"; "cm-3.s-1"; "cm-3s-1"]%string -> print n u = Err EKey).
