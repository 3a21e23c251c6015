(** Reading the nesting of a text has one result. *)
From Verif Require Import Base BaseLemmas TexTable TexSpec.

Lemma after_app p l r : after_prefix p l = Some r -> l = p ++ r.
Proof.
  revert l. induction p as [|a p IH]; intros l H; cbn in H; [now injection H as ->|]. destruct l as [|b l]; [discriminate|].
  destruct (Ascii.eqb_spec a b) as [->|]; [|discriminate]. cbn. f_equal. now apply IH.
Qed.
Lemma app_after p r : after_prefix p (p ++ r) = Some r.
Proof. induction p as [|a p IH]; [reflexivity|]. cbn. now rewrite Ascii.eqb_refl. Qed.

Ltac heads := repeat match goal with
  | H : after_prefix ?p ?l = Some ?r |- _ => apply after_app in H; cbn [chars app] in H; first [discriminate H | subst l | injection H; clear H; intros; subst]
  end.
Ltac clash := exfalso; match goal with
  | H : ~ In _ _ |- _ => apply H; cbn; now auto 8
  | H : forall p, In p _ -> after_prefix _ _ = None |- _ =>
      first [specialize (H "begingroup"%string ltac:(cbn; auto)); cbn in H; discriminate H
            |specialize (H "endgroup"%string ltac:(cbn; auto)); cbn in H; discriminate H
            |specialize (H "begin{"%string ltac:(cbn; auto)); cbn in H; discriminate H
            |specialize (H "end{"%string ltac:(cbn; auto)); cbn in H; discriminate H]
  end.
Lemma nested_det st l a : nested st l a -> forall b, nested st l b -> a = b.
Proof.
  induction 1; intros b H'; heads; inversion H'; subst; heads; cbn in *; try discriminate; try congruence;
    try (apply IHnested; congruence); try clash.
  all: repeat match goal with H : Some _ = Some _ |- _ => injection H as H; subst end.
  all: try (apply IHnested; congruence).
  all: try (match goal with H : env_name ?r = Some (?n, ?r1), K : env_name ?r = Some (?n2, ?r2) |- _ => rewrite H in K; injection K as <- <- end; apply IHnested; assumption).
  all: try (apply IHnested; assumption).
  all: try (exfalso; tauto).
  all: try (exfalso; match goal with H : forall p : string, _ -> after_prefix _ _ = None |- _ =>
      first [now (specialize (H "begingroup"%string ltac:(tauto)); cbn in H; discriminate H)
            |now (specialize (H "endgroup"%string ltac:(tauto)); cbn in H; discriminate H)
            |now (specialize (H "begin{"%string ltac:(tauto)); cbn in H; discriminate H)
            |now (specialize (H "end{"%string ltac:(tauto)); cbn in H; discriminate H)]
    end).
Qed.
