(** Names of species in figures. *)
From Verif Require Import Base BaseLemmas Species Reactions Chemistry Latex LatexName Morris MorrisStats Tables InitialGuess
  GlobalModel Reduction Compare CompareSpec.
Open Scope list_scope.

Lemma replace1 c new l : replace_l [c] new 0 l = flat_map (fun x => if Ascii.eqb c x then new else [x]) l.
Proof.
  induction l as [|x l IH]; [reflexivity|]. cbn [replace_l flat_map prefixb List.length pred]. rewrite IH.
  destruct (Ascii.eqb c x); reflexivity.
Qed.
Lemma flat_map_flat_map {A B C} (f : A -> list B) (g : B -> list C) l : flat_map g (flat_map f l) = flat_map (fun x => flat_map g (f x)) l.
Proof. induction l as [|x l IH]; [reflexivity|]. cbn [flat_map]. now rewrite flat_map_app, IH. Qed.

Definition single (p : string * string) : bool := match fst p with String _ EmptyString => true | _ => false end.
Lemma replace_all_flat ps : forallb single ps = true -> forall l, replace_all ps l = flat_map (fun x => replace_all ps [x]) l.
Proof.
  induction ps as [|[o n] ps IH]; intros H l.
  - cbn. induction l as [|x l IHl]; [reflexivity|]. cbn [flat_map app]. now rewrite <- IHl.
  - cbn [forallb] in H. apply andb_prop in H. destruct H as [S H]. unfold single in S. cbn [fst] in S.
    destruct o as [|c [|? ?]]; [discriminate| |discriminate].
    rewrite replace_all_cons. cbn [fst snd chars]. rewrite replace1, (IH H), flat_map_flat_map.
    apply flat_map_ext. intros x. rewrite replace_all_cons. cbn [fst snd chars]. rewrite replace1. cbn [flat_map]. rewrite app_nil_r.
    symmetry. apply (IH H).
Qed.

Lemma shown_char_ok c : replace_all pretty_pairs [c] = chars (shown_char c).
Proof. destruct c as [[] [] [] [] [] [] [] []]; reflexivity. Qed.

Lemma chars_concat l : chars (String.concat "" l) = flat_map chars l.
Proof.
  induction l as [|x l IH]; [reflexivity|]. destruct l as [|y l]; [cbn [String.concat flat_map]; now rewrite app_nil_r|].
  change (String.concat "" (x :: y :: l)) with (x ++ "" ++ String.concat "" (y :: l))%string.
  rewrite !chars_app, IH. reflexivity.
Qed.

Lemma prettify_ok a raw : caption a raw (prettify (pa_names a) raw).
Proof.
  unfold caption, prettify. destruct (sget raw (pa_names a)); [reflexivity|].
  rewrite replace_all_flat by reflexivity. unfold shown_text.
  assert (E : flat_map (fun x => replace_all pretty_pairs [x]) (chars raw) = chars (String.concat "" (map shown_char (chars raw)))).
  { rewrite chars_concat. induction (chars raw) as [|c l IH]; [reflexivity|]. cbn [map flat_map]. now rewrite shown_char_ok, IH. }
  rewrite E. apply str_of_chars.
Qed.
Lemma names_shown names raw : match sget raw names with
  | Some t => prettify names raw = t
  | None => prettify names raw = String.concat "" (map shown_char (chars raw))
  end.
Proof.
  pose proof (prettify_ok (MkPlot None None None false false false false None None names (0, 0)%Q) raw) as H.
  unfold caption in H. cbn [pa_names] in H. destruct (sget raw names); exact H.
Qed.
