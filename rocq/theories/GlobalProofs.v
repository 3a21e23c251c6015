(** Histories of a global model: files, crashes and what is served. *)
From Coq Require Import Permutation.
From Verif Require Import Base BaseLemmas Species Reactions Chemistry MorrisStats Tables InitialGuess GlobalModel GlobalSpec GlobalFiles GlobalLog.
Open Scope list_scope.

(** A step that does not write a non-empty solver log. *)
Definition quiet (p : path) (a : action) : Prop :=
  forall s, (exists e, a s = (s, Err e)) \/ exists n c, (n <> "solver_log.yaml"%string \/ c = CEmpty) /\ a s = put (p ++ [n]) c s.

Section G.
  Variables (E : env) (fhash : string -> option string) (default_dir : string -> res path) (scan : list path -> list path).

  (** The log files but the last step. *)
  Lemma log_files_split m te i p d : exists l a, log_files E fhash m te i p d = l ++ [a] /\ (forall a, In a l -> quiet p a).
  Proof using.
    exists (removelast (log_files E fhash m te i p d)), (last (log_files E fhash m te i p d) (fun s => (s, Ok tt))).
    split; [reflexivity|].
    intros a I. cbn in I.
    repeat match type of I with _ \/ _ => destruct I as [I|I] | False => destruct I end; subst a; intros s; cbv beta;
      match goal with
      | |- context [match ?r with Ok _ => put _ _ _ | Err _ => _ end] =>
          destruct r as [x|e]; [right; eexists _, _; split; [|reflexivity]; left; discriminate|left; exists e; reflexivity]
      | _ => right; eexists _, _; split; [|reflexivity]; first [left; discriminate|now right]
      end.
  Qed.

  (** Outside the level of [p] no file changes, and [p] has no written solver
      log. *)
  Definition silent (p : path) (s0 s : gfs) : Prop :=
    (forall r n, r <> p -> fget (r ++ [n]) (fs_files s) = fget (r ++ [n]) (fs_files s0)) /\
    (forall z, fget (p ++ ["solver_log.yaml"%string]) (fs_files s) <> Some (CLog z)).

  Lemma put_level p n c s r k : r <> p -> fget (r ++ [k]) (fs_files (fst (put (p ++ [n]) c s))) = fget (r ++ [k]) (fs_files s).
  Proof using.
    intros N. destruct (put_inv (p ++ [n]) c s) as [->|(-> & _)]; [reflexivity|]. cbn [fst fs_files]. apply fget_other.
    intros X. apply app_inj_tail in X. destruct X. contradiction.
  Qed.

  Lemma quiet_silent p a s0 s : quiet p a -> silent p s0 s -> silent p s0 (fst (a s)).
  Proof using.
    intros Q [S1 S2]. destruct (Q s) as [(e & ->)|(n & c & H & ->)]; [now split|]. split.
    - intros r k N. rewrite put_level by exact N. now apply S1.
    - intros z. destruct (put_inv (p ++ [n]) c s) as [->|(-> & _)]; [apply S2|]. cbn [fst fs_files].
      destruct (path_dec (p ++ ["solver_log.yaml"%string]) (p ++ [n])) as [X|X].
      + rewrite <- X, fget_same. apply snoc_inj in X. destruct H as [H| ->]; [congruence|discriminate].
      + rewrite fget_other by exact X. apply S2.
  Qed.

  Lemma silent_marked p s0 s : marked s0 -> silent p s0 s -> marked s.
  Proof using.
    intros M [S1 S2] r z H n I. destruct (path_dec r p) as [->|N]; [now apply S2 in H|].
    rewrite S1 in H |- * by exact N. exact (M r z H n I).
  Qed.

  Lemma log_files_of_nonempty t a p te i n c : In (n, c) (log_files_of t a p te i) -> c <> CEmpty.
  Proof using. intros I. cbn in I. repeat match type of I with _ \/ _ => destruct I as [I|I] | False => destruct I end; injection I as <- <-; discriminate. Qed.

  (** Written solver logs mark complete logs, whenever the process dies. *)
  Lemma log_marked b g id dir te i co s : fs_ok s -> marked s ->
    marked (fst (log_results E fhash scan b g id dir te i false co s)).
  Proof using.
    intros O M. destruct (log_results E fhash scan b g id dir te i false co s) as [s' o] eqn:L. cbn [fst].
    apply log_cases in L. destruct L as [(-> & _)|(_ & _ & P & rest & L & R)]; [exact M|].
    destruct (isdir s (run_path dir id)) eqn:D; [discriminate (P eq_refl)|]. clear P.
    set (p := run_path dir id) in *. change (exec b ([mkdir p] ++ rest) s = (s', o)) in L.
    assert (S0 : silent p s s).
    { split; [reflexivity|]. intros z H. destruct (proj1 O _ _ H) as [X _]. rewrite removelast_last in X. congruence. }
    assert (MK : forall s1, silent p s s1 -> silent p s (fst (mkdir p s1))).
    { intros s1 [A B]. destruct (mkdir_inv p s1) as [->|(-> & _)]; split; auto. }
    destruct R as [(m & t & GM & T & ->)|(e & _ & ->)].
    2: { apply (silent_marked p s); [exact M|]. change s' with (fst (s', o)). rewrite <- L. apply (exec_inv (silent p s)); [|exact S0].
         intros a s1 [<-|[<-|[]]] S1; [now apply MK|exact S1]. }
    destruct (log_files_split m te i p t) as (l & a & EQ & Q).
    rewrite EQ, app_assoc, exec_app in L.
    assert (S1 : forall b, silent p s (fst (exec b ([mkdir p] ++ l) s))).
    { intros b0. apply (exec_inv (silent p s)); [|exact S0]. intros a0 s1 [<-|I] X; [now apply MK|]. apply quiet_silent; auto. }
    match type of L with context [exec b ?x s] => destruct (exec b x s) as [s1 o1] eqn:X end.
    assert (S1b : silent p s s1) by (change s1 with (fst (s1, o1)); rewrite <- X; apply S1).
    destruct o1; [|injection L as <- <-; now apply (silent_marked p s)|injection L as <- <-; now apply (silent_marked p s)].
    match type of L with exec ?bb _ _ = _ => remember bb as b2 eqn:B2 end.
    destruct o.
    2,3: assert (s' = s1) as ->; [|now apply (silent_marked p s)].
    - (* finished: all files are written *)
      assert (F : exec b (mkdir p :: log_files E fhash m te i p t) s = (s', Finished)).
      { change (mkdir p :: log_files E fhash m te i p t) with ([mkdir p] ++ log_files E fhash m te i p t). rewrite EQ, app_assoc, exec_app, X, <- B2. exact L. }
      assert (G2 : exists b2, exec b2 (log_files E fhash m te i p t) (MkGfs (p :: fs_dirs s) (fs_files s)) = (s', Finished)).
      { cbn [exec] in F. destruct b as [[|b]|]; [discriminate| |].
        all: destruct (mkdir_inv p s) as [Y|(Y & _)]; rewrite Y in F; [discriminate|]; eexists; exact F. }
      destruct G2 as (b3 & G2). apply log_files_done in G2. destruct G2 as (ca & CA & _ & ->).
      intros r z H n I. cbn [fs_files] in *. destruct (path_dec r p) as [->|N].
      + assert (I2 : In n (map fst (log_files_of t ca (bm_par m) te i))) by exact I.
        apply in_map_iff in I2. destruct I2 as ([n' c] & Y & I2). cbn [fst] in Y. subst n'. exists c.
        split; [|now apply log_files_of_nonempty in I2]. apply write_all_get; [apply names_NoDup|exact I2].
      + assert (W : forall k, fget (r ++ [k]) (write_all p (log_files_of t ca (bm_par m) te i) (fs_files s)) = fget (r ++ [k]) (fs_files s)).
        { intros k. apply write_all_other. intros k' _ Z. apply app_inj_tail in Z. destruct Z. contradiction. }
        rewrite W in H |- *. exact (M r z H n I).
    - cbn [exec] in L. destruct b2 as [[|b2]|]; [discriminate| |].
      all: assert (Wa : writes p a) by (apply (log_files_writes E fhash m te i p t); rewrite EQ; apply in_or_app; right; now left).
      all: destruct (Wa s1) as [(e' & Z)|(n & c & Z)]; rewrite Z in L; [injection L as <- <-; reflexivity|].
      all: destruct (put_inv (p ++ [n]) c s1) as [Y|(Y & _)]; rewrite Y in L; [injection L as <- <-; reflexivity|discriminate].
    - cbn [exec] in L. destruct b2 as [[|b2]|]; [injection L as <-; reflexivity| |].
      all: destruct (a s1) as [s2 [[]|e]]; discriminate.
  Qed.

  (** ** Worlds *)
  Notation gstep := (gstep E fhash default_dir scan).
  Notation ghistory := (ghistory E fhash default_dir scan).

  Lemma step_fs w bo : no_overwrite (snd bo) -> fs_ok (w_fs w) ->
    fs_ok (w_fs (fst (gstep w bo))) /\ kept (w_fs w) (w_fs (fst (gstep w bo))) /\ (marked (w_fs w) -> marked (w_fs (fst (gstep w bo)))).
  Proof using.
    intros N O. assert (R : fs_ok (w_fs w) /\ kept (w_fs w) (w_fs w) /\ (marked (w_fs w) -> marked (w_fs w))) by (split; [exact O|split; [apply kept_refl|auto]]).
    destruct bo as [b o]. unfold GlobalModel.gstep. cbn [fst snd] in *.
    destruct o as [backend c par|par|a o|id d te i ow co|o].
    - destruct (gm_init backend c par None) as [g [x|e]]; exact R.
    - destruct (w_obj w) as [g|]; [|exact R]. destruct (reload g par) as [g' [x|e]]; exact R.
    - destruct (w_obj w) as [g|]; [|exact R]. cbn [no_overwrite] in N. unfold gm_run.
      destruct (run_checks default_dir g a (w_fs w)) as [[target i]|e]; [|exact R].
      destruct (gm_model g) as [m|]; [|exact R]. destruct (pygmol_run E m (ra_temp a) i o) as [m' [bb|e]]; [|exact R].
      destruct target as [[id d]|]; [|exact R]. destruct bb; [|exact R]. rewrite N.
      destruct (log_kept E fhash scan b (MkGm (gm_backend g) (Some m') (Some true)) id d (ra_temp a) i (ra_compress a) (w_fs w) O) as [A B].
      pose proof (log_marked b (MkGm (gm_backend g) (Some m') (Some true)) id d (ra_temp a) i (ra_compress a) (w_fs w) O) as C.
      destruct (log_results _ _ _ _ _ _ _ _ _ _ _ _) as [s' r]. cbn [fst w_fs] in *. auto.
    - destruct (w_obj w) as [g|]; [|exact R]. cbn [no_overwrite] in N. subst ow.
      destruct (log_kept E fhash scan b g id d te i co (w_fs w) O) as [A B].
      pose proof (log_marked b g id d te i co (w_fs w) O) as C.
      destruct (log_results _ _ _ _ _ _ _ _ _ _ _ _) as [s' r]. cbn [fst w_fs] in *. auto.
    - destruct (w_obj w) as [g|]; [|exact R]. destruct (gm_model g); exact R.
  Qed.

  Lemma history_fs l : forall w, (forall bo, In bo l -> no_overwrite (snd bo)) -> fs_ok (w_fs w) ->
    fs_ok (w_fs (ghistory w l)) /\ kept (w_fs w) (w_fs (ghistory w l)) /\ (marked (w_fs w) -> marked (w_fs (ghistory w l))).
  Proof using.
    induction l as [|bo l IH]; intros w N O; [split; [exact O|split; [apply kept_refl|auto]]|].
    change (ghistory w (bo :: l)) with (ghistory (fst (gstep w bo)) l).
    destruct (step_fs w bo (N bo (or_introl eq_refl)) O) as (A & B & C).
    destruct (IH (fst (gstep w bo)) (fun bo' I => N bo' (or_intror I)) A) as (A' & B' & C').
    split; [exact A'|]. split; [eapply kept_trans; eauto|auto].
  Qed.

  (** ** What is served *)
  Lemma history_snoc w l bo : ghistory w (l ++ [bo]) = fst (gstep (ghistory w l) bo).
  Proof using. unfold GlobalModel.ghistory. now rewrite fold_left_app. Qed.

  Lemma get_stored_inv g c d : get_stored g = Ok (c, d) <-> gm_last g = Some true /\ exists m, gm_model g = Some m /\ bm_chem m = c /\ bm_data m = Some d.
  Proof using.
    unfold get_stored, assert_success, success. destruct (gm_last g) as [[|]|]; cbn.
    - destruct (gm_model g) as [m|]; [|split; [discriminate|intros (_ & m & X & _); discriminate]].
      destruct (bm_data m) as [d'|] eqn:D.
      + split; [intros H; injection H as <- <-; split; [reflexivity|]; exists m; auto|intros (_ & m' & X & Y & Z); injection X as <-; congruence].
      + split; [discriminate|intros (_ & m' & X & Y & Z); injection X as <-; congruence].
    - split; [discriminate|intros (X & _); discriminate].
    - split; [discriminate|intros (X & _); discriminate].
  Qed.

  Lemma log_obj_unchanged w b id d te i ow co g :
    w_obj (fst (gstep w (b, GLog id d te i ow co))) = Some g -> w_obj w = Some g.
  Proof using.
    unfold GlobalModel.gstep. cbn [fst snd]. destruct (w_obj w) as [g'|] eqn:W; [|cbn [fst]; rewrite W; discriminate].
    destruct (log_results _ _ _ _ _ _ _ _ _ _ _ _) as [s' r]. cbn [fst w_obj]. destruct r; cbn [alive]; congruence.
  Qed.

  (** One step: the stored solution is new, or was already there. *)
  Lemma step_stored w bo g c d : w_obj (fst (gstep w bo)) = Some g -> get_stored g = Ok (c, d) ->
    (exists a r c0, snd bo = GRun a (SDone true r) /\ d = MkStored r (List.length (names_of c0)) (List.length (get_reactions c0 false)) /\ c = c0 /\
       exists g0 m0, w_obj w = Some g0 /\ gm_model g0 = Some m0 /\ bm_chem m0 = c0) \/
    (harmless (snd bo) /\ exists g0 c0, w_obj w = Some g0 /\ get_stored g0 = Ok (c0, d) /\
       (c = match snd bo with GChem o => fst (step E c0 o) | _ => c0 end)).
  Proof using.
    intros W S. destruct bo as [b [backend c' par|par|a o|id dd te i ow co|o]].
    - exfalso. unfold GlobalModel.gstep in W. cbn [fst snd] in W. unfold gm_init in W.
      destruct (negb _); [discriminate|]. destruct (String.eqb _ _); [|discriminate]. destruct par as [p|]; [|discriminate].
      cbn [fst w_obj] in W. injection W as <-. apply get_stored_inv in S. destruct S as (X & _). discriminate.
    - exfalso. unfold GlobalModel.gstep in W. cbn [fst snd] in W. destruct (w_obj w) as [g0|] eqn:W0; [|cbn [fst] in W; congruence].
      unfold reload in W. destruct (gm_model g0) as [m|] eqn:M0.
      + unfold gm_init in W. apply get_stored_inv in S. destruct S as (X & m' & Y & _).
        destruct (negb _); [cbn [fst w_obj] in W; injection W as <-; discriminate|].
        destruct (String.eqb _ _); [|cbn [fst w_obj] in W; injection W as <-; discriminate].
        destruct par; cbn [fst w_obj] in W; injection W as <-; discriminate.
      + cbn [fst w_obj] in W. injection W as <-. apply get_stored_inv in S. destruct S as (_ & m & X & _). congruence.
    - left. unfold GlobalModel.gstep in W. cbn [fst snd] in W. destruct (w_obj w) as [g0|] eqn:W0; [|cbn [fst] in W; congruence].
      unfold gm_run in W.
      assert (NF : forall s r e, w_obj (fst (MkWorld (alive (MkGm (gm_backend g0) r (Some false)) (Failed e)) s, Failed e)) = Some g -> False).
      { intros s r e X. cbn [fst w_obj alive] in X. injection X as <-. apply get_stored_inv in S. destruct S as (X & _). discriminate. }
      destruct (run_checks default_dir g0 a (w_fs w)) as [[target i]|e]; [|exfalso; eapply NF; exact W].
      destruct (gm_model g0) as [m|] eqn:M0; [|exfalso; eapply NF; exact W].
      unfold pygmol_run in W.
      match type of W with context [match ?x with Ok _ => match o with _ => _ end | Err _ => _ end] => destruct x as [u|e]; [|exfalso; eapply NF; exact W] end.
      destruct o as [e rest|bb r]; [exfalso; eapply NF; exact W|].
      cbv zeta in W. destruct (negb _); [exfalso; eapply NF; exact W|]. destruct bb; [|exfalso; eapply NF; exact W].
      assert (G : g = MkGm (gm_backend g0) (Some (MkBm (bm_chem m) (bm_par m) (Some (MkStored r (List.length (names_of (bm_chem m)))
                    (List.length (get_reactions (bm_chem m) false)))))) (Some true)).
      { destruct target as [[id dd]|].
        - destruct (log_results _ _ _ _ _ _ _ _ _ _ _ _) as [s' rr]. cbn [fst w_obj] in W. destruct rr; cbn [alive] in W; congruence.
        - cbn [fst w_obj alive] in W. congruence. }
      subst g. apply get_stored_inv in S. destruct S as (_ & m' & X & Y & Z). injection X as <-. cbn [bm_chem bm_data] in Y, Z. subst c. injection Z as <-.
      exists a, r, (bm_chem m). split; [reflexivity|]. split; [reflexivity|]. split; [reflexivity|]. exists g0, m. auto.
    - right. cbn [snd]. split; [exact I|]. apply log_obj_unchanged in W. exists g, c. auto.
    - right. cbn [snd]. split; [exact I|]. unfold GlobalModel.gstep in W. cbn [fst snd] in W. destruct (w_obj w) as [g0|] eqn:W0; [|cbn [fst] in W; congruence].
      destruct (gm_model g0) as [m|] eqn:M0.
      + cbn [fst w_obj] in W. injection W as <-. apply get_stored_inv in S. destruct S as (L & m' & X & Y & Z). injection X as <-.
        cbn [gm_last bm_chem bm_data] in *. exists g0, (bm_chem m). split; [reflexivity|]. split; [|auto].
        apply get_stored_inv. split; [exact L|]. exists m. auto.
      + cbn [fst] in W. rewrite W0 in W. injection W as <-. apply get_stored_inv in S. destruct S as (_ & m & X & _). congruence.
  Qed.

  Lemma served_stored l : forall w g c d, w_obj w = None -> w_obj (ghistory w l) = Some g -> get_stored g = Ok (c, d) ->
    exists pre b a r post c0, l = pre ++ (b, GRun a (SDone true r)) :: post /\ (forall bo, In bo post -> harmless (snd bo)) /\
      (exists g0 m0, w_obj (ghistory w pre) = Some g0 /\ gm_model g0 = Some m0 /\ bm_chem m0 = c0) /\
      d = MkStored r (List.length (names_of c0)) (List.length (get_reactions c0 false)) /\
      c = fold_left (fun c bo => match snd bo with GChem o => fst (step E c o) | _ => c end) post c0.
  Proof using.
    induction l as [|bo l IH] using rev_ind; intros w g c d W0 W S.
    - cbn in W. congruence.
    - rewrite history_snoc in W. destruct (step_stored _ _ _ _ _ W S) as [(a & r & c0 & X & Y & -> & G0)|(H & g0 & c0 & X & Y & Z)].
      + exists l, (fst bo), a, r, [], c0. split; [destruct bo as [b o]; cbn [fst snd] in *; now subst o|].
        split; [easy|]. split; [exact G0|]. split; [exact Y|reflexivity].
      + destruct (IH w g0 c0 d W0 X Y) as (pre & b & a & r & post & c1 & -> & Hp & G0 & D & C).
        exists pre, b, a, r, (post ++ [bo]), c1. split; [now rewrite <- app_assoc|]. split.
        { intros bo' I. apply in_app_or in I. destruct I as [I|[<-|[]]]; auto. }
        split; [exact G0|]. split; [exact D|]. rewrite fold_left_app, <- C. exact Z.
  Qed.
End G.
