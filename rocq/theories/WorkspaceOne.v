(** What is read of a run belongs to one run, whatever happened before. *)
From Coq Require Import Permutation.
From Verif Require Import Base BaseLemmas Species Reactions Chemistry Morris MorrisStats MorrisRun Tables TablesSpec TablesProofs InitialGuess GlobalModel GlobalSpec
  GlobalFiles GlobalLog GlobalProofs GlobalMore Workspace WorkspaceSpec WorkspaceProofs WorkspaceHist.
Open Scope list_scope.

Section O.
  Variables (E : env) (cfg : cfg_file) (to_path : string -> path) (fhash : string -> option string) (scan : list path -> list path).
  Hypothesis scan_perm : forall l, Permutation (scan l) l.
  Notation wstep := (wstep E cfg to_path fhash scan).
  Notation whistory := (whistory E cfg to_path fhash scan).

  (** A file of the log of [g]. *)
  Definition written (g : gmodel) (te : Q) (i : list (string * Q)) (co : bool) (n : string) (c : content) : Prop :=
    exists m t, gm_model g = Some m /\ log_tables E co g = Ok t /\
      (In (n, c) [("solution.csv", CTable (tb_sol t)); ("rates.csv", CTable (tb_rates t)); ("wall_fluxes.csv", CTable (tb_flux t));
                  ("model_attributes.yaml", CModel (bm_par m) te i); ("solver_log.yaml", CLog (tb_log t))]%string \/
       exists a, chemistry_attributes E fhash (bm_chem m) = Ok a /\ n = "chemistry_attributes.yaml"%string /\ c = CAttrs a).

  (** Every step of a log writes such a file, or an empty one. *)
  Definition writes_log (p : path) (g : gmodel) te i co (a : action) : Prop :=
    forall s, (exists e, a s = (s, Err e)) \/ exists n c, a s = put (p ++ [n]) c s /\ (c = CEmpty \/ written g te i co n c).

  Lemma log_files_writes_log g m te i co p t a : gm_model g = Some m -> log_tables E co g = Ok t ->
    In a (log_files E fhash m te i p t) -> writes_log p g te i co a.
  Proof.
    intros M T I s. unfold log_files in I. rewrite !in_app_iff in I.
    repeat match type of I with _ \/ _ => destruct I as [I|I] end;
      unfold act_file in I; destruct I as [<-|[<-|[]]]; cbv beta;
      try (right; eexists _, CEmpty; split; [reflexivity|now left]);
      try (right; eexists _, _; split; [reflexivity|]; right; exists m, t; split; [exact M|]; split; [exact T|]; left; cbn; auto 7; fail).
    change (log_name "chemistry_attributes") with (@Ok string "chemistry_attributes.yaml"%string).
    cbv iota. destruct (chemistry_attributes E fhash (bm_chem m)) as [ca|e] eqn:CA; cbn [bind]; [|left; now exists e].
    right. eexists _, _. split; [reflexivity|]. right. exists m, t. split; [exact M|]. split; [exact T|]. right. exists ca. auto.
  Qed.

  (** The levels of the files: at other directories only removals, in the run
      directory removals or a new log. *)
  Lemma log_levels b g id dir te i ow co s s' r : fs_ok s -> log_results E fhash scan b g id dir te i ow co s = (s', r) ->
    (forall p n c, p <> run_path dir id -> fget (p ++ [n]) (fs_files s') = Some c -> fget (p ++ [n]) (fs_files s) = Some c) /\
    ((forall n c, fget (run_path dir id ++ [n]) (fs_files s') = Some c -> fget (run_path dir id ++ [n]) (fs_files s) = Some c) \/
     (forall n c, fget (run_path dir id ++ [n]) (fs_files s') = Some c -> c = CEmpty \/ written g te i co n c)).
  Proof.
    intros O L. apply log_cases in L. destruct L as [(-> & _)|(_ & _ & _ & rest & L & R)]; [auto|].
    set (p := run_path dir id) in *. rewrite <- app_assoc, exec_app in L.
    assert (W : forall a, In a rest -> writes_log p g te i co a).
    { destruct R as [(m & t & M & T & ->)|(e & _ & ->)]; intros a I; [now apply (log_files_writes_log g m te i co p t)|].
      destruct I as [<-|[]]. intros s0. left. now exists e. }
    assert (I : forall b s1, (forall n, fget (p ++ [n]) (fs_files s1) = None) ->
      (forall q n c, q <> p -> fget (q ++ [n]) (fs_files (fst (exec b (mkdir p :: rest) s1))) = Some c -> fget (q ++ [n]) (fs_files s1) = Some c) /\
      (forall n c, fget (p ++ [n]) (fs_files (fst (exec b (mkdir p :: rest) s1))) = Some c -> c = CEmpty \/ written g te i co n c)).
    { intros b1 s1 N.
      apply (exec_inv (fun s2 => (forall q n c, q <> p -> fget (q ++ [n]) (fs_files s2) = Some c -> fget (q ++ [n]) (fs_files s1) = Some c) /\
        (forall n c, fget (p ++ [n]) (fs_files s2) = Some c -> c = CEmpty \/ written g te i co n c))).
      2: { split; [auto|]. intros n c H. rewrite N in H. discriminate. }
      intros a s2 [<-|Ia] [A B].
      - destruct (mkdir_inv p s2) as [->|(-> & _)]; cbn [fst fs_files]; auto.
      - destruct (W a Ia s2) as [(e & ->)|(k & c0 & -> & Hc)]; [auto|].
        destruct (put_inv (p ++ [k]) c0 s2) as [->|(-> & _)]; cbn [fst fs_files]; [auto|]. split.
        + intros q n c Nq H. rewrite fget_other in H; [now apply (A q n c Nq)|]. intros X. apply app_inj_tail in X. destruct X. contradiction.
        + intros n c H. destruct (string_dec n k) as [->|Nk].
          * rewrite fget_same in H. injection H as <-. exact Hc.
          * rewrite fget_other in H; [now apply B|]. intros X. apply snoc_inj in X. contradiction. }
    destruct (isdir s p) eqn:D.
    - destruct (rmtree_exec scan scan_perm b p s O) as (s1 & o1 & X & OC & S1 & O1 & Few & N). rewrite X in L. destruct OC as [->| ->].
      + match type of L with exec ?bb _ _ = _ => destruct (I bb s1 (fun n => proj2 (N eq_refl (p ++ [n]) (under_app p [n])))) as [I1 I2] end.
        change ([mkdir p] ++ rest) with (mkdir p :: rest) in L. rewrite L in I1, I2. cbn [fst] in *. split; [|now right].
        intros q n c Nq H. apply Few. now apply (I1 q n c Nq).
      + injection L as <- <-. split; [intros q n c _ H; now apply Few|left; intros n c H; now apply Few].
    - cbn [exec] in L.
      assert (N : forall n, fget (p ++ [n]) (fs_files s) = None).
      { intros n. apply (nothing_below s p (p ++ [n]) O D (under_app p [n])). intros X. apply (f_equal (@List.length string)) in X.
        rewrite app_length in X. cbn in X. lia. }
      match type of L with exec ?bb _ _ = _ => destruct (I bb s N) as [I1 I2] end.
      change ([mkdir p] ++ rest) with (mkdir p :: rest) in L. rewrite L in I1, I2. cbn [fst] in *. split; [exact I1|now right].
  Qed.

  (** ** Histories *)
  Variable w0 : world.
  Definition source (l : list (option nat * wop)) (p : path) g te i co : Prop :=
    exists pre b o post, l = pre ++ (b, WModel o) :: post /\ logs cfg to_path (whistory w0 pre) o p g te i co.
  Definition owned (l : list (option nat * wop)) (s : gfs) : Prop :=
    forall p, (forall n c, fget (p ++ [n]) (fs_files s) = Some c -> c = CEmpty) \/
      exists g te i co, source l p g te i co /\ forall n c, fget (p ++ [n]) (fs_files s) = Some c -> c = CEmpty \/ written g te i co n c.

  Lemma source_snoc l bo p g te i co : source l p g te i co -> source (l ++ [bo]) p g te i co.
  Proof. intros (pre & b & o & post & -> & L). exists pre, b, o, (post ++ [bo]). split; [now rewrite <- app_assoc|exact L]. Qed.

  Lemma owned_fewer l bo s s' : (forall p n c, fget (p ++ [n]) (fs_files s') = Some c -> fget (p ++ [n]) (fs_files s) = Some c) ->
    owned l s -> owned (l ++ [bo]) s'.
  Proof.
    intros F O p. destruct (O p) as [H|(g & te & i & co & S & H)].
    - left. intros n c X. apply (H n c). now apply F.
    - right. exists g, te, i, co. split; [now apply source_snoc|]. intros n c X. apply H. now apply F.
  Qed.

  Lemma owned_log l b o s s' r g id dir te i ow co : fs_ok s -> owned l s ->
    log_results E fhash scan b g id dir te i ow co s = (s', r) ->
    logs cfg to_path (whistory w0 l) o (run_path dir id) g te i co -> owned (l ++ [(b, WModel o)]) s'.
  Proof.
    intros OK O L S p. destruct (log_levels b g id dir te i ow co s s' r OK L) as [A B].
    destruct (path_dec p (run_path dir id)) as [->|N].
    - destruct B as [B|B].
      + destruct (O (run_path dir id)) as [H|(g' & te' & i' & co' & S' & H)].
        * left. intros n c X. apply (H n c). now apply B.
        * right. exists g', te', i', co'. split; [now apply source_snoc|]. intros n c X. apply H. now apply B.
      + right. exists g, te, i, co. split; [|exact B]. exists l, b, o, []. auto.
    - destruct (O p) as [H|(g' & te' & i' & co' & S' & H)].
      + left. intros n c X. apply (H n c). now apply (A p n c N).
      + right. exists g', te', i', co'. split; [now apply source_snoc|]. intros n c X. apply H. now apply (A p n c N).
  Qed.

  Lemma whistory_snoc w l bo : whistory w (l ++ [bo]) = fst (wstep (whistory w l) bo).
  Proof. unfold Workspace.whistory. now rewrite fold_left_app. Qed.

  Lemma owned_history l : fs_ok (w_fs w0) -> (forall q, fget q (fs_files (w_fs w0)) = None) -> owned l (w_fs (whistory w0 l)).
  Proof.
    intros OK N. induction l as [|[b op] l IH] using rev_ind.
    - intros p. left. intros n c H. cbn in H. rewrite N in H. discriminate.
    - rewrite whistory_snoc. pose proof (whistory_ok E cfg to_path fhash scan l scan_perm w0 OK) as OKl.
      set (w := whistory w0 l) in *.
      destruct (step_cases E cfg to_path fhash scan w (b, op) OKl) as [(_ & s' & -> & _ & _ & F)|(o & s' & dd & S & -> & A & _ & F & DD)].
      { cbn [w_fs]. apply (owned_fewer l (b, op) (w_fs w)); [|exact IH]. intros p n c. now rewrite F. }
      cbn [fst snd] in S. subst op.
      assert (IH' : owned l s').
      { intros p. destruct (IH p) as [H|(g & te & i & co & S & H)].
        - left. intros n c. rewrite F. apply H.
        - right. exists g, te, i, co. split; [exact S|]. intros n c. rewrite F. apply H. }
      assert (Same : owned (l ++ [(b, WModel o)]) s') by (apply (owned_fewer l (b, WModel o) s'); auto).
      unfold GlobalModel.gstep. cbn [fst snd w_obj w_fs].
      destruct o as [backend c par|par|a o|id d te i ow co|o].
      + destruct (gm_init backend c par None) as [g [x|e]]; exact Same.
      + destruct (w_obj w) as [g|]; [|exact Same]. destruct (reload g par) as [g' [x|e]]; exact Same.
      + destruct (w_obj w) as [g|] eqn:W; [|exact Same].
        destruct (gm_run E fhash dd scan b g a o s') as [[g' s2] r] eqn:R. cbn [fst w_fs].
        apply run_cases in R. destruct R as [(-> & _)|(m & d & i & M & OD & G & _ & [(_ & -> & _)|(LG & id & dir & ID & TO & L & IN)])]; [exact Same|exact Same|].
        apply (owned_log l b (GRun a o) s' s2 r g' id dir (ra_temp a) i (ra_over a) (ra_compress a) A IH' L).
        subst o. cbn [logs]. fold w. exists g, m, id, dir. split; [exact W|]. split; [exact M|]. split; [exact LG|]. split; [exact ID|]. split.
        { destruct TO as [TO|[TA TO]]; [now left|]. right. split; [exact TA|]. unfold asks in DD. rewrite W, LG, ID, TA in DD. rewrite DD. exact TO. }
        split; [reflexivity|]. split; [reflexivity|]. split; [reflexivity|]. split; [exact IN|]. rewrite G.
        replace (List.length (names_of (bm_chem m))) with (List.length (get_species (bm_chem m) false false true)); [reflexivity|].
        unfold names_of. symmetry. apply map_length.
      + destruct (w_obj w) as [g|] eqn:W; [|exact Same].
        destruct (log_results E fhash scan b g id d te i ow co s') as [s2 r] eqn:L. cbn [fst w_fs].
        apply (owned_log l b (GLog id d te i ow co) s' s2 r g id d te i ow co A IH' L). cbn [logs]. fold w. auto.
      + destruct (w_obj w) as [g|]; [|exact Same]. destruct (gm_model g); exact Same.
  Qed.

  (** ** Reading *)
  Variable other_csv : content -> res table.
  Variable other_yaml : content -> exn.

  Lemma fetch_inv log n nominal id backend dir s c : fs_ok s -> log_name log = Ok n ->
    snd (fetch_file cfg to_path log nominal id backend dir None s) = Ok c ->
    exists d, snd (parser_dir cfg to_path nominal backend dir s) = Ok d /\ fget (run_path d id ++ [n]) (fs_files s) = Some c.
  Proof.
    intros O LN. unfold fetch_file. pose proof (parser_files cfg to_path nominal backend dir s O) as K.
    destruct (parser_dir cfg to_path nominal backend dir s) as [s1 [d|e]]; cbn [bind snd fst] in *; [|discriminate].
    rewrite LN. cbn [bind]. rewrite K. destruct (fget (run_path d id ++ [n]) (fs_files s)) eqn:F; [|discriminate].
    intros H. injection H as <-. exists d. auto.
  Qed.

  Theorem one_run l nominal id backend d p :
    fs_ok (w_fs w0) -> (forall q, fget q (fs_files (w_fs w0)) = None) ->
    let s := w_fs (whistory w0 l) in
    snd (parser_dir cfg to_path nominal backend d s) = Ok p ->
    (forall ts, snd (fetch_solution cfg to_path other_csv nominal id backend d None s) <> Ok ts) /\
    (forall fr, snd (fetch_rates E cfg to_path other_csv nominal id backend d None s) <> Ok fr) /\
    (forall tf, snd (fetch_wall_fluxes cfg to_path other_csv nominal id backend d None s) <> Ok tf) /\
    (forall ps, snd (fetch_model_params cfg to_path other_yaml nominal id backend d None s) <> Ok ps) /\
    (forall ip, snd (fetch_initial_params cfg to_path other_yaml nominal id backend d None s) <> Ok ip) \/
    exists pre b o post g m t te i co,
      l = pre ++ (b, WModel o) :: post /\ logs cfg to_path (whistory w0 pre) o (run_path p id) g te i co /\
      gm_model g = Some m /\ log_tables E co g = Ok t /\
      (forall ts, snd (fetch_solution cfg to_path other_csv nominal id backend d None s) = Ok ts -> ts = tb_sol t) /\
      (forall fr, snd (fetch_rates E cfg to_path other_csv nominal id backend d None s) = Ok fr -> relabel E (tb_rates t) = Ok fr) /\
      (forall tf, snd (fetch_wall_fluxes cfg to_path other_csv nominal id backend d None s) = Ok tf -> tf = tb_flux t) /\
      (forall ps, snd (fetch_model_params cfg to_path other_yaml nominal id backend d None s) = Ok ps -> ps = bm_par m) /\
      (forall ip, snd (fetch_initial_params cfg to_path other_yaml nominal id backend d None s) = Ok ip -> ip = (te, i)).
  Proof.
    intros OK N s P. pose proof (whistory_ok E cfg to_path fhash scan l scan_perm w0 OK) as OKl. fold s in OKl.
    pose proof (owned_history l OK N (run_path p id)) as OW. fold s in OW.
    assert (FT : forall log n x, log_name log = Ok n -> snd (fetch_table cfg to_path other_csv log nominal id backend d None s) = Ok x ->
      exists c, fget (run_path p id ++ [n]) (fs_files s) = Some c /\ read_csv other_csv c = Ok x).
    { intros log n x LN H. unfold fetch_table in H. pose proof (fetch_inv log n nominal id backend d s) as FI.
      destruct (fetch_file cfg to_path log nominal id backend d None s) as [s1 [c|e]]; cbn [snd bind] in *; [|discriminate].
      destruct (FI c OKl LN eq_refl) as (d' & P' & F). rewrite P in P'. injection P' as <-. exists c. auto. }
    assert (FA : forall x, snd (fetch_attributes cfg to_path other_yaml nominal id backend d None s) = Ok x ->
      exists c, fget (run_path p id ++ ["model_attributes.yaml"%string]) (fs_files s) = Some c /\ model_attributes other_yaml c = Ok x).
    { intros x H. unfold fetch_attributes in H. pose proof (fetch_inv "model_attributes" "model_attributes.yaml" nominal id backend d s) as FI.
      destruct (fetch_file cfg to_path "model_attributes" nominal id backend d None s) as [s1 [c|e]]; cbn [snd bind] in *; [|discriminate].
      destruct (FI c OKl eq_refl eq_refl) as (d' & P' & F). rewrite P in P'. injection P' as <-. exists c. auto. }
    assert (FR : forall x, snd (fetch_rates E cfg to_path other_csv nominal id backend d None s) = Ok x ->
      exists t, snd (fetch_table cfg to_path other_csv "rates" nominal id backend d None s) = Ok t /\ relabel E t = Ok x).
    { intros x H. unfold fetch_rates in H. destruct (fetch_table cfg to_path other_csv "rates" nominal id backend d None s) as [s1 [t|e]];
      cbn [snd bind] in *; [|discriminate]. exists t. auto. }
    assert (FM : forall x, snd (fetch_model_params cfg to_path other_yaml nominal id backend d None s) = Ok x ->
      exists y, snd (fetch_attributes cfg to_path other_yaml nominal id backend d None s) = Ok y /\ fst y = x).
    { intros x H. unfold fetch_model_params in H. destruct (fetch_attributes cfg to_path other_yaml nominal id backend d None s) as [s1 [y|e]];
      cbn [snd bind] in *; [|discriminate]. injection H as <-. exists y. auto. }
    assert (FI : forall x, snd (fetch_initial_params cfg to_path other_yaml nominal id backend d None s) = Ok x ->
      exists y, snd (fetch_attributes cfg to_path other_yaml nominal id backend d None s) = Ok y /\ snd y = x).
    { intros x H. unfold fetch_initial_params in H. destruct (fetch_attributes cfg to_path other_yaml nominal id backend d None s) as [s1 [y|e]];
      cbn [snd bind] in *; [|discriminate]. injection H as <-. exists y. auto. }
    destruct OW as [OW|(g & te & i & co & (pre & b & o & post & L & S) & OW)].
    - left.
      assert (T0 : forall log n x, log_name log = Ok n -> snd (fetch_table cfg to_path other_csv log nominal id backend d None s) <> Ok x).
      { intros log n x LN H. destruct (FT log n x LN H) as (c & F & R). apply OW in F. subst c. discriminate. }
      assert (A0 : forall x, snd (fetch_attributes cfg to_path other_yaml nominal id backend d None s) <> Ok x).
      { intros x H. destruct (FA x H) as (c & F & R). apply OW in F. subst c. discriminate. }
      split; [intros x H; exact (T0 "solution"%string _ x eq_refl H)|]. split.
      { intros x H. destruct (FR x H) as (t & H' & _). exact (T0 "rates"%string _ t eq_refl H'). }
      split; [intros x H; exact (T0 "wall_fluxes"%string _ x eq_refl H)|]. split.
      + intros x H. destruct (FM x H) as (y & H' & _). exact (A0 y H').
      + intros x H. destruct (FI x H) as (y & H' & _). exact (A0 y H').
    - (* the run has a model and tables unless nothing is written *)
      assert (X : (forall n c, fget (run_path p id ++ [n]) (fs_files s) = Some c -> c = CEmpty) \/ exists m t, gm_model g = Some m /\ log_tables E co g = Ok t).
      { destruct (gm_model g) as [m|] eqn:M.
        - destruct (log_tables E co g) as [t|e] eqn:T; [right; eauto|].
          left. intros n c F. destruct (OW n c F) as [->|(m' & t & _ & T' & _)]; [reflexivity|congruence].
        - left. intros n c F. destruct (OW n c F) as [->|(m' & t & M' & _)]; [reflexivity|congruence]. }
      destruct X as [X|(m & t & M & T)].
      + left. clear OW. rename X into OW.
        assert (T0 : forall log n x, log_name log = Ok n -> snd (fetch_table cfg to_path other_csv log nominal id backend d None s) <> Ok x).
        { intros log n x LN H. destruct (FT log n x LN H) as (c & F & R). apply OW in F. subst c. discriminate. }
        assert (A0 : forall x, snd (fetch_attributes cfg to_path other_yaml nominal id backend d None s) <> Ok x).
        { intros x H. destruct (FA x H) as (c & F & R). apply OW in F. subst c. discriminate. }
        split; [intros x H; exact (T0 "solution"%string _ x eq_refl H)|]. split.
        { intros x H. destruct (FR x H) as (t & H' & _). exact (T0 "rates"%string _ t eq_refl H'). }
        split; [intros x H; exact (T0 "wall_fluxes"%string _ x eq_refl H)|]. split.
        * intros x H. destruct (FM x H) as (y & H' & _). exact (A0 y H').
        * intros x H. destruct (FI x H) as (y & H' & _). exact (A0 y H').
      + right. exists pre, b, o, post, g, m, t, te, i, co. split; [exact L|]. split; [exact S|]. split; [exact M|]. split; [exact T|].
        assert (WR : forall n c, fget (run_path p id ++ [n]) (fs_files s) = Some c -> c = CEmpty \/
          In (n, c) [("solution.csv", CTable (tb_sol t)); ("rates.csv", CTable (tb_rates t)); ("wall_fluxes.csv", CTable (tb_flux t));
                  ("model_attributes.yaml", CModel (bm_par m) te i); ("solver_log.yaml", CLog (tb_log t))]%string \/ n = "chemistry_attributes.yaml"%string).
        { intros n c F. destruct (OW n c F) as [->|(m' & t' & M' & T' & [I|(a & _ & -> & _)])]; [now left| |auto].
          rewrite M in M'. injection M' as <-. rewrite T in T'. injection T' as <-. auto. }
        assert (TT : forall log n x t', log_name log = Ok n -> In (n, t') [("solution.csv", tb_sol t); ("rates.csv", tb_rates t); ("wall_fluxes.csv", tb_flux t)]%string ->
          snd (fetch_table cfg to_path other_csv log nominal id backend d None s) = Ok x -> x = t').
        { intros log n x t' LN I H. destruct (FT log n x LN H) as (c & F & R).
          destruct (WR n c F) as [->|[W|W]]; [discriminate| |].
          - cbn in W, I. repeat (destruct I as [I|I]; [injection I as <- <-|]); [| | |destruct I].
            all: repeat (destruct W as [W|W]; [try discriminate W; injection W as <-; cbn in R; congruence|]); destruct W.
          - subst n. cbn in I. repeat (destruct I as [I|I]; [discriminate I|]). destruct I. }
        assert (AA : forall y, snd (fetch_attributes cfg to_path other_yaml nominal id backend d None s) = Ok y -> y = (bm_par m, (te, i))).
        { intros y H. destruct (FA y H) as (c & F & R). destruct (WR _ c F) as [->|[W|W]]; [discriminate| |discriminate W].
          cbn in W. repeat (destruct W as [W|W]; [try discriminate W; injection W as <-; cbn in R; congruence|]). destruct W. }
        split; [intros x H; apply (TT "solution"%string "solution.csv"%string); [reflexivity|cbn; auto|exact H]|]. split.
        { intros x H. destruct (FR x H) as (t' & H' & R). rewrite <- R. f_equal. symmetry. apply (TT "rates"%string "rates.csv"%string); [reflexivity|cbn; auto|exact H']. }
        split; [intros x H; apply (TT "wall_fluxes"%string "wall_fluxes.csv"%string); [reflexivity|cbn; auto|exact H]|]. split.
        * intros x H. destruct (FM x H) as (y & H' & R). rewrite (AA y H') in R. now rewrite <- R.
        * intros x H. destruct (FI x H) as (y & H' & R). rewrite (AA y H') in R. now rewrite <- R.
  Qed.
End O.

(** Which directory a reader looks into. *)
Lemma reader_directory E cfg to_path other_csv other_yaml nominal id d b f s :
  (fetch_solution cfg to_path other_csv nominal id None (Some d) f s = fetch_solution cfg to_path other_csv d id None None f s /\
   fetch_rates E cfg to_path other_csv nominal id None (Some d) f s = fetch_rates E cfg to_path other_csv d id None None f s /\
   fetch_wall_fluxes cfg to_path other_csv nominal id None (Some d) f s = fetch_wall_fluxes cfg to_path other_csv d id None None f s /\
   fetch_model_params cfg to_path other_yaml nominal id None (Some d) f s = fetch_model_params cfg to_path other_yaml d id None None f s /\
   fetch_initial_params cfg to_path other_yaml nominal id None (Some d) f s = fetch_initial_params cfg to_path other_yaml d id None None f s) /\
  (snd (fetch_solution cfg to_path other_csv nominal id (Some b) (Some d) f s) = Err EResultsAttr /\
   snd (fetch_rates E cfg to_path other_csv nominal id (Some b) (Some d) f s) = Err EResultsAttr /\
   snd (fetch_wall_fluxes cfg to_path other_csv nominal id (Some b) (Some d) f s) = Err EResultsAttr /\
   snd (fetch_model_params cfg to_path other_yaml nominal id (Some b) (Some d) f s) = Err EResultsAttr /\
   snd (fetch_initial_params cfg to_path other_yaml nominal id (Some b) (Some d) f s) = Err EResultsAttr) /\
  (forall s' p, results_dir cfg to_path b s = (s', Ok p) ->
   fetch_solution cfg to_path other_csv nominal id (Some b) None f s = fetch_solution cfg to_path other_csv p id None None f s' /\
   fetch_rates E cfg to_path other_csv nominal id (Some b) None f s = fetch_rates E cfg to_path other_csv p id None None f s' /\
   fetch_wall_fluxes cfg to_path other_csv nominal id (Some b) None f s = fetch_wall_fluxes cfg to_path other_csv p id None None f s' /\
   fetch_model_params cfg to_path other_yaml nominal id (Some b) None f s = fetch_model_params cfg to_path other_yaml p id None None f s' /\
   fetch_initial_params cfg to_path other_yaml nominal id (Some b) None f s = fetch_initial_params cfg to_path other_yaml p id None None f s') /\
  parser_new cfg to_path None (Some d) s = (s, Ok d) /\ parser_new cfg to_path (Some b) None s = results_dir cfg to_path b s /\
  snd (parser_new cfg to_path (Some b) (Some d) s) = Err EResultsAttr.
Proof.
  repeat split; intros; unfold fetch_solution, fetch_rates, fetch_wall_fluxes, fetch_model_params, fetch_initial_params, fetch_attributes, fetch_table, fetch_file, parser_dir;
    try match goal with H : results_dir _ _ _ _ = _ |- _ => rewrite H end; reflexivity.
Qed.
