(** What can be read from a reaction: its rate coefficient, names, HPEM text. *)
From Coq Require Import Reals Qreals.
From Verif Require Import Base Species Reactions Chemistry ChemSpec MolSpec ExtReal Equations EqSpec EqExamples Views ConserveSpec MolExamples BalanceExamples
  Classification Xml XmlSpec XmlExamples Hpem HpemSpec HpemExamples RateCoef RateSpec RateCoefProofs RateNames RateExamples.

(** C148: whatever was computed before, the rate coefficient the simulation
    uses for an enabled reaction without an ad-hoc pre-factor is the one the
    Reaction object gives in SI units, at the electron temperature (given or
    that of the state) for electron processes, at the gas temperature for
    the others. *)
Theorem C148_simulated E objs rxs c v K model p e calls y temp_e j r ks :
  reachable E c -> objects E objs rxs c -> view_of E objs c = Ok v -> c_kind c = Plain ->
  eq_init K model v p = Ok e -> p_temp p <> 0%R ->
  nth_error (get_reactions c false) j = Some r -> zget (rx_id r) (c_arrh c) = None ->
  snd (perform (CCoefs y temp_e) (after calls e)) = AVec ks ->
  exists ro el k, In ro rxs /\ view_reaction E ro = Ok r /\ is_electron_process ro = Ok el /\
    get_rate_coefficient E true ro
      (if el then match temp_e with Some t => t | None => get_electron_temperature (st e) y None None end else X (p_temp p)) = Ok k /\
    nth_error ks j = Some k.
Proof. exact (fun R O V P => simulated_rate E objs rxs c v R O V P K model p e calls y temp_e j r ks). Qed.

Example C148_nonvacuous model : reachable E1 cB /\ objects E1 objsB rxsB cB /\ view_of E1 objsB cB = Ok vB /\ c_kind cB = Plain /\
  exists e r ks, eq_init K1 model vB parB = Ok e /\ p_temp parB <> 0%R /\
    nth_error (get_reactions cB false) 1 = Some r /\ zget (rx_id r) (c_arrh cB) = None /\
    snd (perform (CCoefs [] (Some (X 1))) (after [CCoefs [] None] e)) = AVec ks.
Proof.
  split; [exact cB_reachable|]. split; [exact cB_objects|]. split; [exact vB_ok|]. split; [exact (proj1 electronB)|]. exact (cB_nonvacuous model).
Qed.

(** C149: the coefficient is the modified Arrhenius law: a T^b exp(-c/T), with
    T relative to 300 in the power of processes without electrons. *)
Theorem C149_law E si r a b c el t :
  get_arrh_a E si r = Ok (Some (Fin a)) -> get_arrh_bc E "arrh_b" r = Ok (Some (Fin b)) ->
  get_arrh_bc E "arrh_c" r = Ok (Some (Fin c)) -> is_electron_process r = Ok el -> (0 < t)%R ->
  get_rate_coefficient E si r (X t) =
    Ok (X (Q2R a * Rpower (if el then t else t / 300) (Q2R b) * exp (- Q2R c / t))%R).
Proof. exact (rate_law E si r a b c el t). Qed.

(** C149: without a pre-factor there is no coefficient. *)
Theorem C149_missing E si r t : get_arrh_a E si r = Ok None -> get_rate_coefficient E si r t = Err EReactionValue.
Proof. exact (rate_missing E si r t). Qed.

(** C149: the value in SI units is the nominal one times the unit. *)
Theorem C149_units E r t k : rx_history E r -> get_rate_coefficient E false r t = Ok k ->
  exists w q, rx_get_unit r "arrh_a" = Ok (Some w) /\ si_value w q /\
    get_rate_coefficient E true r t = Ok (xmul k (X (Q2R q))).
Proof. exact (rate_units E r t k). Qed.

(** C149: no reaction that could be constructed has a negative coefficient. *)
Theorem C149_nonnegative E si r t x :
  rx_history E r -> (0 < t)%R -> get_rate_coefficient E si r (X t) = Ok (X x) -> (0 <= x)%R.
Proof. exact (rate_nonneg E si r t x). Qed.

(** C149: without negative parameters it does not fall with the temperature. *)
Theorem C149_grows E si r a b c el s t x y :
  get_arrh_a E si r = Ok (Some (Fin a)) -> get_arrh_bc E "arrh_b" r = Ok (Some (Fin b)) ->
  get_arrh_bc E "arrh_c" r = Ok (Some (Fin c)) -> is_electron_process r = Ok el ->
  (0 <= a)%Q -> (0 <= b)%Q -> (0 <= c)%Q -> (0 < s)%R -> (s <= t)%R ->
  get_rate_coefficient E si r (X s) = Ok (X x) -> get_rate_coefficient E si r (X t) = Ok (X y) -> (x <= y)%R.
Proof. exact (rate_grows E si r a b c el s t x y). Qed.

Example C149_nonvacuous : rx_history E1 rx_ion /\ get_arrh_a E1 true rx_ion = Ok (Some (Fin (3 # 1000000))) /\ get_arrh_a E1 false rx_ion = Ok (Some (Fin 3)) /\
  get_arrh_bc E1 "arrh_b" rx_ion = Ok (Some (Fin 0)) /\ get_arrh_bc E1 "arrh_c" rx_ion = Ok (Some (Fin 2)) /\ is_electron_process rx_ion = Ok true /\
  exists k, get_rate_coefficient E1 false rx_ion (X 1) = Ok k.
Proof. exact ion_rate. Qed.

(** C150: the HPEM text: the HPEM names of the reactants and of the products,
    joined, with an arrow between; backwards the other way round.  If a
    species has no HPEM name there is an error. *)
Theorem C150_text r ls rs : hpem_names (r_lhs r) ls -> hpem_names (r_rhs r) rs ->
  get_hpem_string false r = Ok (str_join " + " ls ++ " > " ++ str_join " + " rs)%string /\
  get_hpem_string true r = Ok (str_join " + " rs ++ " > " ++ str_join " + " ls)%string.
Proof. exact (hpem_text r ls rs). Qed.

Theorem C150_missing r b : (exists p, In p (r_lhs r ++ r_rhs r) /\ get_hpem_name p = None) <-> get_hpem_string b r = Err EType.
Proof. exact (hpem_missing r b). Qed.

(** C150: reactions with the same text have the same reactants and products,
    in the same order. *)
Theorem C150_injective r r' b s ls rs ls' rs' :
  hpem_names (r_lhs r) ls -> hpem_names (r_rhs r) rs -> hpem_names (r_lhs r') ls' -> hpem_names (r_rhs r') rs' ->
  r_lhs r <> [] -> r_rhs r <> [] -> r_lhs r' <> [] -> r_rhs r' <> [] -> unspaced (ls ++ rs ++ ls' ++ rs') ->
  get_hpem_string b r = Ok s -> get_hpem_string b r' = Ok s -> ls = ls' /\ rs = rs'.
Proof. exact (hpem_injective r r' b s ls rs ls' rs'). Qed.

(** C150: the text, with the data of the reaction after it, is a line of an
    HPEM file about this reaction. *)
Theorem C150_line E r b s ls rs d ta tb tc th ts :
  hpem_names (r_lhs r) ls -> hpem_names (r_rhs r) rs -> get_hpem_string b r = Ok s ->
  d_lhs d = (if b then rs else ls) -> d_rhs d = (if b then ls else rs) -> r_lhs r <> [] -> r_rhs r <> [] ->
  (forall n, In n (ls ++ rs) -> name_token n) -> comment (d_rcomment d) ->
  token ta -> fparse E ta = Some (d_a d) -> token tb -> fparse E tb = Some (d_b d) ->
  token tc -> fparse E tc = Some (d_c d) -> token th -> fparse E th = Some (d_heat d) ->
  token ts -> iparse E ts = Some (d_special d) ->
  rx_text E d (s ++ " : " ++ ta ++ " ; " ++ tb ++ " & " ++ tc ++ " ] " ++ th ++ " [ " ++ ts ++ " ! " ++ d_rcomment d)%string.
Proof. exact (hpem_line E r b s ls rs d ta tb tc th ts). Qed.

Example C150_nonvacuous : (rx_history E2 hp_ion /\ hpem_names (r_lhs hp_ion) ["E"; "O"] /\ hpem_names (r_rhs hp_ion) ["E"; "O^"; "E"] /\
    r_lhs hp_ion <> [] /\ r_rhs hp_ion <> []) /\
  (get_hpem_string false hp_ion = Ok "E + O > E + O^ + E" /\ get_hpem_string true hp_ion = Ok "E + O^ + E > E + O") /\
  unspaced ["E"; "O"; "E"; "O^"; "E"] /\ (forall n, In n (["E"; "O"] ++ ["E"; "O^"; "E"]) -> name_token n) /\
  (comment "" /\ token "1/2" /\ fparse E2 "1/2" = Some (Fin (1 # 2)) /\ token "7" /\ iparse E2 "7" = Some 7%Z) /\
  exists p, In p (r_lhs rx_ion ++ r_rhs rx_ion) /\ get_hpem_name p = None.
Proof.
  split; [exact hp_sides|]. split; [exact hp_texts|]. split; [exact hp_unspaced|]. split; [exact hp_tokens|]. split; [exact hp_line|exact hp_missing].
Qed.

(** C151: no reaction imported from an HPEM file has an HPEM text. *)
Theorem C151_imported_text_refuted E so uid skip sps rxs lines objs robjs :
  numbers_readable E -> dat_file E sps rxs lines -> Forall2 sp_object sps objs -> NoDup (map get_name objs) ->
  Forall2 (rx_object E objs) (filter (taken skip) rxs) robjs ->
  exists b sps' rxs', add_chemistry_from_hpem E so skip lines b_empty = (b, Ok tt) /\ reads E uid b sps' rxs' /\
    List.length rxs' = List.length robjs /\ forall r back, In r rxs' -> get_hpem_string back r = Err EType.
Proof. exact (imported_no_text E so uid skip sps rxs lines objs robjs). Qed.

Example C151_nonvacuous : numbers_readable E2 /\ dat_file E2 data1 rdata1 file1 /\ Forall2 sp_object data1 objs1 /\ NoDup (map get_name objs1) /\
  Forall2 (rx_object E2 objs1) (filter (taken true) rdata1) [robj1] /\ List.length (filter (taken true) rdata1) = 1%nat.
Proof. exact file1_nonvacuous. Qed.

(** C152: the set of names of the reactants, of the products or of both: every
    name once, in the order of the first occurrences. *)
Theorem C152_names r m l : get_rp_names_set r m = Ok l ->
  exists ns, Forall2 (fun p n => get_name p = Ok n)
      (match m with WLhs => r_lhs r | WRhs => r_rhs r | _ => r_lhs r ++ r_rhs r end) ns /\
    NoDup l /\ (forall n, In n l <-> In n ns) /\
    (forall u x v y w, l = u ++ x :: v ++ y :: w -> exists a b, ns = a ++ x :: b /\ ~ In x a /\ ~ In y a).
Proof. exact (names_set r m l). Qed.

Theorem C152_exists r m : m <> WOther -> (forall p, In p (r_lhs r ++ r_rhs r) -> exists n, get_name p = Ok n) ->
  exists l, get_rp_names_set r m = Ok l.
Proof. exact (names_set_exists r m). Qed.

(** C152: electron processes are those with the electron among the reactants,
    ion processes those with a charged ordinary species there. *)
Theorem C152_electron r l : get_rp_names_set r WLhs = Ok l ->
  (is_electron_process r = Ok true <-> In "e" l) /\ (is_electron_process r = Ok false <-> ~ In "e" l).
Proof. exact (electron_names r l). Qed.

Theorem C152_ion E r b : is_ion_process E r = Ok b ->
  (b = true <-> exists p z, In p (r_lhs r) /\ is_special p = Ok false /\ get_charge E p = Ok (Some z) /\ z <> 0%Z).
Proof. exact (ion_process E r b). Qed.

(** C152: elastic processes: those declared so; without a declaration those
    with the same names on both sides. *)
Theorem C152_elastic r ls rs : get_rp_names_set r WLhs = Ok ls -> get_rp_names_set r WRhs = Ok rs ->
  (xattr r "elastic" = VNone -> exists b, is_elastic_process r = Ok b /\ (b = true <-> (forall n, In n ls <-> In n rs))) /\
  (forall b, xattr r "elastic" = VSc (SBool b) -> is_elastic_process r = Ok b) /\
  (forall s, xattr r "elastic" = VStr s -> exists b, is_elastic_process r = Ok b /\ (b = true <-> In s ["true"; "True"; "TRUE"])).
Proof. exact (elastic_names r ls rs). Qed.

Example C152_nonvacuous : get_rp_names_set rx_ion WLhs = Ok ["e"; "O"] /\ get_rp_names_set rx_ion WRhs = Ok ["e"; "O+"] /\
  get_rp_names_set rx_ion WAll = Ok ["e"; "O"; "O+"] /\ is_ion_process E1 rx_ion = Ok false /\ is_ion_process E2 hp_rec = Ok true /\
  xattr rx_ion "elastic" = VNone /\ is_elastic_process rx_ion = Ok false /\ is_elastic_process MolExamples.rx_el = Ok true.
Proof. exact ion_sets. Qed.

(** All theorems of this file at once (one traversal instead of one per
    theorem). *)
Definition all_theorems := (
  @C148_simulated,
  @C149_law,
  @C149_missing,
  @C149_units,
  @C149_nonnegative,
  @C149_grows,
  @C150_text,
  @C150_missing,
  @C150_injective,
  @C150_line,
  @C151_imported_text_refuted,
  @C152_names,
  @C152_exists,
  @C152_electron,
  @C152_ion,
  @C152_elastic).
Print Assumptions all_theorems.
