(** Imports of HPEM files. *)
From Verif Require Import Base Species Reactions MolSpec Classification Xml XmlSpec XmlExamples Hpem HpemSpec HpemMain HpemBuilder HpemExamples.

(** C134: a file with the data of species and reactions is imported into a new
    builder; what is read back, directly or from an XML file, are the species
    and reactions with these data: those species that take part in the
    reactions taken over, and these reactions. *)
Theorem C134_import_read_back E so uid skip sps rxs lines objs robjs :
  numbers_readable E -> dat_file E sps rxs lines -> Forall2 sp_object sps objs -> NoDup (map get_name objs) ->
  Forall2 (rx_object E objs) (filter (taken skip) rxs) robjs ->
  exists b f sps' rxs', add_chemistry_from_hpem E so skip lines b_empty = (b, Ok tt) /\
    (forall s, In s objs -> f s = true <-> exists r, In r robjs /\ In s (r_lhs r ++ r_rhs r)) /\
    reads E uid b sps' rxs' /\ Forall2 (same_species E) (filter f objs) sps' /\ Forall2 (same_reaction E) robjs rxs' /\
    (forall r', In r' rxs' -> incl (r_lhs r' ++ r_rhs r') sps').
Proof. exact (fun NR => import_read_back E so NR uid skip sps rxs lines objs robjs). Qed.

Example C134_nonvacuous : numbers_readable E2 /\ dat_file E2 data1 rdata1 file1 /\ Forall2 sp_object data1 objs1 /\ NoDup (map get_name objs1) /\
  Forall2 (rx_object E2 objs1) (filter (taken true) rdata1) [robj1] /\ List.length (filter (taken true) rdata1) = 1%nat.
Proof. exact file1_nonvacuous. Qed.

(** C135: whatever files are imported, the builder stays consistent: species
    have distinct names, known to the checks, and reactions refer to them. *)
Theorem C135_consistent E so l : (forall o, In (HCall o) l -> well_named o) -> exists ns, species_named E so (hhistory E so b_empty l) ns.
Proof. exact (imports_consistent E so l). Qed.

(** C135: an import only adds; if a line cannot be read, nothing. *)
Theorem C135_only_adds E so l skip lines b b' r :
  (forall o, In (HCall o) l -> well_named o) -> b = hhistory E so b_empty l -> add_chemistry_from_hpem E so skip lines b = (b', r) ->
  (exists m, b_species b' = b_species b ++ m) /\ (exists m, b_reactions b' = b_reactions b ++ m).
Proof. exact (import_extends E so l skip lines b b' r). Qed.

Theorem C135_unread_unchanged E so skip lines b b' e :
  add_chemistry_from_hpem E so skip lines b = (b', Err e) -> In e [EIndex; EValue] -> b' = b.
Proof. exact (unread_unchanged E so skip lines b b' e). Qed.

(** C135: a file is imported exactly if none of its species that are used is
    already there, all reactions have at most three reactants, and all species
    used are in the file or already there. *)
Theorem C135_accepted E so l skip sps rxs lines ns fns :
  (forall o, In (HCall o) l -> well_named o) -> species_named E so (hhistory E so b_empty l) ns ->
  dat_file E sps rxs lines -> Forall2 (fun d n => renamed (d_name d) n) sps fns -> NoDup fns ->
  let taking := filter (taken skip) rxs in
  let uses n := exists d n0, In d taking /\ In n0 (d_lhs d ++ d_rhs d) /\ renamed n0 n in
  (exists b', add_chemistry_from_hpem E so skip lines (hhistory E so b_empty l) = (b', Ok tt)) <->
  (forall d n, In d sps -> renamed (d_name d) n -> uses n -> ~ In n ns) /\
  (forall d, In d taking -> (List.length (d_lhs d) <= 3)%nat) /\
  (forall n, uses n -> In n ns \/ exists d, In d sps /\ renamed (d_name d) n).
Proof. exact (import_accepts E so l skip sps rxs lines ns fns). Qed.

Example C135_nonvacuous : (forall o, In (HCall o) before1 -> well_named o) /\ species_named E2 so2 (hhistory E2 so2 b_empty before1) ["O*"; "A"] /\
  dat_file E2 data1 rdata1 file1 /\ Forall2 (fun d n => renamed (d_name d) n) data1 ["e"; "O2"; "O2+"; "Ar"] /\ NoDup ["e"; "O2"; "O2+"; "Ar"] /\
  exists b', add_chemistry_from_hpem E2 so2 true file1 (hhistory E2 so2 b_empty before1) = (b', Ok tt) /\ List.length (b_species b') = 5%nat.
Proof. exact before1_ok. Qed.

(** C136: imports are not all or nothing: with a reaction of four reactants,
    or of a species that is not listed, the import fails, but what comes
    before stays, and the corrected file cannot be imported. *)
Theorem C136_all_or_nothing_refuted : exists E so b1 b2 e,
  add_chemistry_from_hpem E so true file_four b_empty = (b1, Err EKey) /\ List.length (b_species b1) = 1%nat /\ List.length (b_reactions b1) = 1%nat /\
  add_chemistry_from_hpem E so true file_unlisted b_empty = (b2, Err EXml) /\ List.length (b_species b2) = 1%nat /\ List.length (b_reactions b2) = 1%nat /\
  add_chemistry_from_hpem E so true ["O2 : 0 ; 32 & 0 ] 1 [ 0 @ O2 !"; "*"; "O2 > O2 : 1 ; 0 & 0 ] 0 [ 1 !"] b1 = (b1, Err e).
Proof. exact (ex_intro _ E2 (ex_intro _ so2 failed_import_kept)). Qed.

(** C136: an empty line at the end of a file is an error. *)
Theorem C136_blank_line_refuted : exists E so sps rxs lines, dat_file E sps rxs lines /\
  snd (add_chemistry_from_hpem E so true lines b_empty) = Ok tt /\
  add_chemistry_from_hpem E so true (lines ++ [""]) b_empty = (b_empty, Err EIndex).
Proof. exact (ex_intro _ E2 (ex_intro _ so2 (ex_intro _ data1 (ex_intro _ rdata1 (ex_intro _ file1 blank_line_error))))). Qed.

(** C137: a species that is returned from the walls, but in no reaction, is
    left out; the species read back return one that is not there. *)
Theorem C137_returned_refuted : exists E so b s r, add_chemistry_from_hpem E so true file_ret b_empty = (b, Ok tt) /\
  parse E 0 (b_species b) (b_reactions b) = Ok ([s], [r]) /\ get_name s = Ok "A" /\ get_ret_coefs E s = Ok (Some [("B", Fin 1)]).
Proof. exact (ex_intro _ E2 (ex_intro _ so2 returned_left_out)). Qed.

(** C137: without a blank before it, a comment with an exclamation mark is
    partly read into the name of the returned species. *)
Theorem C137_comment_refuted : exists E so b b' s s' t u t' u' r r',
  add_chemistry_from_hpem E so true (file_mark " ") b_empty = (b, Ok tt) /\ parse E 0 (b_species b) (b_reactions b) = Ok ([s; t; u], [r]) /\
  add_chemistry_from_hpem E so true (file_mark "") b_empty = (b', Ok tt) /\ parse E 0 (b_species b') (b_reactions b') = Ok ([s'; t'; u'], [r']) /\
  get_ret_coefs E s = Ok (Some [("O2", Fin 1)]) /\ get_ret_coefs E s' = Ok (Some [("O2!see", Fin 1)]) /\
  get_comments s = Some "see!below" /\ get_comments s' = Some "below".
Proof. exact (ex_intro _ E2 (ex_intro _ so2 mark_in_name)). Qed.

(** C137: two lines for the same name (O2^ and O2+) are taken as one. *)
Theorem C137_repeated_refuted : exists E so b s r, add_chemistry_from_hpem E so true file_dup b_empty = (b, Ok tt) /\
  parse E 0 (b_species b) (b_reactions b) = Ok ([s], [r]) /\ get_name s = Ok "O2+" /\ get_mass E s = Ok (Some (Fin 33)).
Proof. exact (ex_intro _ E2 (ex_intro _ so2 repeated_replaced)). Qed.

(** All theorems of this file at once (one traversal instead of one per
    theorem). *)
Definition all_theorems := (
  @C134_import_read_back,
  @C135_consistent,
  @C135_only_adds,
  @C135_unread_unchanged,
  @C135_accepted,
  @C136_all_or_nothing_refuted,
  @C136_blank_line_refuted,
  @C137_returned_refuted,
  @C137_comment_refuted,
  @C137_repeated_refuted).
Print Assumptions all_theorems.
