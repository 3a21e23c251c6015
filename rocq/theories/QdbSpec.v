(** What the QDB database says, independently of how it is read. *)
From Coq Require Import Permutation.
From Verif Require Import Base Species Reactions MolSpec Classification Xml XmlSpec Hpem Qdb.

(** ** Names *)

(** Multiple charges are spelt out; the electron is called e. *)
Definition spellings : list (string * string) := [("+2", "++"); ("+3", "+++"); ("-2", "--"); ("-3", "---")].
Definition stateless_name (f n : string) : Prop :=
  (f = "e-" /\ n = "e") \/
  (exists x short long, In (short, long) spellings /\ f = (x ++ short)%string /\ n = (x ++ long)%string) \/
  (f <> "e-" /\ (forall x short long, In (short, long) spellings -> f <> (x ++ short)%string) /\ n = f).

(** The states are listed in parentheses, unless there are only asterisks. *)
Definition only_stars (s : string) : Prop := forall c, In c (chars s) -> c = "*"%char.
Definition state_text (states : list string) (s : string) : Prop :=
  (only_stars (str_join "," states) /\ s = str_join "," states) \/
  (~ only_stars (str_join "," states) /\ s = ("(" ++ str_join "," states ++ ")")%string).
Definition qname (q : qrp) (n : string) : Prop :=
  exists a s, stateless_name (q_formula q) a /\ state_text (q_states q) s /\ n = (a ++ s)%string.

(** ** Species *)

(** Entries of optional data; zero stands for no data. *)
Definition datum (k : string) (x : option flt) : list (string * pyval) :=
  match x with Some f => if feqb f fzero then [] else [(k, VFlt f)] | None => [] end.
Definition unit_of (u : string) (l : list (string * pyval)) : list (string * option string) := map (fun kv => (fst kv, Some u)) l.

(** [s] is the species with the data of [q]. *)
Definition qsp_object (q : qrp) (s : rp) : Prop :=
  exists uid a st, stateless_name (q_formula q) a /\ state_text (q_states q) st /\
    rp_init uid (VInt (q_pk q))
      ([("name", VStr (a ++ st)); ("mass", VFlt (q_mass q)); ("qdb_id", VInt (q_pk q))] ++
       match q_states q with [] => [] | _ :: _ => [("stateless", VStr a); ("state", VStr st)] end ++
       (if q_charge q =? 0 then [] else [("charge", VInt (q_charge q))]) ++
       datum "h_form" (q_hform q) ++ datum "lj_epsilon" (q_epsilon q) ++ datum "lj_sigma" (q_sigma q) ++
       match q_hpem q with Some h => if String.eqb h "" then [] else [("hpem_name", VStr h)] | None => [] end)
      []
      ([("mass", Some "amu")] ++ (if q_charge q =? 0 then [] else [("charge", Some "e")]) ++
       unit_of "eV" (datum "h_form" (q_hform q)) ++ unit_of "K" (datum "lj_epsilon" (q_epsilon q)) ++
       unit_of "A" (datum "lj_sigma" (q_sigma q))) = Ok s.

(** ** Reactions *)

(** The reactions a reaction stands for: itself, or those it lumps. *)
Fixpoint resolved (r : qrx) : list qrx :=
  match r with
  | QRx _ _ _ [] => [r]
  | QRx _ _ _ parents => flat_map resolved parents
  end.

(** The first element of [l] with the property [P]. *)
Definition first_with {A} (P : A -> Prop) (l : list A) (x : A) : Prop :=
  exists l1 l2, l = l1 ++ x :: l2 /\ P x /\ forall y, In y l1 -> ~ P y.

(** Cross sections (type 2) are preferred for electron collisions, rate
    coefficients (types 1 and 3) for others. *)
Definition preferred (electron : Prop) (d : qds) : Prop :=
  (electron /\ ds_type d = 2) \/ (~ electron /\ (ds_type d = 1 \/ ds_type d = 3)).
Definition chosen (electron : Prop) (l : list qds) (d : qds) : Prop :=
  first_with (preferred electron) l d \/
  ((forall x, In x l -> ~ preferred electron x) /\ exists l', l = d :: l').

(** A, its unit, n, E, its unit: fitted to the cross section, or stored. *)
Definition rate_given (n : nat) (d : qds) (a : flt) (ua : string) (b c : flt) (uc : string) : Prop :=
  (ds_xsec d = true /\ ds_fit d = (a, b, c) /\ uc = "eV" /\ In (n, ua) [(2%nat, "cm3.s-1"); (3%nat, "cm6.s-1")]) \/
  (ds_xsec d = false /\ ds_arrhenius d = true /\
   exists pa pb pc, first_with (fun p => exists x, p_name p = ("A" ++ x)%string) (ds_params d) pa /\
     first_with (fun p => p_name p = "n") (ds_params d) pb /\
     first_with (fun p => exists x, p_name p = (x ++ "E")%string) (ds_params d) pc /\
     a = p_value pa /\ ua = p_units pa /\ b = p_value pb /\ c = p_value pc /\ uc = p_units pc).

(** The energy lost by electrons in inelastic collisions they survive. *)
Definition above_zero (x : flt) : Prop := x = PInf \/ exists v, x = Fin v /\ (0 < v)%Q.
Definition loss_given (ls rs : list string) (d : qds) (c : flt) (loss : option flt) : Prop :=
  (In "e" ls /\ In "e" rs /\ ~ Permutation ls rs /\
   ((ds_arrhenius d = true /\ above_zero c /\ loss = Some c) \/
    (ds_arrhenius d = true /\ ~ above_zero c /\ loss = None) \/
    (ds_arrhenius d = false /\ ds_xsec d = true /\
     exists t, (ds_threshold d = Some t \/ (ds_threshold d = None /\ t = ds_thresh d)) /\
       loss = if feqb t fzero then None else Some t))) \/
  (~ (In "e" ls /\ In "e" rs /\ ~ Permutation ls rs) /\ loss = None).

Definition doi_given (l : list (option string)) (x : option string) : Prop :=
  (exists s, x = Some s /\ first_with (fun y => y <> None /\ y <> Some "None") l (Some s)) \/
  (x = None /\ forall y, In y l -> y = None \/ y = Some "None").

(** [r] is the reaction with the data of [q], between species of [sps]. *)
Definition qrx_object (E : env) (sps : list rp) (q : qrx) (r : reaction) : Prop :=
  exists m children datasets master d lhs rhs ls rs ls0 rs0 a ua b c uc loss doi,
    q = QRx m children datasets [] /\ (children = [master] \/ (children = [] /\ master = m)) /\
    Forall2 (fun p s => In s sps /\ qsp_object p s) (m_lhs master) lhs /\
    Forall2 (fun p s => In s sps /\ qsp_object p s) (m_rhs master) rhs /\
    Forall2 qname (m_lhs master) ls /\ Forall2 qname (m_rhs master) rs /\
    Forall2 qname (m_lhs m) ls0 /\ Forall2 qname (m_rhs m) rs0 /\
    (forall p, In p (m_all master) <-> In p (m_lhs master ++ m_rhs master)) /\
    chosen (In "e" ls) datasets d /\ rate_given (List.length ls) d a ua b c uc /\ loss_given ls rs d c loss /\ doi_given (ds_dois d) doi /\
    reaction_init E (VInt (m_pk m)) lhs rhs
      ([("arrh_a", VFlt a); ("qdb_r_id", VInt (m_pk m)); ("qdb_ds_id", VInt (ds_pk d))] ++
       datum "arrh_b" (Some b) ++ datum "arrh_c" (Some c) ++
       match loss with Some f => [("el_en_loss", VFlt f)] | None => [] end ++
       match ds_entry d with Some z => if z <? 0 then [("special_number", VInt z)] else [] | None => [] end ++
       match doi with Some s => [("doi", VStr s)] | None => [] end ++
       (if m_pk master =? m_pk m then [] else [("comments", VStr (str_join " + " ls0 ++ " > " ++ str_join " + " rs0))]))
      []
      ([("arrh_a", Some ua)] ++ unit_of uc (datum "arrh_c" (Some c)) ++
       match loss with Some _ => [("el_en_loss", Some "eV")] | None => [] end) = Ok r.

(** ** Imports into any builder *)

(** The species and sides of a reaction that stands for itself. *)
Definition leaf_of (r : qrx) (m : qsides) (children : list qsides) (datasets : list qds) : Prop :=
  exists parents, In (QRx m children datasets parents) (resolved r).

(** Every species has a formula and those of a reaction are all listed. *)
Definition well_formed (r : qrx) : Prop :=
  forall m children datasets s p, leaf_of r m children datasets -> In s (m :: children) ->
    (In p (m_all s) -> q_formula p <> "") /\ (In p (m_lhs s ++ m_rhs s) -> In p (m_all s)).
Definition op_well_formed (o : qop) : Prop :=
  match o with
  | QCall (HCall o) => well_named o
  | QCall (HImport _ _) => True
  | QSpecies q => q_formula q <> ""
  | QReaction r => well_formed r
  | QChemistry l => forall r, In r l -> well_formed r
  end.

(** At most one lumped reaction, and a dataset with a rate. *)
Definition importable (m : qsides) (children : list qsides) (datasets : list qds) : Prop :=
  exists master ls d a ua b c uc, (children = [master] \/ (children = [] /\ master = m)) /\ Forall2 qname (m_lhs master) ls /\
    chosen (In "e" ls) datasets d /\ rate_given (List.length ls) d a ua b c uc.
