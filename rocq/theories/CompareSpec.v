(** What is claimed about the comparison of reduction runs. *)
From Verif Require Import Base BaseLemmas Species Reactions Chemistry ChemSpec Morris MorrisStats Tables InitialGuess
  GlobalModel GlobalSpec Reduction ReductionSpec Compare.
Open Scope Q_scope.

(** [h] is the history of a reduction run of the chemistry [c0]: a base run
    and removals with backtracking. *)
Definition history_of E fhash default_dir scan (k : rconf) (c0 : chem) (h : list hrow) : Prop :=
  exists backend g s st, reachable E c0 /\ declared_exist c0 /\ 0 <= rc_max k /\ fs_ok s /\ gm_chem g = Some c0 /\
    iterated E fhash default_dir scan backend k true g s st /\ r_hist st = h.

(** The files of this run are in its directory. *)
Definition on_disk (s : gfs) (k : rconf) (h : list hrow) : Prop :=
  fget (hist_path k) (fs_files s) = Some (CHist h) /\ fget (meta_path k) (fs_files s) = Some (meta_of k).

(** [m] are the elements of [l] with the property [P], in order. *)
Inductive picked {A} (P : A -> Prop) : list A -> list A -> Prop :=
| pk_nil : picked P [] []
| pk_take x l m : P x -> picked P l m -> picked P (x :: l) (x :: m)
| pk_skip x l m : ~ P x -> picked P l m -> picked P (x :: l) m.

(** The place of a row in the figure: number of species removed, error in
    percent. *)
Definition spot (r : hrow) (x : Q) (y : flt) : Prop :=
  x = inject_Z (h_removed r) /\
  match h_base r with Fin q => exists z, y = Fin z /\ z == 100 * q | e => y = e end.
Definition spots (rs : list hrow) (pts : list (Q * flt)) : Prop :=
  Forall2 (fun r p => spot r (fst p) (snd p)) rs pts.

(** The removal of [r] was undone because of its error, and [p] is the last
    iteration before it that stayed. *)
Definition dead_end_from (k : rconf) (h : list hrow) (p r : hrow) : Prop :=
  exists h1 h2 h3, h = (h1 ++ p :: h2 ++ r :: h3)%list /\ stays k true p /\
    (forall q, In q h2 -> ~ stays k true q) /\ h_success r = Some true /\ over_limit k (h_base r).

(** One run as it is drawn: its style, the style of its dead ends, its label,
    its arguments and its history. *)
Definition drawn_run : Type := string * string * string * rconf * list hrow.
Definition d_style (d : drawn_run) : string := fst (fst (fst (fst d))).
Definition d_dead (d : drawn_run) : string := snd (fst (fst (fst d))).
Definition d_label (d : drawn_run) : string := snd (fst (fst d)).
Definition d_conf (d : drawn_run) : rconf := snd (fst d).
Definition d_hist (d : drawn_run) : list hrow := snd d.

(** The ordinary styles: seven colours in turn. *)
Definition colours : list string := ["b"; "g"; "r"; "c"; "m"; "y"; "k"]%string.
Definition ring (suffix : string) (i : nat) : string := (nth (i mod 7) colours "" ++ suffix)%string.

(** The runs [ds] are drawn with the styles and labels that were passed, or
    the ordinary ones. *)
Definition styled (o : option (list string)) (suffix : string) (l : list string) : Prop :=
  match o with
  | Some given => exists rest, given = (l ++ rest)%list
  | None => (List.length l <= 70)%nat /\ forall i x, nth_error l i = Some x -> x = ring suffix i
  end.
Definition dressed (a : plot_args) (ds : list drawn_run) : Prop :=
  styled (pa_styles a) "-o" (map d_style ds) /\ styled (pa_dead_styles a) ":X" (map d_dead ds) /\
  match pa_labels a with
  | Some given => exists rest, given = (map d_label ds ++ rest)%list
  | None => forall d, In d ds -> rc_id (d_conf d) <> ""%string /\ d_label d = rc_id (d_conf d)
  end /\
  (pa_annotate a = true -> forall d, In d ds -> d_style d <> ""%string /\ d_dead d <> ""%string).

(** The line of a run: one point per iteration that stays. *)
Definition run_line (d : drawn_run) (x : drawing) : Prop :=
  exists rs pts, picked (stays (d_conf d) true) (d_hist d) rs /\ spots rs pts /\ rs <> [] /\ x = DLine pts (d_style d) (Some (d_label d)).

(** A dead end: a line to the point, and the point. *)
Definition dead_line (d : drawn_run) (p r : hrow) (x : drawing) : Prop :=
  exists pts st, spots [p; r] pts /\ x = DLine pts st None /\
    ((exists c, (st ++ String c EmptyString)%string = d_dead d) \/ (st = ""%string /\ d_dead d = ""%string)).
Definition dead_point (d : drawn_run) (r : hrow) (x : drawing) : Prop :=
  exists pts, spots [r] pts /\ x = DLine pts (d_dead d) None.

(** The vertical line through the last iteration that stays. *)
Definition end_mark (d : drawn_run) (x : drawing) : Prop :=
  exists h1 r h2 y1 y2, d_hist d = (h1 ++ r :: h2)%list /\ stays (d_conf d) true r /\ (forall q, In q h2 -> ~ stays (d_conf d) true q) /\
    x = DLine [(inject_Z (h_removed r), Fin y1); (inject_Z (h_removed r), Fin y2)] (d_dead d) None.

(** The name of a species in a figure, by characters, unless the caller has
    another text for it. *)
Definition shown_char (c : ascii) : string :=
  if memS (String c "") ["+"; "-"]%string then ("$^{" ++ String c "}$")%string
  else if memS (String c "") ["1"; "2"; "3"; "4"; "5"; "6"; "7"; "8"; "9"]%string then ("$_{" ++ String c "}$")%string
  else String c "".
Definition shown_text (s : string) : string := String.concat "" (map shown_char (chars s)).
Definition caption (a : plot_args) (s t : string) : Prop :=
  match sget s (pa_names a) with Some u => t = u | None => t = shown_text s end.

(** A text of colour [style], next to the point of the row [r]. *)
Definition text_at (a : plot_args) (r : hrow) (raw style : string) (x : drawing) : Prop :=
  exists t q y c rest, caption a raw t /\ spot r q y /\ style = String c rest /\
    x = DText t (q + fst (pa_shift a), match y with Fin z => Fin (z + snd (pa_shift a)) | e => e end) (String c EmptyString).

(** The line at the allowed error. *)
Definition top_line (m : Q) (x : drawing) : Prop :=
  exists x1 x2, x = DLine [(x1, Fin m); (x2, Fin m)] "r--" (Some "maximal allowed reduction error"%string).

(** The entries of the legend. *)
Definition legend (l : list drawing) : list (string * string) :=
  flat_map (fun x => match x with DLine _ style (Some label) => [(label, style)] | _ => [] end) l.

(** What belongs to the run [d]. *)
Definition belongs (a : plot_args) (d : drawn_run) (x : drawing) : Prop :=
  run_line d x \/
  (pa_endpoints a = true /\ end_mark d x) \/
  (pa_annotate a = true /\ exists r, In r (d_hist d) /\ stays (d_conf d) true r /\
     text_at a r (str_join ", " (match h_species r with Some y => y :: h_more r | None => [] end)) (d_style d) x) \/
  (pa_dead_ends a = true /\ exists p r, dead_end_from (d_conf d) (d_hist d) p r /\
     (dead_line d p r x \/ dead_point d r x \/
      (pa_annotate a = true /\ exists y, h_species r = Some y /\ text_at a r y (d_dead d) x))).

(** The figure [f] shows the runs [ds] with the allowed error [m]. *)
Record shows (a : plot_args) (m : Q) (ds : list drawn_run) (f : figure) : Prop := {
  sh_line : forall d, In d ds -> exists x, In x (fig_draw f) /\ run_line d x;
  sh_dead : pa_dead_ends a = true -> forall d p r, In d ds -> dead_end_from (d_conf d) (d_hist d) p r ->
    exists x y, In x (fig_draw f) /\ dead_line d p r x /\ In y (fig_draw f) /\ dead_point d r y;
  sh_note : pa_annotate a = true -> forall d r, In d ds -> In r (d_hist d) -> stays (d_conf d) true r ->
    exists x, In x (fig_draw f) /\ text_at a r (str_join ", " (match h_species r with Some y => y :: h_more r | None => [] end)) (d_style d) x;
  sh_dead_note : pa_annotate a = true -> pa_dead_ends a = true -> forall d p r y, In d ds -> dead_end_from (d_conf d) (d_hist d) p r ->
    h_species r = Some y -> exists x, In x (fig_draw f) /\ text_at a r y (d_dead d) x;
  sh_end : pa_endpoints a = true -> forall d, In d ds -> exists x, In x (fig_draw f) /\ end_mark d x;
  sh_only : forall x, In x (fig_draw f) -> (exists d, In d ds /\ belongs a d x) \/ (pa_plot_max a = true /\ top_line m x);
  sh_legend : legend (fig_draw f) = (map (fun d => (d_label d, d_style d)) ds ++
    if pa_plot_max a then [("maximal allowed reduction error", "r--")] else [])%list%string
}.

(** A point is inside of the axes. *)
Definition inside (f : figure) (p : Q * flt) : Prop :=
  fst (fig_xlim f) <= fst p <= snd (fig_xlim f) /\
  exists y, snd p = Fin y /\ fst (fig_ylim f) <= y <= snd (fig_ylim f).
