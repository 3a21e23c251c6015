(** A concrete report. *)
From Coq Require Import Reals Qreals Lra.
From Verif Require Import Base Species Reactions Chemistry ChemSpec ChemGetters MolSpec MolExamples ExtReal Equations EqSpec EqExamples EqReal EqWall EqMore
  Views ConserveSpec Conserve Rates RatesProofs BalanceExamples.
Open Scope R_scope.
Lemma reports_example : exists s e ws ss sw, denotes cB (RName "O+") s /\ nth_error (get_species cB false false true) 1 = Some s /\
  eq_init K1 Combined vB parB = Ok e /\ List.length ws = List.length (v_names vB) /\
  answers e (CVolume (state n1 1) (Some (map X [3; 5]%R))) (AVec (map X ss)) /\
  answers e (CFluxes (state n1 1) None None None) (AVec (map X ws)) /\ answers e (CSurface (state n1 1) None None) (AVec (map X sw)).
Proof.
  destruct reportB as (s & De & Nk). destruct (surfaceB Combined 1) as (e & ws & sw & I & L & A & B & _).
  destruct (volumeB Combined (state n1 1)) as (e' & ss & I' & V & _). rewrite I in I'. injection I' as <-.
  exists s, e, ws, ss, sw. auto 10.
Qed.
