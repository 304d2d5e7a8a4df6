(** Property theorems C145: reading the workbook of the standard set of wellpaths. *)
Require Import Reals ZArith Ascii String List Bool Lia.
Require Import Verif.Base Verif.NumPy Verif.M_Utils Verif.M_DmsText Verif.M_Text Verif.Spec_Text Verif.M_Ingest Verif.Spec_Ingest.
Require Import Verif.M_StandardSet Verif.Spec_StandardSet Verif.P_StandardSet.
Import ListNotations.
Open Scope list_scope.
Local Open Scope nat_scope.

(** * C145 *)
Theorem C145_read : forall wb d, NoDup (map fst wb) -> get_standard_data wb = Some d ->
  selects a_well (map fst wb) (map fst (d_wells d)) /\
  (forall name w, In (name, w) (d_wells d) -> describes_well wb name w) /\ describes_rule wb (d_acr d).
Proof. exact standard_data_read. Qed.
Print Assumptions C145_read.
Theorem C145_fails : forall wb, NoDup (map fst wb) ->
  (get_standard_data wb = None <->
   (exists name, In name (map fst wb) /\ blanks name) \/
   (exists name, In name (map fst wb) /\ a_well name /\ name <> reference /\ ~ In (clearance_of name) (map fst wb))).
Proof. exact standard_data_fails. Qed.
Print Assumptions C145_fails.
Theorem C145_no_survey : forall (A : Type) (rest : well -> option A) wb d, NoDup (map fst wb) ->
  get_standard_data wb = Some d -> make_survey rest d = None.
Proof. exact no_survey_from_data. Qed.
Print Assumptions C145_no_survey.
Theorem C145_factors_refuted : exists wb d w1 w2 mds, NoDup (map fst wb) /\ get_standard_data wb = Some d /\
  In (lit "01 - well", w1) (d_wells d) /\ In (lit "01 - left well", w2) (d_wells d) /\
  w_sf w1 = w_sf w2 /\ In ("MD"%string, mds) (w_columns w1) /\ option_map (@length cell) (w_sf w1) = Some 1 /\ length mds = 2.
Proof. exact factors_not_matched. Qed.
Print Assumptions C145_factors_refuted.
(** a workbook with a reference well and two others *)
Example C145_case : NoDup (map fst small_book) /\ exists d, get_standard_data small_book = Some d /\
  map fst (d_wells d) = [lit "Reference well"; lit "01 - well"; lit "01 - left well"] /\
  (exists w, dget text_eqb (lit "Reference well") (d_wells d) = Some w /\ dget String.eqb "IncDeg"%string (w_columns w) = Some [Blank; Num 1]).
Proof. split; [exact small_names|exact small_read]. Qed.
