(** Property theorems C138 and C139: comparing computed covariances with an example workbook. *)
Require Import Reals ZArith Ascii String List Bool Lra Lia.
Require Import Verif.Base Verif.NumPy Verif.M_Utils Verif.M_DmsText Verif.M_Text Verif.Spec_Text Verif.M_Ingest Verif.Spec_Ingest.
Require Import Verif.P_Ingest Verif.P_Ingest4 Verif.M_Validate Verif.Spec_Validate Verif.P_Validate Verif.P_Validate2 Verif.P_Validate3 Verif.P_Validate4 Verif.P_Validate5.
Import ListNotations.
Open Scope list_scope.
Local Open Scope nat_scope.

(** * C138 *)
Theorem C138_report : forall engine py wb model tr ta r, validate_workbook engine py wb model tr ta = Some r ->
  exists ex s inp c, load_iscwsa_example py wb = Some ex /\ metres_per_unit (ex_wellpath ex) s /\
    describes_input (ex_wellpath ex) model s inp /\ engine inp = Some c /\
    (exists rows, selects (comparable c s) (ex_validation ex) rows /\ Forall2 (describes_source tr ta c s) rows (rp_sources r)) /\
    length (rp_totals r) = length (cs_md (ex_totals ex)) /\
    (forall k md nev, nth_error (cs_md (ex_totals ex)) k = Some md -> nth_error (cs_nev (ex_totals ex)) k = Some nev ->
       exists o, nth_error (rp_totals r) k = Some o /\ describes_total tr ta s c md nev k o) /\
    (forall n, In n (rp_missing r) <-> (exists t, In t (ex_terms ex) /\ tm_code t = n) /\ ~ modelled c n) /\ alphabetical (rp_missing r).
Proof. exact report_read. Qed.
Print Assumptions C138_report.
Theorem C138_runs : forall engine py wb model tr ta, (exists r, validate_workbook engine py wb model tr ta = Some r) <->
  exists ex inp c, load_iscwsa_example py wb = Some ex /\ build_survey (ex_wellpath ex) model = Some inp /\ engine inp = Some c /\
    length (cs_md (ex_totals ex)) <= length (cp_total c) /\
    forall v covs x i s, In v (ex_validation ex) -> dget text_eqb (vl_source v) (cp_errors c) = Some covs -> metres_per_unit (ex_wellpath ex) s ->
      vl_md v = Fin x -> station_at c (x * s) i -> i < length covs /\ usable (vl_calculated v).
Proof. exact report_runs. Qed.
Print Assumptions C138_runs.
Theorem C138_errors : forall engine py wb model tr ta r, validate_workbook engine py wb model tr ta = Some r ->
  (forall o target, In o (rp_sources r) -> sc_calculated o = map Fin target -> length target = 6 -> errors_of target (sc_welleng o) (sc_abs o) (sc_rel o)) /\
  (forall o target, In o (rp_totals r) -> tc_workbook o = map Fin target -> length target = 6 -> errors_of target (tc_welleng o) (tc_abs o) (tc_rel o)).
Proof. exact report_errors. Qed.
Print Assumptions C138_errors.
Theorem C138_zero_targets : forall engine py wb model tr ta r o, validate_workbook engine py wb model tr ta = Some r -> (0 <= tr)%R ->
  In o (rp_sources r) -> (forall t, In t (sc_calculated o) -> t = Fin 0 \/ t = NaN) -> sc_ok o = true.
Proof. exact zero_accepts. Qed.
Print Assumptions C138_zero_targets.
Theorem C138_by_depth_refuted : exists r o, validate_workbook (constant_engine 7) no_text (book [total_cells 30 7] []) (lit "M") (1 / 1000) (1 / 1000000) = Some r /\
  rp_totals r = [o] /\ tc_md o = Fin (30 * 1) /\ tc_workbook o = [Fin 7; Fin 0; Fin 0; Fin 0; Fin 0; Fin 0] /\ tc_ok o = false /\
  exists c m, constant_engine 7 (mkInput [] NaN NaN NaN NaN NaN [] [] [] []) = Some c /\ nth_error (cp_md c) 1 = Some 30%R /\ nth_error (cp_total c) 1 = Some m /\
    components m = [7; 0; 0; 0; 0; 0]%R.
Proof. exact totals_by_row. Qed.
Print Assumptions C138_by_depth_refuted.
(** a workbook whose one row is compared at the station at 30 m and accepted exactly if its target is near 7 *)
Example C138_case : exists r o, validate_workbook (constant_engine 7) no_text (book (mk_totals [(0, 0); (30, 7)]%R) (mk_checks [(30%R, [0; 0; 0; 0; 0; 0; 7; 0; 0; 0; 0; 0]%R)])) (lit "M") milli tiny = Some r /\
  rp_sources r = [o] /\ sc_code o = lit "ABZ" /\ sc_md o = Fin 30 /\ sc_welleng o = [7; 0; 0; 0; 0; 0]%R /\ exit_code r = 0.
Proof.
  destruct (confirmed_book 7) as (r & o & A & B & C & D & E & F). exists r, o. repeat (split; [assumption|]). apply F. left. unfold within_abs.
  repeat constructor; eexists; (split; [reflexivity|]); unfold tiny, Rabs; destruct Rcase_abs; lra.
Qed.

(** * C139 *)
Theorem C139_sources : forall r n b, dget text_eqb n (source_pass_fail r) = Some b <->
  (exists s, In s (rp_sources r) /\ sc_code s = n) /\ (b = true <-> forall s, In s (rp_sources r) -> sc_code s = n -> sc_ok s = true).
Proof. exact pass_fail_spec. Qed.
Print Assumptions C139_sources.
Theorem C139_exit_code : forall r, (exit_code r = 0 <-> forall s, In s (rp_sources r) -> sc_ok s = true) /\ (exit_code r = 0 \/ exit_code r = 1).
Proof. exact exit_code_spec. Qed.
Print Assumptions C139_exit_code.
Theorem C139_nothing_compared : forall engine py wb model tr ta r, validate_workbook engine py wb model tr ta = Some r ->
  (forall ex inp c s, load_iscwsa_example py wb = Some ex -> engine inp = Some c -> metres_per_unit (ex_wellpath ex) s -> forall v, In v (ex_validation ex) -> ~ comparable c s v) -> rp_sources r = [] /\ exit_code r = 0.
Proof. exact nothing_compared. Qed.
Print Assumptions C139_nothing_compared.
Theorem C139_totals_refuted : exists r o, validate_workbook (constant_engine 0) no_text (book [total_cells 0 0; total_cells 30 5] []) (lit "M") (1 / 1000) (1 / 1000000) = Some r /\
  In o (rp_totals r) /\ tc_ok o = false /\ exit_code r = 0.
Proof. exact totals_ignored. Qed.
Print Assumptions C139_totals_refuted.
(** a row between the stations is left out without a word; a wrong target is reported *)
Example C139_case : exists r, validate_workbook (constant_engine 7) no_text (book (mk_totals [(0, 0); (30, 7)]%R) (mk_checks [(15%R, [0; 0; 0; 0; 0; 0; 9; 9; 9; 9; 9; 9]%R)])) (lit "M") milli tiny = Some r /\
  rp_sources r = [] /\ rp_missing r = [] /\ exit_code r = 0.
Proof. exact between_stations. Qed.
Example C139_case_fails : exists r o, validate_workbook (constant_engine 7) no_text (book (mk_totals [(0, 0); (30, 7)]%R) (mk_checks [(30%R, [0; 0; 0; 0; 0; 0; 9; 0; 0; 0; 0; 0]%R)])) (lit "M") milli tiny = Some r /\
  rp_sources r = [o] /\ exit_code r = 1.
Proof.
  destruct (confirmed_book 9) as (r & o & A & B & _ & _ & _ & F). exists r, o. split; [exact A|]. split; [exact B|].
  destruct (proj2 (exit_code_spec r)) as [E|E]; [|exact E]. exfalso. apply F in E. destruct E as [E|[_ E]]; inversion E as [|? ? ? ? H]; subst.
  - destruct H as (x & X & L). injection X as <-. revert L. unfold tiny, Rabs. destruct Rcase_abs; lra.
  - destruct H as [H|(x & X & L)]; [discriminate|]. injection X as <-. revert L. unfold milli, Rabs. repeat destruct Rcase_abs; lra.
Qed.
