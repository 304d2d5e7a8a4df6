(** Property theorems C140 to C143: diagnostic files and the verdicts on formulas. *)
Require Import Reals ZArith Ascii String List Bool Lra Lia.
Require Import Verif.Base Verif.NumPy Verif.M_Utils Verif.M_DmsText Verif.M_Text Verif.Spec_Text Verif.M_Ingest Verif.Spec_Ingest.
Require Import Verif.M_Validate Verif.Spec_Validate Verif.M_Copsegrove Verif.Spec_Copsegrove Verif.P_Copsegrove Verif.P_Copsegrove2 Verif.P_Copsegrove3 Verif.P_Copsegrove4 Verif.P_Copsegrove5.
Import ListNotations.
Open Scope list_scope.
Local Open Scope nat_scope.

(** * C140 *)
Theorem C140_sigma_lines : forall line code v, sig_match line = Some (code, v) <-> sig_line line code v.
Proof. exact sig_spec. Qed.
Print Assumptions C140_sigma_lines.
Theorem C140_station_lines : forall line md inc azi, station_match line = Some (md, inc, azi) <-> station_line line md inc azi.
Proof. exact station_match_spec. Qed.
Print Assumptions C140_station_lines.
Theorem C140_stations : forall lines, stations_in lines (parse_copsegrove lines).
Proof. exact parse_spec. Qed.
Print Assumptions C140_stations.
Theorem C140_order : forall lines sts, stations_in lines sts -> exists ks, selects is_station_line lines ks /\ Forall2 (fun l s => station_line l (st_md s) (st_inc s) (st_azi s)) ks sts.
Proof. exact stations_order. Qed.
Print Assumptions C140_order.
Theorem C140_tail_lost : forall lines tl, (forall l, In l tl -> ~ is_station_line l) -> parse_copsegrove (lines ++ tl) = parse_copsegrove lines.
Proof. exact tail_lost. Qed.
Print Assumptions C140_tail_lost.
(** a file of two lines has one station with one term *)
Example C140_case : parse_copsegrove demo_lines = [mkStation 30 (15 / 10) (- 2) [(lit "AB", (0, 5 / 10, 25 / 100)%R)]].
Proof. exact demo_parse. Qed.

(** * C141 *)
Theorem C141_aligned : forall stations term md inc azi sig, per_term_sigmas stations term = (md, inc, azi, sig) ->
  exists sub, selects (fun s => exists v, dget text_eqb term (st_sigmas s) = Some v) stations sub /\
    md = map st_md sub /\ inc = map st_inc sub /\ azi = map st_azi sub /\ Forall2 (fun s v => dget text_eqb term (st_sigmas s) = Some v) sub sig.
Proof. exact per_term_spec. Qed.
Print Assumptions C141_aligned.
Example C141_case : per_term_sigmas (parse_copsegrove demo_lines) (lit "AB") = ([30%R], [(15 / 10)%R], [(- 2)%R], [(0, 5 / 10, 25 / 100)%R]) /\
  per_term_sigmas (parse_copsegrove demo_lines) (lit "AC") = ([], [], [], []).
Proof. rewrite demo_parse. split; reflexivity. Qed.

(** * C142 *)
Theorem C142_order : forall eval lines terms tol, map vr_name (validate_random_terms eval lines terms tol) = map jt_name terms.
Proof. exact verdicts_order. Qed.
Print Assumptions C142_order.
Theorem C142_verdict : forall eval lines terms tol k t r,
  (forall f l, eval (parse_copsegrove lines) f = Some l -> one_each (parse_copsegrove lines) l) ->
  nth_error terms k = Some t -> nth_error (validate_random_terms eval lines terms tol) k = Some r ->
  let stations := parse_copsegrove lines in let ev := eval stations in
  (vr_verdict r = DEFERRED <-> deferred_mode (jt_mode t)) /\
  (vr_verdict r = UNKNOWN_PROP <-> ~ deferred_mode (jt_mode t) /\ jt_mode t <> lit "Random") /\
  (vr_verdict r = INTERP_FAIL <-> jt_mode t = lit "Random" /\ ~ evaluated ev t) /\
  (vr_verdict r = NOT_IN_COPSEGROVE <-> jt_mode t = lit "Random" /\ evaluated ev t /\ ~ mentioned (jt_name t) stations) /\
  (vr_verdict r = MATCH <-> exists d i a, compared ev stations t d i a /\ all_near (jt_name t) (jt_value t) tol stations d i a) /\
  (vr_verdict r = NEAR_MATCH <-> exists d i a, compared ev stations t d i a /\ ~ all_near (jt_name t) (jt_value t) tol stations d i a /\ all_near (jt_name t) (jt_value t) (5 * tol) stations d i a) /\
  ((exists d i a, compared ev stations t d i a) -> mentions (jt_name t) stations (vr_stations r)).
Proof. exact verdict_cases. Qed.
Print Assumptions C142_verdict.
Theorem C142_difference : forall eval lines terms tol k t r d i a,
  (forall f l, eval (parse_copsegrove lines) f = Some l -> one_each (parse_copsegrove lines) l) ->
  nth_error terms k = Some t -> nth_error (validate_random_terms eval lines terms tol) k = Some r ->
  let stations := parse_copsegrove lines in
  compared (eval stations) stations t d i a -> finite d -> finite i -> finite a ->
  exists e, vr_max_abs r = Fin e /\ greatest e (difference (jt_name t) (jt_value t) stations d i a).
Proof. exact verdict_difference. Qed.
Print Assumptions C142_difference.
Theorem C142_undefined_refuted : exists r, validate_random_terms (fun _ => demo_values NaN (Fin 0) (Fin (5 / 10))) demo_lines [demo_term] (5 / 10 ^ 4) = [r] /\ vr_verdict r = MATCH /\
  reading (lit "AB") (parse_copsegrove demo_lines) [NaN] [Fin 0] [Fin (5 / 10)] NaN (25 / 100).
Proof. exact undefined_matches. Qed.
Print Assumptions C142_undefined_refuted.
(** with a first value that is undefined the verdict is not a match *)
Example C142_case : exists r, validate_random_terms (fun _ => demo_values (Fin (25 / 100)) NaN (Fin (5 / 10))) demo_lines [demo_term] (5 / 10 ^ 4) = [r] /\ vr_verdict r = DIFFER /\
  mentioned (lit "AB") (parse_copsegrove demo_lines).
Proof.
  eexists. split; [reflexivity|]. rewrite demo_parse. split; [|eexists _, _; split; [left; reflexivity|reflexivity]].
  unfold validate_term. cbn -[Rlt_dec Rle_dec Rabs Rmult Rdiv Rminus].
  repeat match goal with |- context [greater ?x NaN] => rewrite (greater_nan x) end. reflexivity.
Qed.

(** * C143 *)
Theorem C143_verdict : forall eval legacy t r n,
  (forall f l, eval f = Some l -> length l = n) ->
  compare_term eval legacy t = Some r ->
  exists mag fn mode, in_radians (jt_unit t) (jt_value t) mag /\ function_name t fn /\ mode_name (jt_mode t) mode /\ tr_function r = fn /\ tr_name r = jt_name t /\
  (classify r = INTERP_FAILED <-> ~ evaluated eval t) /\
  (classify r = NO_LEGACY <-> evaluated eval t /\ legacy (jt_name t) fn mag mode = None) /\
  (classify r = T_MATCH <-> exists d i a l, values_of eval t d i a /\ legacy (jt_name t) fn mag mode = Some l /\ agrees (1 / 10 ^ 10) mag d i a l) /\
  (classify r = T_NEAR_MATCH <-> exists d i a l, values_of eval t d i a /\ legacy (jt_name t) fn mag mode = Some l /\ ~ agrees (1 / 10 ^ 10) mag d i a l /\ agrees (1 / 10 ^ 6) mag d i a l).
Proof. exact classify_spec. Qed.
Print Assumptions C143_verdict.
Theorem C143_difference : forall eval legacy t r n d i a l mag fn mode, (forall f v, eval f = Some v -> length v = n) -> compare_term eval legacy t = Some r ->
  values_of eval t d i a -> in_radians (jt_unit t) (jt_value t) mag -> function_name t fn -> mode_name (jt_mode t) mode -> legacy (jt_name t) fn mag mode = Some l ->
  finite d -> finite i -> finite a -> finite l -> exists e, tr_max_abs r = Fin e /\ greatest e (row_difference mag d i a l).
Proof. exact compare_difference. Qed.
Print Assumptions C143_difference.
Theorem C143_runs : forall eval legacy t n, (forall f l, eval f = Some l -> length l = n) -> 0 < n ->
  (forall l name fn mag mode, legacy name fn mag mode = Some l -> length l = 3 * n) -> exists r, compare_term eval legacy t = Some r.
Proof. exact compare_runs. Qed.
Print Assumptions C143_runs.
Theorem C143_relative_refuted : exists (eval : text -> option (list ext)) legacy t r, compare_term eval legacy t = Some r /\ classify r = T_MATCH /\
  exists d i a l, values_of eval t d i a /\ legacy (jt_name t) (lit "AB") 1%R (lit "random") = Some l /\ length l = 3 /\
    exists x, d = [Fin x] /\ nth_error l 0 = Some (Fin 0) /\ (1 / 10 ^ 9 * Rabs 0 + 1 / 10 ^ 12 < Rabs (x - 0))%R.
Proof. exact small_errors_match. Qed.
Print Assumptions C143_relative_refuted.
(** a weight function that gives twice the formula's value differs *)
Example C143_case : exists r, compare_term (demo_values (Fin 1) (Fin 0) (Fin 0)) (fun _ _ _ _ => Some [Fin 2; Fin 0; Fin 0]) demo_term = Some r /\ classify r = T_DIFFER.
Proof.
  destruct (compare_runs (demo_values (Fin 1) (Fin 0) (Fin 0)) (fun _ _ _ _ => Some [Fin 2; Fin 0; Fin 0]) demo_term 1) as (r & C); [intros f l; apply demo_one|lia|intros l ? ? ? ? E; injection E as <-; reflexivity|].
  exists r. split; [exact C|]. destruct (classify_spec _ _ _ r 1 (fun f l => demo_one _ _ _ f l) C) as (mag & fn & mode & U & _ & _ & _ & _ & A & B & D & E).
  assert (mag = 1%R) as -> by (destruct U as [[[H|[H|H]] _]|[_ ->]]; [discriminate|discriminate|discriminate|reflexivity]).
  assert (V : values_of (demo_values (Fin 1) (Fin 0) (Fin 0)) demo_term [Fin 1] [Fin 0] [Fin 0]) by (repeat split; reflexivity).
  assert (N : forall d i a l tol, values_of (demo_values (Fin 1) (Fin 0) (Fin 0)) demo_term d i a -> Some [Fin 2; Fin 0; Fin 0] = Some l -> (tol <= 1)%R -> ~ agrees tol 1 d i a l).
  { intros d i a l tol (X & _ & _) L T G. cbn in X. injection X as <-. injection L as <-. destruct (G 0 (Fin 1) (Fin 2)) as (x & y & Ex & Ey & H); [exists 0; auto|reflexivity|].
    injection Ex as <-. injection Ey as <-. revert H. unfold Rabs. destruct Rcase_abs; lra. }
  destruct (classify r); try reflexivity.
  - elim (proj1 A eq_refl). eexists _, _, _. exact V.
  - destruct (proj1 B eq_refl). discriminate.
  - destruct (proj1 D eq_refl) as (d & i & a & l & V' & L & G). elim (N d i a l _ V' L) with (2 := G). lra.
  - destruct (proj1 E eq_refl) as (d & i & a & l & V' & L & _ & G). elim (N d i a l _ V' L) with (2 := G). lra.
Qed.
