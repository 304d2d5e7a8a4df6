(** Property theorems C151: the formulas of the JSON tool models and the functions of
    the same names. *)
Require Import Reals ZArith Ascii String List Bool Arith Lra Lia.
Require Import Verif.Base Verif.NumPy Verif.Spec Verif.M_Error Verif.M_Weights Verif.M_FormulaData Verif.M_Formulas Verif.Spec_Formulas
  Verif.P_Formulas Verif.P_Formulas2 Verif.P_Formulas3.
Require Import Verif.P_FormulaNames.
Import ListNotations.
Local Open Scope R_scope.

(** * C151 *)
Theorem C151_every : forall f, In f json_formulas ->
  In (f_function f) (same_functions ++ unknown_functions ++ json_only_functions ++ ["ABIZ"; "AMIL"]%string).
Proof. exact every_function. Qed.
Print Assumptions C151_every.
Theorem C151_same : forall azi tort rev4 h lat l f code mag p, In f json_formulas -> In (f_function f) same_functions -> sound_header h ->
  (In (f_function f) vertical_functions -> Forall (fun s => sin (w_inc s) <> 0 /\ h_limit h <= w_inc s) l) ->
  (f_function f = "XYM2"%string -> p = "systematic"%string) ->
  interpreted rev4 h lat l f code mag p = call_func azi tort rev4 h l code (underscored (f_function f)) mag p.
Proof. exact interpreted_same. Qed.
Print Assumptions C151_same.
Theorem C151_unknown : forall f h lat s, In f json_formulas -> (In (f_function f) unknown_functions <-> term_row h lat f s = None).
Proof. exact unknown_row. Qed.
Print Assumptions C151_unknown.
Theorem C151_silent : forall rev4 h lat l f code mag p, In f json_formulas -> In (f_function f) unknown_functions -> known_propagation p -> l <> [] ->
  exists e, interpreted rev4 h lat l f code mag p = Made e /\ er_cov_NEV e = repeat mzero (length l).
Proof. exact unknown_silent. Qed.
Print Assumptions C151_silent.
Theorem C151_vertical_refuted : forall rev4 h lat l f code mag p, In f json_formulas -> In (f_function f) vertical_functions ->
  (exists s, In s l /\ sin (w_inc s) = 0) -> interpreted rev4 h lat l f code mag p = NotFinite.
Proof. exact vertical_formulas. Qed.
Print Assumptions C151_vertical_refuted.
Theorem C151_vertical_function : forall azi tort rev4 h l code g mag p, In g vertical_functions -> known_propagation p ->
  (3 <= length l)%nat -> h_G h <> 0 -> azi = "true"%string \/ azi = "grid"%string ->
  exists e, call_func azi tort rev4 h l code (underscored g) mag p = Made e.
Proof. exact vertical_functions_made. Qed.
Print Assumptions C151_vertical_function.
Theorem C151_abiz_refuted : forall h lat s f, In f json_formulas -> f_function f = "ABIZ"%string -> sound_header h -> accuracy < funky s / h_G h ->
  exists r w, term_row h lat f s = Some (Some r) /\ w_ABIZ h s = Some w /\ vx r = 0 /\ vx w = 0 /\ vy r = vy w /\ vz w = h_G h ^ 2 * vz r.
Proof. exact abiz_row. Qed.
Print Assumptions C151_abiz_refuted.
Theorem C151_amil : forall azi tort rev4 h lat l f code mag p, In f json_formulas -> f_function f = "AMIL"%string -> sound_header h -> known_propagation p ->
  exists e e', interpreted rev4 h lat l f code mag p = Made e /\ call_func azi tort rev4 h l code "AMIL" mag p = Made e' /\
    er_e_DIA e = map (vscale (-1)) (er_e_DIA e') /\ er_cov_NEV e = er_cov_NEV e'.
Proof. exact amil_same. Qed.
Print Assumptions C151_amil.
Theorem C151_json_only : forall azi tort rev4 h l code mag p g, In g (json_only_functions ++ json_only_unknown) ->
  call_func azi tort rev4 h l code (underscored g) mag p = Raises.
Proof. exact json_only_raises. Qed.
Print Assumptions C151_json_only.
(** a deviated station, a vertical one, a usual header *)
Definition header_case : header := mkHeader 9.8 50000 1 0.0001.
Definition deviated : wstation := mkWS 1000 1 1 1 1 900.
Definition plumb_station : wstation := mkWS 500 0 0 0 0 500.
Example C151_case :
  sound_header header_case /\ In t_XYM3 json_formulas /\ In (f_function t_XYM3) same_functions /\ In (f_function t_XYM3) vertical_functions /\
  sin (w_inc deviated) <> 0 /\ h_limit header_case <= w_inc deviated /\ sin (w_inc plumb_station) = 0 /\
  In t_XCLA json_formulas /\ In (f_function t_XCLA) unknown_functions /\ known_propagation "random" /\
  In t_ABIZ json_formulas /\ f_function t_ABIZ = "ABIZ"%string /\ accuracy < funky deviated / h_G header_case /\
  In t_AMIL json_formulas /\ f_function t_AMIL = "AMIL"%string.
Proof.
  pose proof PI2_3_2 as P. unfold PI2 in P.
  assert (C : 0 < cos 1) by (apply cos_gt_0; lra). assert (S1 : 0 < sin 1) by (apply sin_gt_0; lra).
  split; [unfold sound_header, header_case; simpl; repeat split; lra|].
  split; [unfold json_formulas; simpl; tauto|]. split; [simpl; tauto|]. split; [simpl; tauto|].
  split; [simpl; lra|]. split; [simpl; lra|]. split; [simpl; apply sin_0|].
  split; [unfold json_formulas; simpl; tauto|]. split; [simpl; tauto|]. split; [unfold known_propagation; simpl; tauto|].
  split; [unfold json_formulas; simpl; tauto|]. split; [reflexivity|].
  split; [|split; [unfold json_formulas; simpl; tauto|reflexivity]].
  unfold funky, accuracy, deviated, header_case; simpl. pose proof (sin2_cos2 1) as Q. unfold Rsqr in Q.
  assert (sin 1 <= 19 / 20).
  { destruct (Rle_lt_dec (sin 1) (19/20)); auto. exfalso.
    assert (H : 1/2 < cos 1) by (rewrite <- cos_PI3; apply cos_decreasing_1; lra).
    nra. }
  assert (sin 1 * sin 1 <= 361/400) by nra.
  apply (Rlt_le_trans _ (0.1 / 9.8)); [lra|]. apply Rmult_le_compat_r; [lra|]. nra.
Qed.
(** what a name in a formula stands for *)
Theorem C151_names : forall h lat s,
  formula_value h lat s "MD" = Some (Some (w_md s)) /\ formula_value h lat s "Inc" = Some (Some (w_inc s)) /\
  formula_value h lat s "AzT" = Some (Some (w_azt s)) /\ formula_value h lat s "AzM" = Some (Some (w_azm s)) /\
  formula_value h lat s "Az" = Some (Some (w_azg s)) /\ formula_value h lat s "TVD" = Some (Some (w_tvd s)) /\
  formula_value h lat s "Gfield" = Some (Some (h_G h)) /\ formula_value h lat s "Dip" = Some (Some (h_dip h)) /\
  (h_btotal h <> 0 -> formula_value h lat s "BField" = Some (Some (h_btotal h))) /\
  (h_btotal h = 0 -> formula_value h lat s "BField" = Some (Some 50000)) /\
  formula_value h lat s "EarthRate" = Some (Some 0.262516) /\
  formula_value h lat s "Latitude" = Some (Some (lat * (PI / 180))) /\ formula_value h lat s "RAD" = Some (Some (PI / 180)).
Proof. exact formula_names. Qed.
Print Assumptions C151_names.
