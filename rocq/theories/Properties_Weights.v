(** Property theorems C83-C91 (the weight functions of welleng/errors/tool_errors.py). *)
Require Import Reals ZArith Lra Psatz Lia Bool String List.
Require Import Verif.Base Verif.NumPy Verif.M_Utils Verif.M_Error Verif.Spec Verif.Spec_Error Verif.M_Weights Verif.Spec_Weights.
Require Import Verif.P_Error Verif.P_Error2 Verif.P_Weights Verif.P_Weights2 Verif.P_Weights3 Verif.P_Weights4
  Verif.P_Weights5 Verif.P_Weights6 Verif.P_Weights7 Verif.P_Weights8 Verif.P_Weights9 Verif.P_Weights10 Verif.P_Weights11
  Verif.P_Weights12 Verif.P_Weights13 Verif.P_Weights14 Verif.P_Weights15.
Import ListNotations.
Local Open Scope R_scope.

(** * C83 *)
Theorem C83_accelerometer_z_bias : forall h s tf, sensible h -> 0 < sin (w_inc s) ->
  exists w, gives "ABZ" h s w /\ response (tool_at h s tf) ez_ vzero w.
Proof. exact fn_abz. Qed.
Print Assumptions C83_accelerometer_z_bias.
Theorem C83_accelerometer_z_scale : forall h s tf, sensible h -> 0 < sin (w_inc s) ->
  exists w, gives "ASZ" h s w /\
    response (tool_at h s tf) (only_z (acc_reading (tool_at h s tf))) vzero w.
Proof. exact fn_asz. Qed.
Print Assumptions C83_accelerometer_z_scale.
Theorem C83_magnetometer_z_bias : forall h s tf, sensible h -> 0 < sin (w_inc s) ->
  exists w, gives "MBZ" h s w /\ gives "AMIL" h s w /\ response (tool_at h s tf) vzero ez_ w.
Proof. exact fn_mbz. Qed.
Print Assumptions C83_magnetometer_z_bias.
Theorem C83_magnetometer_z_scale : forall h s tf, sensible h -> 0 < sin (w_inc s) ->
  exists w, gives "MSZ" h s w /\
    response (tool_at h s tf) vzero (only_z (mag_reading (tool_at h s tf))) w.
Proof. exact fn_msz. Qed.
Print Assumptions C83_magnetometer_z_scale.
Theorem C83_accelerometer_xy_bias : forall h s tf, sensible h -> 0 < sin (w_inc s) ->
  exists w1 w2, gives "ABXY_TI1" h s w1 /\ gives "ABXY_TI2" h s w2 /\
    response (tool_at h s tf) ex_ vzero (vadd (vscale (sin tf) w1) (vscale (cos tf) w2)) /\
    response (tool_at h s tf) ey_ vzero (vsub (vscale (cos tf) w1) (vscale (sin tf) w2)).
Proof. exact fn_abxy. Qed.
Print Assumptions C83_accelerometer_xy_bias.
Theorem C83_magnetometer_xy_bias : forall h s tf, sensible h -> 0 < sin (w_inc s) ->
  exists w1 w2, gives "MBXY_TI1" h s w1 /\ gives "MBXY_TI2" h s w2 /\
    response (tool_at h s tf) vzero ex_ (vadd (vscale (sin tf) w1) (vscale (cos tf) w2)) /\
    response (tool_at h s tf) vzero ey_ (vsub (vscale (cos tf) w1) (vscale (sin tf) w2)).
Proof. exact fn_mbxy. Qed.
Print Assumptions C83_magnetometer_xy_bias.
Theorem C83_rates_unique : forall a ea em w w', response a ea em w -> response a ea em w' -> w = w'.
Proof. exact response_unique. Qed.
Print Assumptions C83_rates_unique.
Theorem C83_weights_unique : forall func h s w w', gives func h s w -> gives func h s w' -> w = w'.
Proof. exact gives_unique. Qed.
Print Assumptions C83_weights_unique.
(** a station at 45 degrees inclination in a field of 50000 nT *)
Definition slanted : wstation := mkWS 1000 (PI/4) (PI/3) (PI/3) (PI/3) 900.
Lemma slanted_sin : 0 < sin (w_inc slanted).
Proof. cbn. apply sin_gt_0; pose proof PI_RGT_0; lra. Qed.
Lemma slanted_cos : 0 < cos (w_inc slanted).
Proof. cbn. apply cos_gt_0; pose proof PI_RGT_0; lra. Qed.
Lemma slanted_not_level : ~ level_east_west slanted.
Proof. intros [E _]. pose proof slanted_cos. lra. Qed.
Lemma slanted_not_vertical : ~ vertical plumb slanted.
Proof. unfold vertical, plumb, slanted. cbn. pose proof PI2_1. lra. Qed.
Example C83_case : sensible plumb /\ 0 < sin (w_inc slanted) /\
  exists w, gives "ABZ" plumb slanted w /\ vy w <> 0.
Proof.
  split; [exact slanted_sensible|]. split; [exact slanted_sin|].
  destruct (gives_simple "ABZ" w_ABZ plumb slanted) with
    (v := mkV 0 (- sin (w_inc slanted) / h_G plumb)
              (sin (w_inc slanted) * (sin (h_dip plumb) / cos (h_dip plumb)) * sin (w_azm slanted) / h_G plumb)) as [A B].
  - reflexivity.
  - destruct slanted_sensible as (G & _ & C). cbn in G, C. unfold w_ABZ, tan_. repeat (rewrite !fdiv_ne by (cbn; lra); cbn [bind]). reflexivity.
  - eexists. split; [split; [exact A|exact B]|]. pose proof slanted_sin. cbn [vy]. change (h_G plumb) with 9.8.
    intro E. assert (sin (w_inc slanted) = 0) by lra. lra.
Qed.

(** * C84 *)
Theorem C84_accelerometer_bias : forall h s tf wx wy, sensible h -> 0 < sin (w_inc s) ->
  response (tool_at h s tf) ex_ vzero wx -> response (tool_at h s tf) ey_ vzero wy ->
  exists w1 w2, gives "ABXY_TI1" h s w1 /\ gives "ABXY_TI2" h s w2 /\
    madd (cov_from_vec wx) (cov_from_vec wy) = madd (cov_from_vec w1) (cov_from_vec w2).
Proof. exact fn_abxy_cov. Qed.
Print Assumptions C84_accelerometer_bias.
Theorem C84_magnetometer_bias : forall h s tf wx wy, sensible h -> 0 < sin (w_inc s) ->
  response (tool_at h s tf) vzero ex_ wx -> response (tool_at h s tf) vzero ey_ wy ->
  exists w1 w2, gives "MBXY_TI1" h s w1 /\ gives "MBXY_TI2" h s w2 /\
    madd (cov_from_vec wx) (cov_from_vec wy) = madd (cov_from_vec w1) (cov_from_vec w2).
Proof. exact fn_mbxy_cov. Qed.
Print Assumptions C84_magnetometer_bias.
Theorem C84_accelerometer_bias_axial : forall h s tf wx wy, sensible h -> 0 < sin (w_inc s) -> ~ level_east_west s ->
  corrected_response (tool_at h s tf) (h_btotal h) (h_dip h) ex_ 0 0 0 0 wx ->
  corrected_response (tool_at h s tf) (h_btotal h) (h_dip h) ey_ 0 0 0 0 wy ->
  exists w1 w2, gives "ABIXY_TI1" h s w1 /\ gives "ABIXY_TI2" h s w2 /\
    madd (cov_from_vec wx) (cov_from_vec wy) = madd (cov_from_vec w1) (cov_from_vec w2).
Proof. exact fn_abixy_cov. Qed.
Print Assumptions C84_accelerometer_bias_axial.
Theorem C84_magnetometer_bias_axial : forall h s tf wx wy, sensible h -> 0 < sin (w_inc s) -> ~ level_east_west s ->
  corrected_response (tool_at h s tf) (h_btotal h) (h_dip h) vzero 1 0 0 0 wx ->
  corrected_response (tool_at h s tf) (h_btotal h) (h_dip h) vzero 0 1 0 0 wy ->
  exists w1 w2, gives "MBIXY_TI1" h s w1 /\ gives "MBIXY_TI2" h s w2 /\
    madd (cov_from_vec wx) (cov_from_vec wy) = madd (cov_from_vec w1) (cov_from_vec w2).
Proof. exact fn_mbixy_cov. Qed.
Print Assumptions C84_magnetometer_bias_axial.
Theorem C84_accelerometer_scale : forall h s wx wy c, sensible h -> 0 < sin (w_inc s) ->
  (forall tf, response (tool_at h s tf) (only_x (acc_reading (tool_at h s tf))) vzero (wx tf)) ->
  (forall tf, response (tool_at h s tf) (only_y (acc_reading (tool_at h s tf))) vzero (wy tf)) ->
  exists w1 w2 w3, gives "ASXY_TI1" h s w1 /\ gives "ASXY_TI2" h s w2 /\ gives "ASXY_TI3" h s w3 /\
    turn_mean (fun tf => (dot c (wx tf)) ^ 2 + (dot c (wy tf)) ^ 2)
      ((dot c w1) ^ 2 + (dot c w2) ^ 2 + (dot c w3) ^ 2).
Proof. exact fn_asxy_mean. Qed.
Print Assumptions C84_accelerometer_scale.
Theorem C84_magnetometer_scale : forall h s wx wy c, sensible h -> 0 < sin (w_inc s) ->
  (forall tf, response (tool_at h s tf) vzero (only_x (mag_reading (tool_at h s tf))) (wx tf)) ->
  (forall tf, response (tool_at h s tf) vzero (only_y (mag_reading (tool_at h s tf))) (wy tf)) ->
  exists w1 w2 w3, gives "MSXY_TI1" h s w1 /\ gives "MSXY_TI2" h s w2 /\ gives "MSXY_TI3" h s w3 /\
    turn_mean (fun tf => (dot c (wx tf)) ^ 2 + (dot c (wy tf)) ^ 2)
      ((dot c w1) ^ 2 + (dot c w2) ^ 2 + (dot c w3) ^ 2).
Proof. exact fn_msxy_mean. Qed.
Print Assumptions C84_magnetometer_scale.
Theorem C84_accelerometer_scale_axial : forall h s wx wy c, sensible h -> 0 < sin (w_inc s) -> ~ level_east_west s ->
  (forall tf, corrected_response (tool_at h s tf) (h_btotal h) (h_dip h)
     (only_x (acc_reading (tool_at h s tf))) 0 0 0 0 (wx tf)) ->
  (forall tf, corrected_response (tool_at h s tf) (h_btotal h) (h_dip h)
     (only_y (acc_reading (tool_at h s tf))) 0 0 0 0 (wy tf)) ->
  exists w1 w2 w3, gives "ASIXY_TI1" h s w1 /\ gives "ASIXY_TI2" h s w2 /\ gives "ASIXY_TI3" h s w3 /\
    turn_mean (fun tf => (dot c (wx tf)) ^ 2 + (dot c (wy tf)) ^ 2)
      ((dot c w1) ^ 2 + (dot c w2) ^ 2 + (dot c w3) ^ 2).
Proof. exact fn_asixy_mean. Qed.
Print Assumptions C84_accelerometer_scale_axial.
Theorem C84_magnetometer_scale_axial : forall h s wx wy c, sensible h -> 0 < sin (w_inc s) -> ~ level_east_west s ->
  (forall tf, corrected_response (tool_at h s tf) (h_btotal h) (h_dip h) vzero
     (vx (mag_reading (tool_at h s tf))) 0 0 0 (wx tf)) ->
  (forall tf, corrected_response (tool_at h s tf) (h_btotal h) (h_dip h) vzero
     0 (vy (mag_reading (tool_at h s tf))) 0 0 (wy tf)) ->
  exists w1 w2 w3, gives "MSIXY_TI1" h s w1 /\ gives "MSIXY_TI2" h s w2 /\ gives "MSIXY_TI3" h s w3 /\
    turn_mean (fun tf => (dot c (wx tf)) ^ 2 + (dot c (wy tf)) ^ 2)
      ((dot c w1) ^ 2 + (dot c w2) ^ 2 + (dot c w3) ^ 2).
Proof. exact fn_msixy_mean. Qed.
Print Assumptions C84_magnetometer_scale_axial.
Example C84_case : forall tf, exists wx wy,
  response (tool_at plumb slanted tf) ex_ vzero wx /\ response (tool_at plumb slanted tf) ey_ vzero wy /\
  (exists ux, corrected_response (tool_at plumb slanted tf) (h_btotal plumb) (h_dip plumb)
     (only_x (acc_reading (tool_at plumb slanted tf))) 0 0 0 0 ux).
Proof.
  intro tf. destruct (fn_abxy plumb slanted tf slanted_sensible slanted_sin) as (w1 & w2 & _ & _ & A & B).
  eexists _, _. split; [exact A|]. split; [exact B|].
  apply fn_axial_exists; [exact slanted_sensible|exact slanted_sin|exact slanted_not_level].
Qed.
Example C84_scale_case : exists wx wy, forall tf,
  response (tool_at plumb slanted tf) (only_x (acc_reading (tool_at plumb slanted tf))) vzero (wx tf) /\
  response (tool_at plumb slanted tf) (only_y (acc_reading (tool_at plumb slanted tf))) vzero (wy tf).
Proof. exact (scale_rates_exist plumb slanted slanted_sensible slanted_sin). Qed.

(** * C85 *)
Theorem C85_accelerometer_bias : forall h s tf, sensible h -> 0 < sin (w_inc s) -> ~ level_east_west s ->
  exists w1 w2, gives "ABIXY_TI1" h s w1 /\ gives "ABIXY_TI2" h s w2 /\
    corrected_response (tool_at h s tf) (h_btotal h) (h_dip h) ex_ 0 0 0 0
      (vadd (vscale (sin tf) w1) (vscale (cos tf) w2)) /\
    corrected_response (tool_at h s tf) (h_btotal h) (h_dip h) ey_ 0 0 0 0
      (vsub (vscale (cos tf) w1) (vscale (sin tf) w2)).
Proof. exact fn_abixy. Qed.
Print Assumptions C85_accelerometer_bias.
Theorem C85_magnetometer_bias : forall h s tf, sensible h -> 0 < sin (w_inc s) -> ~ level_east_west s ->
  exists w1 w2, gives "MBIXY_TI1" h s w1 /\ gives "MBIXY_TI2" h s w2 /\
    corrected_response (tool_at h s tf) (h_btotal h) (h_dip h) vzero 1 0 0 0
      (vadd (vscale (sin tf) w1) (vscale (cos tf) w2)) /\
    corrected_response (tool_at h s tf) (h_btotal h) (h_dip h) vzero 0 1 0 0
      (vsub (vscale (cos tf) w1) (vscale (sin tf) w2)).
Proof. exact fn_mbixy. Qed.
Print Assumptions C85_magnetometer_bias.
Theorem C85_accelerometer_z_scale : forall h s tf, sensible h -> 0 < sin (w_inc s) -> ~ level_east_west s ->
  exists w, gives "ASIZ" h s w /\
    corrected_response (tool_at h s tf) (h_btotal h) (h_dip h) (only_z (acc_reading (tool_at h s tf))) 0 0 0 0 w.
Proof. exact fn_asiz. Qed.
Print Assumptions C85_accelerometer_z_scale.
Theorem C85_field_strength : forall h s tf, sensible h -> 0 < sin (w_inc s) -> ~ level_east_west s ->
  exists w, gives "MFI" h s w /\
    corrected_response (tool_at h s tf) (h_btotal h) (h_dip h) vzero 0 0 1 0 w.
Proof. exact fn_mfi. Qed.
Print Assumptions C85_field_strength.
Theorem C85_dip : forall h s tf, sensible h -> 0 < sin (w_inc s) -> ~ level_east_west s ->
  exists w, gives "MDI" h s w /\
    corrected_response (tool_at h s tf) (h_btotal h) (h_dip h) vzero 0 0 0 1 w.
Proof. exact fn_mdi. Qed.
Print Assumptions C85_dip.
Theorem C85_accelerometer_z_bias : forall h s tf, sensible h -> 0 < sin (w_inc s) ->
  1 / 1000000 * h_G h < 1 - sin (w_inc s) ^ 2 * sin (w_azm s) ^ 2 ->
  exists w r, gives "ABIZ" h s w /\
    corrected_response (tool_at h s tf) (h_btotal h) (h_dip h) ez_ 0 0 0 0 r /\
    vy w = vy r /\ vz w = h_G h ^ 2 * vz r.
Proof. exact fn_abiz. Qed.
Print Assumptions C85_accelerometer_z_bias.
Theorem C85_accelerometer_z_bias_iff : forall h s tf w, sensible h -> 0 < sin (w_inc s) ->
  1 / 1000000 * h_G h < 1 - sin (w_inc s) ^ 2 * sin (w_azm s) ^ 2 ->
  gives "ABIZ" h s w ->
  (corrected_response (tool_at h s tf) (h_btotal h) (h_dip h) ez_ 0 0 0 0 w <->
   h_G h = 1 \/ cos (w_inc s) * sin (w_azm s) * (tan (h_dip h) * cos (w_inc s) + sin (w_inc s) * cos (w_azm s)) = 0).
Proof. exact fn_abiz_iff. Qed.
Print Assumptions C85_accelerometer_z_bias_iff.
Theorem C85_accelerometer_z_bias_refuted : exists h s, sensible h /\ 0 < sin (w_inc s) /\ ~ level_east_west s /\
  forall tf w, gives "ABIZ" h s w -> ~ corrected_response (tool_at h s tf) (h_btotal h) (h_dip h) ez_ 0 0 0 0 w.
Proof. exact abiz_case_refuted. Qed.
Print Assumptions C85_accelerometer_z_bias_refuted.
Theorem C85_rates_exist : forall h s tf ea ex ey eB eD, sensible h -> 0 < sin (w_inc s) -> ~ level_east_west s ->
  exists w, corrected_response (tool_at h s tf) (h_btotal h) (h_dip h) ea ex ey eB eD w.
Proof. exact fn_axial_exists. Qed.
Print Assumptions C85_rates_exist.
Theorem C85_rates_unique : forall a B D ea ex ey eB eD w w',
  corrected_response a B D ea ex ey eB eD w -> corrected_response a B D ea ex ey eB eD w' -> w = w'.
Proof. exact corrected_unique. Qed.
Print Assumptions C85_rates_unique.
Example C85_case : sensible plumb /\ 0 < sin (w_inc slanted) /\ ~ level_east_west slanted /\
  1 / 1000000 * h_G plumb < 1 - sin (w_inc slanted) ^ 2 * sin (w_azm slanted) ^ 2.
Proof.
  split; [exact slanted_sensible|]. split; [exact slanted_sin|]. split; [exact slanted_not_level|].
  cbn [slanted w_inc w_azm plumb h_G].
  assert (SS : sin (PI / 4) ^ 2 = 1 / 2).
  { assert (H : sin (PI/4) = cos (PI/4)) by apply sin_cos_PI4. pose proof (sin2_cos2 (PI / 4)) as Q. unfold Rsqr in Q. rewrite <- H in Q. lra. }
  rewrite SS. pose proof (sin2_cos2 (PI / 3)) as Q. unfold Rsqr in Q. pose proof (Rle_0_sqr (cos (PI / 3))) as P. unfold Rsqr in P.
  replace (sin (PI / 3) ^ 2) with (sin (PI/3) * sin (PI/3)) by ring. lra.
Qed.

(** * C86 *)
Theorem C86_all_directions : forall h s a b c v1 v2 v3 v4 w1 w2 w3 w4, 0 < sin (w_inc s) ->
  gives "XYM1" h s w1 -> gives "XYM2" h s w2 -> gives "XYM3" h s w3 -> gives "XYM4" h s w4 ->
  tilts s (vscale a w1) v1 -> tilts s (vscale a w2) v2 ->
  tilts s (vscale b w3) v3 -> tilts s (vscale b w4) v4 ->
  across s c ->
  dot c v1 ^ 2 + dot c v2 ^ 2 + dot c v3 ^ 2 + dot c v4 ^ 2
  = (a ^ 2 * sin (w_inc s) ^ 2 + b ^ 2 * cos (w_inc s) ^ 2) * dot c c.
Proof. exact fn_xym_isotropic. Qed.
Print Assumptions C86_all_directions.
Theorem C86_interval_terms : forall h s d c v3 v4 w3 w4, 0 < sin (w_inc s) -> ~ vertical h s -> 0 < d ->
  gives_after "XYM3L" h d s w3 -> gives_after "XYM4L" h d s w4 -> tilts s w3 v3 -> tilts s w4 v4 -> across s c ->
  dot c v3 ^ 2 + dot c v4 ^ 2 = Rmax 1 (10 / d) * cos (w_inc s) ^ 2 * dot c c.
Proof. exact fn_xyml_isotropic. Qed.
Print Assumptions C86_interval_terms.
Theorem C86_e_terms_iff : forall h s d v3 v4 w3 w4, 0 < sin (w_inc s) -> 0 < cos (w_inc s) ->
  ~ vertical h s -> 0 < d ->
  gives_after "XYM3E" h d s w3 -> gives_after "XYM4E" h d s w4 -> tilts s w3 v3 -> tilts s w4 v4 ->
  ((forall c, across s c -> dot c v3 ^ 2 + dot c v4 ^ 2 = Rmax 1 (10 / d) * cos (w_inc s) ^ 2 * dot c c)
   <-> 0 <= cos (w_azt s) \/ sin (w_azt s) = 0).
Proof. exact fn_xyme_isotropic. Qed.
Print Assumptions C86_e_terms_iff.
Theorem C86_weights_unique : forall func h d s w w', gives_after func h d s w -> gives_after func h d s w' -> w = w'.
Proof. exact gives_after_unique. Qed.
Print Assumptions C86_weights_unique.
Theorem C86_tilt_unique : forall s w v v', tilts s w v -> tilts s w v' -> v = v'.
Proof. exact tilts_unique. Qed.
Print Assumptions C86_tilt_unique.
Example C86_case : 0 < sin (w_inc slanted) /\ 0 < cos (w_inc slanted) /\ ~ vertical plumb slanted /\
  (exists w1 w2 w3 w4, gives "XYM1" plumb slanted w1 /\ gives "XYM2" plumb slanted w2 /\
     gives "XYM3" plumb slanted w3 /\ gives "XYM4" plumb slanted w4) /\
  (exists w3 w4, gives_after "XYM3L" plumb 5 slanted w3 /\ gives_after "XYM4L" plumb 5 slanted w4) /\
  (exists w3 w4, gives_after "XYM3E" plumb 5 slanted w3 /\ gives_after "XYM4E" plumb 5 slanted w4) /\
  (forall w, exists v, tilts slanted w v) /\ across slanted (high_side slanted).
Proof.
  split; [exact slanted_sin|]. split; [exact slanted_cos|]. split; [exact slanted_not_vertical|].
  destruct (misalignment_exists plumb slanted 5 slanted_sin slanted_not_vertical) as (A & B & C & D); [lra|].
  destruct (sides_orthonormal slanted) as (E & _). auto.
Qed.

(** * C87 *)
Theorem C87_north : forall az t rev4 h l code mag p e, call_func az t rev4 h l code "XYM3" mag p = Made e ->
  forall k a b, nth_error l k = Some a -> nth_error l (S k) = Some b -> vertical h b ->
  (forall c, nth_error l (S (S k)) = Some c ->
     nth_error (er_e_NEV e) (S k) = Some (mkV (1/2 * (w_md c - w_md a) * mag) 0 0) /\
     nth_error (er_e_NEV_star e) (S k) = Some (mkV (1/2 * (w_md b - w_md a) * mag) 0 0)) /\
  (nth_error l (S (S k)) = None -> nth_error (er_e_NEV_star e) (S k) = Some vzero).
Proof. exact fn_xym3_rows. Qed.
Print Assumptions C87_north.
Theorem C87_east : forall az t rev4 h l code mag p e, call_func az t rev4 h l code "XYM4" mag p = Made e ->
  forall k a b, nth_error l k = Some a -> nth_error l (S k) = Some b -> vertical h b ->
  (forall c, nth_error l (S (S k)) = Some c ->
     nth_error (er_e_NEV e) (S k) = Some (mkV 0 (1/2 * (w_md c - w_md a) * mag) 0) /\
     nth_error (er_e_NEV_star e) (S k) = Some (mkV 0 (1/2 * (w_md b - w_md a) * mag) 0)) /\
  (nth_error l (S (S k)) = None -> nth_error (er_e_NEV_star e) (S k) = Some vzero).
Proof. exact fn_xym4_rows. Qed.
Print Assumptions C87_east.
Theorem C87_north_near : forall az t rev4 h l code mag p e, call_func az t rev4 h l code "XYM3" mag p = Made e ->
  forall k a b c, nth_error l k = Some a -> nth_error l (S k) = Some b -> nth_error l (S (S k)) = Some c ->
  ~ vertical h b -> 0 < sin (w_inc b) -> 0 < cos (w_inc b) -> (rev4 = true \/ (1 <= k)%nat) ->
  let m := 1/2 * (w_md c - w_md a) * mag in
  exists row, nth_error (er_e_NEV e) (S k) = Some row /\
    gap2 row (mkV m 0 0) <= (m * sin (w_inc b)) ^ 2.
Proof. exact fn_xym3_near. Qed.
Print Assumptions C87_north_near.
Theorem C87_east_near : forall az t rev4 h l code mag p e, call_func az t rev4 h l code "XYM4" mag p = Made e ->
  forall k a b c, nth_error l k = Some a -> nth_error l (S k) = Some b -> nth_error l (S (S k)) = Some c ->
  ~ vertical h b -> 0 < sin (w_inc b) -> 0 < cos (w_inc b) -> (rev4 = true \/ (1 <= k)%nat) ->
  let m := 1/2 * (w_md c - w_md a) * mag in
  exists row, nth_error (er_e_NEV e) (S k) = Some row /\
    gap2 row (mkV 0 m 0) <= (m * sin (w_inc b)) ^ 2.
Proof. exact fn_xym4_near. Qed.
Print Assumptions C87_east_near.
Theorem C87_later_stations : forall func az t rev4 h l m code mag p e e', func = "XYM3"%string \/ func = "XYM4"%string ->
  call_func az t rev4 h l code func mag p = Made e -> call_func az t rev4 h (l ++ m) code func mag p = Made e' ->
  (2 <= length l)%nat ->
  (forall s, nth_error l (length l - 1) = Some s -> ~ vertical h s) ->
  forall k, (k < length l)%nat -> nth_error (er_cov_NEV e) k = nth_error (er_cov_NEV e') k.
Proof. exact fn_xym_causal. Qed.
Print Assumptions C87_later_stations.
Theorem C87_later_stations_refuted :
  exists e e', call_func "true" 0 true plumb [hanging 0; hanging 100] "XYM3" "XYM3" 1 "systematic" = Made e /\
    call_func "true" 0 true plumb [hanging 0; hanging 100; hanging 200] "XYM3" "XYM3" 1 "systematic" = Made e' /\
    nth_error (er_cov_NEV e) 1 = Some mzero /\
    nth_error (er_cov_NEV e') 1 = Some (outer (mkV 50 0 0) (mkV 50 0 0)).
Proof. exact fn_xym_end_refuted. Qed.
Print Assumptions C87_later_stations_refuted.
Theorem C87_north_e : forall az t rev4 h l code mag p e, call_func az t rev4 h l code "XYM3E" mag p = Made e ->
  forall k a b c, nth_error l k = Some a -> nth_error l (S k) = Some b -> nth_error l (S (S k)) = Some c ->
  vertical h b -> w_inc b = 0 -> (rev4 = true \/ (1 <= k)%nat) ->
  let f := Rmax 1 (sqrt (10 / (w_md b - w_md a))) * (cos (w_azt b) * Rabs (cos (w_azt b))) in
  nth_error (er_e_NEV e) (S k) = Some (mkV (1/2 * (w_md c - w_md a) * mag * f) 0 0) /\
  nth_error (er_e_NEV_star e) (S k) = Some (mkV (1/2 * (w_md b - w_md a) * mag * f) 0 0).
Proof. exact fn_xym3e_vertical. Qed.
Print Assumptions C87_north_e.
Theorem C87_east_e : forall az t rev4 h l code mag p e, call_func az t rev4 h l code "XYM4E" mag p = Made e ->
  forall k a b c, nth_error l k = Some a -> nth_error l (S k) = Some b -> nth_error l (S (S k)) = Some c ->
  vertical h b -> w_inc b = 0 -> (rev4 = true \/ (1 <= k)%nat) ->
  let f := Rmax 1 (sqrt (10 / (w_md b - w_md a))) * (cos (w_azt b) * Rabs (cos (w_azt b))) in
  nth_error (er_e_NEV e) (S k) = Some (mkV 0 (1/2 * (w_md c - w_md a) * mag * f) 0) /\
  nth_error (er_e_NEV_star e) (S k) = Some (mkV 0 (1/2 * (w_md b - w_md a) * mag * f) 0).
Proof. exact fn_xym4e_vertical. Qed.
Print Assumptions C87_east_e.
Theorem C87_e_zero_refuted : forall az t rev4 h l code mag p e e', 
  call_func az t rev4 h l code "XYM3E" mag p = Made e -> call_func az t rev4 h l code "XYM4E" mag p = Made e' ->
  forall k a b c, nth_error l k = Some a -> nth_error l (S k) = Some b -> nth_error l (S (S k)) = Some c ->
  vertical h b -> w_inc b = 0 -> cos (w_azt b) = 0 -> (rev4 = true \/ (1 <= k)%nat) ->
  nth_error (er_e_NEV e) (S k) = Some vzero /\ nth_error (er_e_NEV_star e) (S k) = Some vzero /\
  nth_error (er_e_NEV e') (S k) = Some vzero /\ nth_error (er_e_NEV_star e') (S k) = Some vzero.
Proof. exact fn_e_vertical_refuted. Qed.
Print Assumptions C87_e_zero_refuted.
Theorem C87_north_l : forall az t rev4 h l code mag p e, call_func az t rev4 h l code "XYM3L" mag p = Made e ->
  long_rows northward 1 h l mag e.
Proof. exact fn_xym3l_rows. Qed.
Print Assumptions C87_north_l.
Theorem C87_east_l : forall az t rev4 h l code mag p e, call_func az t rev4 h l code "XYM4L" mag p = Made e ->
  long_rows eastward 0 h l mag e.
Proof. exact fn_xym4l_rows. Qed.
Print Assumptions C87_east_l.
Theorem C87_l_axes_refuted : exists l e e' c c',
  (forall s, In s l -> vertical plumb s) /\ advancing l /\
  call_func "true" 0 true plumb l "XYM3L" "XYM3L" 1 "random" = Made e /\
  call_func "true" 0 true plumb l "XYM4L" "XYM4L" 1 "random" = Made e' /\
  nth_error (er_cov_NEV e) 2 = Some c /\ nth_error (er_cov_NEV e') 2 = Some c' /\
  vx (r1 c) <> vy (r2 c').
Proof. exact long_axes_refuted. Qed.
Print Assumptions C87_l_axes_refuted.
Theorem C87_cna : forall az t rev4 h l code mag p e, call_func az t rev4 h l code "CNA" mag p = Made e ->
  forall k a b c, nth_error l k = Some a -> nth_error l (S k) = Some b -> nth_error l (S (S k)) = Some c ->
  ((vertical h b -> exists azi, ((az = "true"%string /\ azi = w_azt b) \/ (az = "grid"%string /\ azi = w_azg b)) /\
     nth_error (er_e_NEV e) (S k) = Some (vscale (1/2 * (w_md c - w_md a) * mag) (mkV (- sin azi) (cos azi) 0)) /\
     nth_error (er_e_NEV_star e) (S k) = Some (vscale (1/2 * (w_md b - w_md a) * mag) (mkV (- sin azi) (cos azi) 0))) /\
   (~ vertical h b -> 0 < sin (w_inc b) -> (rev4 = true \/ (1 <= k)%nat) ->
     nth_error (er_e_NEV e) (S k) = Some (vscale (1/2 * (w_md c - w_md a) * mag) (right_side b)) /\
     nth_error (er_e_NEV_star e) (S k) = Some (vscale (1/2 * (w_md b - w_md a) * mag) (right_side b)))).
Proof. exact fn_cna_rows. Qed.
Print Assumptions C87_cna.
Theorem C87_accelerometer : forall az t rev4 h l code mag p e, call_func az t rev4 h l code "ABXY_TI2" mag p = Made e -> sensible h ->
  forall k a b c, nth_error l k = Some a -> nth_error l (S k) = Some b -> nth_error l (S (S k)) = Some c ->
  (rev4 = true \/ (1 <= k)%nat) -> (~ vertical h b -> 0 < sin (w_inc b)) ->
  exists f, (vertical h b -> f = 1) /\
    (~ vertical h b -> f = cos (w_inc b) - tan (h_dip h) * cos (w_azm b) * sin (w_inc b)) /\
    nth_error (er_e_NEV e) (S k) = Some (vscale (1/2 * (w_md c - w_md a) * (mag / h_G h) * f) (right_side b)) /\
    nth_error (er_e_NEV_star e) (S k) = Some (vscale (1/2 * (w_md b - w_md a) * (mag / h_G h) * f) (right_side b)).
Proof. exact fn_abxy_ti2_rows. Qed.
Print Assumptions C87_accelerometer.
Theorem C87_accelerometer_axial : forall az t rev4 h l code mag p e, call_func az t rev4 h l code "ABIXY_TI2" mag p = Made e -> sensible h ->
  forall k a b c, nth_error l k = Some a -> nth_error l (S k) = Some b -> nth_error l (S (S k)) = Some c ->
  (1 <= k)%nat -> (~ vertical h b -> 0 < sin (w_inc b)) -> ~ level_east_west b ->
  exists f, (vertical h b -> f = 1) /\
    (~ vertical h b -> f = (cos (w_inc b) - tan (h_dip h) * cos (w_azm b) * sin (w_inc b))
                           / (1 - sin (w_inc b) ^ 2 * sin (w_azm b) ^ 2)) /\
    nth_error (er_e_NEV e) (S k) = Some (vscale (1/2 * (w_md c - w_md a) * (mag / h_G h) * f) (right_side b)) /\
    nth_error (er_e_NEV_star e) (S k) = Some (vscale (1/2 * (w_md b - w_md a) * (mag / h_G h) * f) (right_side b)).
Proof. exact fn_abixy_ti2_rows. Qed.
Print Assumptions C87_accelerometer_axial.
Theorem C87_accelerometer_first_refuted : forall az t rev4 h l code func mag p e,
  call_func az t rev4 h l code func mag p = Made e ->
  func = "ABIXY_TI2"%string \/ (func = "ABXY_TI2"%string /\ rev4 = false) ->
  forall a b c, nth_error l 0 = Some a -> nth_error l 1 = Some b -> nth_error l 2 = Some c -> vertical h b ->
  nth_error (er_e_NEV e) 1 = Some (mkV (- (1/2 * (w_md c - w_md a) * (mag / h_G h) * sin (w_azt b)))
     (1/2 * ((w_md c - w_md a) + (w_md b - w_md a)) * (mag / h_G h) * cos (w_azt b)) 0) /\
  nth_error (er_e_NEV_star e) 1 = Some (mkV (- (1/2 * (w_md b - w_md a) * (mag / h_G h) * sin (w_azt b)))
     ((w_md b - w_md a) * (mag / h_G h) * cos (w_azt b)) 0).
Proof. exact fn_ab_first_row. Qed.
Print Assumptions C87_accelerometer_first_refuted.
Example C87_case : vertical plumb (hanging 100) /\ w_inc (hanging 100) = 0 /\ ~ vertical plumb slanted /\
  (exists e, call_func "true" 0 true plumb [hanging 0; hanging 100; slanted] "XYM3" "XYM3" 1 "systematic" = Made e) /\
  (exists e, call_func "true" 0 true plumb [hanging 0; hanging 100; slanted] "CNA" "CNA" 1 "systematic" = Made e) /\
  (exists e, call_func "true" 0 true plumb [hanging 0; hanging 100; slanted] "ABXY_TI2" "ABXY_TI2" 1 "systematic" = Made e) /\
  (exists e, call_func "true" 0 true plumb [hanging 0; hanging 100; slanted] "XYM3L" "XYM3L" 1 "random" = Made e).
Proof.
  assert (V : forall d, vertical plumb (hanging d)) by (intro; unfold vertical, plumb, hanging; cbn; lra).
  split; [apply V|]. split; [reflexivity|]. split; [exact slanted_not_vertical|].
  assert (S : forall s, In s [hanging 0; hanging 100; slanted] -> 0 <= sin (w_inc s)).
  { intros s [<-|[<-|[<-|[]]]]; [cbn; rewrite sin_0; lra|cbn; rewrite sin_0; lra|pose proof slanted_sin; lra]. }
  split; [apply plain_ok; auto using slanted_sensible; cbn; tauto|].
  split; [apply plain_ok; auto using slanted_sensible; cbn; tauto|].
  split; [apply plain_ok; auto using slanted_sensible; cbn; tauto|].
  apply interval_ok; [cbn; tauto|cbn; tauto|cbn; lia| |].
  - intros s [<-|[<-|[<-|[]]]] N; [destruct (N (V _))|destruct (N (V _))|pose proof slanted_sin; lra].
  - intros [|[|[|[|k]]]] a b A B; cbn in A, B; try discriminate; injection A as <-; injection B as <-; cbn; lra.
Qed.

(** * C88 *)
Theorem C88_azimuth : forall az t rev4 h l code mag p e, call_func az t rev4 h l code "XCLA" mag p = Made e ->
  forall k a b, nth_error l k = Some a -> nth_error l (S k) = Some b ->
  exists turn, (vertical h a -> turn = 0) /\
    (~ vertical h a -> turn = Rabs (sin (w_inc b) * sin (w_azt b - w_azt a))) /\
    nth_error (er_e_NEV e) (S k) = Some (vscale (mag * ((w_md b - w_md a) * Rmax turn (t * (w_md b - w_md a)))) (right_side b)) /\
    nth_error (er_e_NEV_star e) (S k) = Some (vscale (mag * ((w_md b - w_md a) * Rmax turn (t * (w_md b - w_md a)))) (right_side b)).
Proof. exact fn_xcla_rows. Qed.
Print Assumptions C88_azimuth.
Theorem C88_high_side : forall az t rev4 h l code mag p e, call_func az t rev4 h l code "XCLH" mag p = Made e ->
  forall k a b, nth_error l k = Some a -> nth_error l (S k) = Some b ->
    let v := vscale (mag * ((w_md b - w_md a) * Rmax (Rabs (w_inc b - w_inc a)) (t * (w_md b - w_md a)))) (high_side b) in
    nth_error (er_e_NEV e) (S k) = Some v /\ nth_error (er_e_NEV_star e) (S k) = Some v.
Proof. exact fn_xclh_rows. Qed.
Print Assumptions C88_high_side.
Theorem C88_directions : forall s, across s (high_side s) /\ across s (right_side s) /\ dot (high_side s) (right_side s) = 0 /\
  dot (high_side s) (high_side s) = 1 /\ dot (right_side s) (right_side s) = 1.
Proof. exact sides_orthonormal. Qed.
Print Assumptions C88_directions.
Theorem C88_random : forall az t rev4 h l code func mag e, In func ["XCL"; "XCLA"; "XCLH"]%string ->
  call_func az t rev4 h l code func mag "random" = Made e ->
  (l <> [] -> nth_error (er_cov_NEV e) 0 = Some mzero) /\
  forall k v c, nth_error (er_e_NEV e) (S k) = Some v -> nth_error (er_cov_NEV e) k = Some c ->
    nth_error (er_cov_NEV e) (S k) = Some (madd c (outer v v)).
Proof. exact cl_random. Qed.
Print Assumptions C88_random.
Theorem C88_dispatch : forall az t rev4 h l code mag p,
  call_func az t rev4 h l code "XCL" mag p =
  call_func az t rev4 h l code (if string_dec code "XCLA" then "XCLA" else "XCLH") mag p.
Proof. exact xcl_dispatch. Qed.
Print Assumptions C88_dispatch.
Example C88_case : exists e,
  call_func "true" (1/1000) true plumb [hanging 0; hanging 100; slanted] "XCLA" "XCL" 1 "random" = Made e /\
  exists v, nth_error (er_e_NEV e) 2 = Some v /\ v <> vzero.
Proof.
  assert (S : forall s, In s [hanging 0; hanging 100; slanted] -> 0 <= sin (w_inc s)).
  { intros s [<-|[<-|[<-|[]]]]; [cbn; rewrite sin_0; lra|cbn; rewrite sin_0; lra|pose proof slanted_sin; lra]. }
  destruct (plain_ok "true" (1/1000) true plumb [hanging 0; hanging 100; slanted] "XCLA" "XCL" 1 "random") as [e He];
    [exact slanted_sensible|cbn; tauto|cbn; tauto|cbn; lia|exact S|auto|].
  exists e. split; [exact He|]. rewrite xcl_dispatch in He. cbn [string_dec] in He.
  destruct (fn_xcla_rows _ _ _ _ _ _ _ _ _ He 1%nat (hanging 100) slanted eq_refl eq_refl) as (turn & _ & _ & R & _).
  eexists. split; [exact R|]. intro E.
  assert (U : dot (right_side slanted) (right_side slanted) = 1) by apply sides_orthonormal.
  set (k := 1 * ((w_md slanted - w_md (hanging 100)) * Rmax turn (1 / 1000 * (w_md slanted - w_md (hanging 100))))) in *.
  assert (K : 0 < k).
  { unfold k. cbn [slanted hanging w_md]. pose proof (Rmax_r turn (1 / 1000 * (1000 - 100))). lra. }
  assert (Q : dot (vscale k (right_side slanted)) (vscale k (right_side slanted)) = k * k) by (rewrite <- (Rmult_1_r (k * k)), <- U; unfold dot, vscale; cbn [vx vy vz]; ring).
  rewrite E in Q. unfold dot, vzero in Q. cbn [vx vy vz] in Q. nra.
Qed.

(** * C89 *)
Theorem C89_totals : forall az tort mi rev4 h l codes t, (0 < length l)%nat ->
  yaml_tool_error az tort mi rev4 h l codes = Totals t ->
  (forall m, mi = Some m -> forall s, In s l -> w_inc s < m) /\
  exists errs,
  Forall2 (fun c e => call_func az tort rev4 h l (c_name c) (c_function c) (c_magnitude c) (c_propagation c) = Made e)
    codes errs /\
  forall k, (k < length l)%nat ->
  exists a r s g w,
      nth_error (t_all t) k = Some a /\ nth_error (t_random t) k = Some r /\
      nth_error (t_systematic t) k = Some s /\ nth_error (t_global t) k = Some g /\
      nth_error (t_within_pad t) k = Some w /\
      a = msum (map (fun e => nth k (er_cov_NEV e) mzero) errs) /\
      a = madd (madd r s) (madd g w) /\
      (symmetric a /\ psd a) /\ (symmetric r /\ psd r) /\ (symmetric s /\ psd s) /\
      (symmetric g /\ psd g) /\ (symmetric w /\ psd w) /\
      (k = 0%nat -> a = mzero).
Proof. exact yaml_totals. Qed.
Print Assumptions C89_totals.
Theorem C89_defined_iff : forall az tort mi rev4 h l codes,
  (exists t, yaml_tool_error az tort mi rev4 h l codes = Totals t) <->
  (forall m, mi = Some m -> forall s, In s l -> w_inc s < m) /\
  forall c, In c codes ->
    exists e, call_func az tort rev4 h l (c_name c) (c_function c) (c_magnitude c) (c_propagation c) = Made e.
Proof. exact yaml_iff. Qed.
Print Assumptions C89_defined_iff.
Example C89_case : exists t, yaml_tool_error "true" 0 (Some 2) true plumb [hanging 0; hanging 100; slanted]
  [mkCode "DREF" "DREF" 0.35 "random"; mkCode "ABZ" "ABZ" 0.004 "systematic"; mkCode "XYM3" "XYM3" 0.001 "systematic"] = Totals t.
Proof.
  apply yaml_iff. split.
  - intros m E s [<-|[<-|[<-|[]]]]; injection E as <-; cbn; pose proof PI_4; lra.
  - assert (S : forall s, In s [hanging 0; hanging 100; slanted] -> 0 <= sin (w_inc s)).
    { intros s [<-|[<-|[<-|[]]]]; [cbn; rewrite sin_0; lra|cbn; rewrite sin_0; lra|pose proof slanted_sin; lra]. }
    intros c [<-|[<-|[<-|[]]]]; apply plain_ok; auto using slanted_sensible; cbn; tauto.
Qed.

(** * C90 *)
Theorem C90_plain : forall az t rev4 h l code func mag p, sensible h -> In p propagation_modes -> In func plain_functions ->
  (3 <= length l)%nat -> (forall s, In s l -> 0 <= sin (w_inc s)) -> (az = "true" \/ az = "grid")%string ->
  exists e, call_func az t rev4 h l code func mag p = Made e.
Proof. exact plain_ok. Qed.
Print Assumptions C90_plain.
Theorem C90_axial_iff : forall az t rev4 h l code func mag p, sensible h -> In p propagation_modes -> In func axial_functions ->
  ((exists e, call_func az t rev4 h l code func mag p = Made e) <-> forall s, In s l -> ~ level_east_west s) /\
  (call_func az t rev4 h l code func mag p = NotFinite <-> exists s, In s l /\ level_east_west s).
Proof. exact axial_iff. Qed.
Print Assumptions C90_axial_iff.
Theorem C90_intervals_iff : forall az t rev4 h l code func mag p, In p propagation_modes -> In func interval_functions ->
  (3 <= length l)%nat -> (forall s, In s l -> ~ vertical h s -> sin (w_inc s) <> 0) ->
  ((exists e, call_func az t rev4 h l code func mag p = Made e) <-> advancing l) /\
  (call_func az t rev4 h l code func mag p = NotFinite <-> ~ advancing l).
Proof. exact interval_ok. Qed.
Print Assumptions C90_intervals_iff.
Theorem C90_unknown : forall az t rev4 h l code func mag p, ~ In func functions ->
  call_func az t rev4 h l code func mag p = Raises.
Proof. exact unknown_raises. Qed.
Print Assumptions C90_unknown.
Theorem C90_reference : forall az t rev4 h l code mag p, az <> "true"%string -> az <> "grid"%string ->
  (exists s, In s l /\ vertical h s) -> call_func az t rev4 h l code "CNA" mag p = Raises.
Proof. exact cna_raises. Qed.
Print Assumptions C90_reference.
Theorem C90_short : forall az t rev4 h l code func mag p, (length l < 3)%nat -> advancing l ->
  (exists s, In s l /\ vertical h s) -> 
  In func ["ABIXY_TI2"; "XYM3L"; "XYM4L"]%string \/ (func = "ABXY_TI2"%string /\ rev4 = false) ->
  call_func az t rev4 h l code func mag p = Raises.
Proof. exact short_raises. Qed.
Print Assumptions C90_short.
Example C90_case : sensible plumb /\ In "systematic"%string propagation_modes /\ In "MSZ"%string plain_functions /\
  In "MFI"%string axial_functions /\ In "XYM3L"%string interval_functions /\ ~ In "ABC"%string functions /\
  level_east_west (mkWS 0 (PI/2) (PI/2) 0 0 0) /\ advancing [hanging 0; hanging 100].
Proof.
  split; [exact slanted_sensible|]. split; [cbn; tauto|]. split; [cbn; tauto|]. split; [cbn; tauto|]. split; [cbn; tauto|].
  split. { unfold functions. cbn. intuition discriminate. }
  split. { split; cbn; apply cos_PI2. }
  intros [|[|[|k]]] a b A B; cbn in A, B; try discriminate; injection A as <-; injection B as <-; cbn; lra.
Qed.

(** * C91 *)
Theorem C91_propagation : forall az t rev4 h l code func mag p e, (0 < length l)%nat ->
  call_func az t rev4 h l code func mag p = Made e ->
  er_code e = code /\
  er_propagation e = (if string_dec func "XYM2" then "systematic" else if string_dec func "XYM4L" then "random" else p)%string.
Proof. exact call_propagation. Qed.
Print Assumptions C91_propagation.
Example C91_case : exists e, call_func "true" 0 true plumb [hanging 0; hanging 100; slanted] "XYM2" "XYM2" 1 "random" = Made e /\
  er_propagation e = "systematic"%string.
Proof.
  destruct (plain_ok "true" 0 true plumb [hanging 0; hanging 100; slanted] "XYM2" "XYM2" 1 "random") as [e He];
    [exact slanted_sensible|cbn; tauto|cbn; tauto|cbn; lia| |auto|].
  { intros s [<-|[<-|[<-|[]]]]; [cbn; rewrite sin_0; lra|cbn; rewrite sin_0; lra|pose proof slanted_sin; lra]. }
  exists e. split; [exact He|]. apply call_propagation in He; [|cbn; lia]. apply He.
Qed.
