(** The weights with axial correction, one by one. *)
Require Import Reals Lra Psatz List Nsatz.
Require Import Verif.Base Verif.NumPy Verif.M_Utils Verif.M_Error Verif.M_Weights Verif.Spec_Weights.
Require Import Verif.P_Error Verif.P_Weights Verif.P_Weights2 Verif.P_Weights3.
Import ListNotations.
Local Open Scope R_scope.

Lemma corrected_unique : forall a B D ea ex ey eB eD w w',
  corrected_response a B D ea ex ey eB eD w -> corrected_response a B D ea ex ey eB eD w' -> w = w'.
Proof.
  intros a B D ea ex ey eB eD w w' [[f Hf] [X H]] [_ [X' H']].
  destruct (H f Hf) as [P Q], (H' f Hf) as [P' Q'].
  destruct w as [x y z], w' as [x' y' z']. cbn in *. subst.
  rewrite (uniqueness_limite _ _ _ _ P P'), (uniqueness_limite _ _ _ _ Q Q'). reflexivity.
Qed.

Lemma funky_pos : forall s, 0 < funky s -> sin (w_inc s) ^ 2 * sin (w_azm s) ^ 2 < 1.
Proof. intros s H. unfold funky in H. lra. Qed.
Lemma funky_nonneg : forall s, 0 <= funky s <= 1.
Proof.
  intro s. unfold funky. pose proof (SIN_bound (w_inc s)). pose proof (SIN_bound (w_azm s)).
  assert (0 <= sin (w_inc s) ^ 2 <= 1) by nra. assert (0 <= sin (w_azm s) ^ 2 <= 1) by nra. nra.
Qed.
(** the denominator vanishes only at horizontal stations due east or west *)
Lemma funky_zero : forall s, funky s = 0 <-> cos (w_inc s) = 0 /\ cos (w_azm s) = 0.
Proof.
  intro s. unfold funky. pose proof (sin2_cos2 (w_inc s)) as P. pose proof (sin2_cos2 (w_azm s)) as Q.
  unfold Rsqr in *. set (si := sin (w_inc s)) in *. set (ci := cos (w_inc s)) in *.
  set (sa := sin (w_azm s)) in *. set (ca := cos (w_azm s)) in *. clearbody si ci sa ca. split.
  - intro H. assert (E : ci * ci + ca * ca - (ci * ci) * (ca * ca) = 0).
    { replace (ci * ci) with (1 - si * si) by lra. replace (ca * ca) with (1 - sa * sa) by lra. lra. }
    assert (0 <= ci * ci <= 1) by nra. assert (0 <= ca * ca <= 1) by nra.
    assert (ci * ci = 0) by nra. assert (ca * ca = 0) by nra. split; nra.
  - intros [H1 H2]. rewrite H1 in P. rewrite H2 in Q.
    replace (si ^ 2) with 1 by lra. replace (sa ^ 2) with 1 by lra. ring.
Qed.

(** the equations solved by any correct pair of rates *)
Ltac cfin := apply corrected_intro;
  cbn [tool_at at_inc at_azi at_tf at_g at_bh at_bv vx vy vz ex_ ey_ ez_ vzero vscale vadd vneg
       only_x only_y only_z acc_reading mag_reading];
  try reflexivity; try assumption; try ring.

Ltac cstart :=
  match goal with Hf : 0 < funky ?s |- _ => pose proof (funky_pos s Hf) end; wstart.

Ltac cset h s :=
  let B := fresh "B" in let cd := fresh "cd" in let sd := fresh "sd" in
  set (ci := cos (w_inc s)) in *; set (si := sin (w_inc s)) in *;
  set (ca := cos (w_azm s)) in *; set (sa := sin (w_azm s)) in *;
  set (B := h_btotal h) in *; set (cd := cos (h_dip h)) in *; set (sd := sin (h_dip h)) in *.

Lemma mbixy_rate : forall h s tf, sensible h -> 0 < sin (w_inc s) -> 0 < funky s ->
  exists w1 w2, w_MBIXY_TI1 h s = Some w1 /\ w_MBIXY_TI2 h s = Some w2 /\
    corrected_response (tool_at h s tf) (h_btotal h) (h_dip h) vzero 1 0 0 0
      (vadd (vscale (sin tf) w1) (vscale (cos tf) w2)) /\
    corrected_response (tool_at h s tf) (h_btotal h) (h_dip h) vzero 0 1 0 0
      (vsub (vscale (cos tf) w1) (vscale (sin tf) w2)).
Proof.
  intros h s tf Hh Hi Hf. cstart.
  unfold w_MBIXY_TI1, w_MBIXY_TI2. rewrite !fdiv_ne by nra. cbn [bind].
  eexists. eexists. split; [reflexivity|split; [reflexivity|]].
  unfold funky in *. split; unfold vsub; cfin; field; repeat split; lra.
Qed.

Lemma abixy_rate : forall h s tf, sensible h -> 0 < sin (w_inc s) -> 0 < funky s ->
  exists w1 w2, w_ABIXY_TI1 h s = Some w1 /\ w_ABIXY_TI2 h s = Some w2 /\
    corrected_response (tool_at h s tf) (h_btotal h) (h_dip h) ex_ 0 0 0 0
      (vadd (vscale (sin tf) w1) (vscale (cos tf) w2)) /\
    corrected_response (tool_at h s tf) (h_btotal h) (h_dip h) ey_ 0 0 0 0
      (vsub (vscale (cos tf) w1) (vscale (sin tf) w2)).
Proof.
  intros h s tf Hh Hi Hf. cstart.
  unfold w_ABIXY_TI1, w_ABIXY_TI2. rewrite !tan_ne by lra. cbn [bind nan0].
  rewrite !fdiv_ne by nra. cbn [bind nan0]. rewrite !fdiv_ne by nra. cbn [bind nan0].
  eexists. eexists. split; [reflexivity|split; [reflexivity|]].
  unfold funky in *. split; unfold vsub; cfin; unfold dipterm; field; repeat split; lra.
Qed.

Lemma asiz_rate : forall h s tf, sensible h -> 0 < sin (w_inc s) -> 0 < funky s ->
  exists w, w_ASIZ h s = Some w /\
    corrected_response (tool_at h s tf) (h_btotal h) (h_dip h) (only_z (acc_reading (tool_at h s tf))) 0 0 0 0 w.
Proof.
  intros h s tf Hh Hi Hf. cstart.
  unfold w_ASIZ. rewrite tan_ne by lra. cbn [bind]. rewrite fdiv_ne by lra. cbn [bind].
  eexists. split; [reflexivity|]. unfold funky in *. cfin; unfold dipterm; field; repeat split; lra.
Qed.

Lemma mfi_rate : forall h s tf, sensible h -> 0 < sin (w_inc s) -> 0 < funky s ->
  exists w, w_MFI h s = Some w /\
    corrected_response (tool_at h s tf) (h_btotal h) (h_dip h) vzero 0 0 1 0 w.
Proof.
  intros h s tf Hh Hi Hf. cstart.
  unfold w_MFI. rewrite tan_ne by lra. cbn [bind]. rewrite fdiv_ne by lra. cbn [bind].
  rewrite fdiv_ne by lra. cbn [bind].
  eexists. split; [reflexivity|]. unfold funky in *. cfin; unfold dipterm; field; repeat split; lra.
Qed.

Lemma mdi_rate : forall h s tf, sensible h -> 0 < sin (w_inc s) -> 0 < funky s ->
  exists w, w_MDI h s = Some w /\
    corrected_response (tool_at h s tf) (h_btotal h) (h_dip h) vzero 0 0 0 1 w.
Proof.
  intros h s tf Hh Hi Hf. cstart.
  unfold w_MDI. rewrite tan_ne by lra. cbn [bind]. rewrite fdiv_ne by lra. cbn [bind].
  eexists. split; [reflexivity|]. unfold funky in *. cfin; unfold dipterm; field; repeat split; lra.
Qed.

(** the azimuth part of ABIZ is the true rate times the square of gravity *)
Lemma abiz_excess : forall h s tf, sensible h -> 0 < sin (w_inc s) ->
  accuracy * h_G h < funky s ->
  exists w r, w_ABIZ h s = Some w /\
    corrected_response (tool_at h s tf) (h_btotal h) (h_dip h) ez_ 0 0 0 0 r /\
    vy w = vy r /\ vz w = h_G h ^ 2 * vz r.
Proof.
  intros h s tf Hh Hi Ha.
  assert (Hac : 0 < accuracy) by (unfold accuracy; lra).
  assert (Hf : 0 < funky s). { destruct Hh as [HG _]. nra. }
  cstart.
  assert (Hq : accuracy < funky s / h_G h).
  { apply (Rmult_lt_reg_r (h_G h)); [lra|]. unfold Rdiv. rewrite Rmult_assoc, Rinv_l by lra. lra. }
  unfold w_ABIZ. rewrite fdiv_ne by lra. cbn [bind].
  destruct (Rlt_dec accuracy (funky s / h_G h)) as [_|N]; [|contradiction].
  rewrite tan_ne by lra. cbn [bind]. rewrite !fdiv_ne by lra. cbn [bind].
  exists (mkV 0 (- sin (w_inc s) / h_G h)
    (sin (w_inc s) * cos (w_inc s) * sin (w_azm s) * dipterm (sin (h_dip h) / cos (h_dip h)) s / (funky s / h_G h))),
   (mkV 0 (- sin (w_inc s) / h_G h)
    (sin (w_inc s) * cos (w_inc s) * sin (w_azm s) * dipterm (sin (h_dip h) / cos (h_dip h)) s / (h_G h * funky s))).
  split; [reflexivity|split].
  - unfold funky in *. cfin; unfold dipterm; field; repeat split; lra.
  - cbn [vy vz]. split; [reflexivity|]. field. split; lra.
Qed.

(** toolface-independent terms *)
Lemma abixy_cov : forall h s tf wx wy, sensible h -> 0 < sin (w_inc s) -> 0 < funky s ->
  corrected_response (tool_at h s tf) (h_btotal h) (h_dip h) ex_ 0 0 0 0 wx ->
  corrected_response (tool_at h s tf) (h_btotal h) (h_dip h) ey_ 0 0 0 0 wy ->
  exists w1 w2, w_ABIXY_TI1 h s = Some w1 /\ w_ABIXY_TI2 h s = Some w2 /\
    madd (cov_from_vec wx) (cov_from_vec wy) = madd (cov_from_vec w1) (cov_from_vec w2).
Proof.
  intros h s tf wx wy Hh Hi Hf Hx Hy.
  destruct (abixy_rate h s tf Hh Hi Hf) as [w1 [w2 [E1 [E2 [R1 R2]]]]].
  exists w1, w2. split; [auto|split; [auto|]].
  rewrite (corrected_unique _ _ _ _ _ _ _ _ _ _ Hx R1), (corrected_unique _ _ _ _ _ _ _ _ _ _ Hy R2).
  apply cross_cov.
Qed.
Lemma mbixy_cov : forall h s tf wx wy, sensible h -> 0 < sin (w_inc s) -> 0 < funky s ->
  corrected_response (tool_at h s tf) (h_btotal h) (h_dip h) vzero 1 0 0 0 wx ->
  corrected_response (tool_at h s tf) (h_btotal h) (h_dip h) vzero 0 1 0 0 wy ->
  exists w1 w2, w_MBIXY_TI1 h s = Some w1 /\ w_MBIXY_TI2 h s = Some w2 /\
    madd (cov_from_vec wx) (cov_from_vec wy) = madd (cov_from_vec w1) (cov_from_vec w2).
Proof.
  intros h s tf wx wy Hh Hi Hf Hx Hy.
  destruct (mbixy_rate h s tf Hh Hi Hf) as [w1 [w2 [E1 [E2 [R1 R2]]]]].
  exists w1, w2. split; [auto|split; [auto|]].
  rewrite (corrected_unique _ _ _ _ _ _ _ _ _ _ Hx R1), (corrected_unique _ _ _ _ _ _ _ _ _ _ Hy R2).
  apply cross_cov.
Qed.

(** every combination of errors has rates *)
Lemma corrected_rate_exists : forall h s tf ea ex ey eB eD, sensible h -> 0 < sin (w_inc s) -> 0 < funky s ->
  exists w, corrected_response (tool_at h s tf) (h_btotal h) (h_dip h) ea ex ey eB eD w.
Proof.
  intros h s tf ea ex ey eB eD Hh Hi Hf. cstart. unfold funky in *.
  set (I' := (- cos (w_inc s) * (sin tf * vx ea + cos tf * vy ea) - sin (w_inc s) * vz ea) / h_G h).
  exists (mkV 0 I'
    ((cos (w_azm s) * (cos tf * ex - sin tf * ey)
      - sin (w_azm s) * cos (w_inc s) * (sin tf * ex + cos tf * ey)
      + (h_btotal h * sin (h_dip h) * sin (w_inc s) * cos (w_azm s) - h_btotal h * cos (h_dip h) * cos (w_inc s))
        * (- (cos tf * vx ea - sin tf * vy ea) / (h_G h * sin (w_inc s)))
      - sin (w_azm s) * cos (w_inc s) * (h_btotal h * sin (h_dip h) * cos (w_inc s)
           + h_btotal h * cos (h_dip h) * cos (w_azm s) * sin (w_inc s)) * I'
      - sin (w_azm s) * sin (w_inc s) * ((eB * cos (h_dip h) - h_btotal h * sin (h_dip h) * eD) * cos (w_azm s) * sin (w_inc s)
        + (eB * sin (h_dip h) + h_btotal h * cos (h_dip h) * eD) * cos (w_inc s)))
     / ((1 - sin (w_inc s) ^ 2 * sin (w_azm s) ^ 2) * (h_btotal h * cos (h_dip h))))).
  cfin; unfold I'; field; repeat split; lra.
Qed.

Lemma asixy_mean : forall h s wx wy c, sensible h -> 0 < sin (w_inc s) -> 0 < funky s ->
  (forall tf, corrected_response (tool_at h s tf) (h_btotal h) (h_dip h)
     (only_x (acc_reading (tool_at h s tf))) 0 0 0 0 (wx tf)) ->
  (forall tf, corrected_response (tool_at h s tf) (h_btotal h) (h_dip h)
     (only_y (acc_reading (tool_at h s tf))) 0 0 0 0 (wy tf)) ->
  exists w1 w2 w3, w_ASIXY_TI1 h s = Some w1 /\ w_ASIXY_TI2 h s = Some w2 /\ w_ASIXY_TI3 h s = Some w3 /\
    turn_mean (fun tf => (dot c (wx tf)) ^ 2 + (dot c (wy tf)) ^ 2)
      ((dot c w1) ^ 2 + (dot c w2) ^ 2 + (dot c w3) ^ 2).
Proof.
  intros h s wx wy c Hh Hi Hf Hx Hy.
  assert (HB := sensible_b h Hh). assert (Hh' := Hh). destruct Hh' as [HG [HBt HC]].
  assert (Hf' := funky_pos s Hf).
  set (t := sin (h_dip h) / cos (h_dip h)).
  set (p1 := sin (w_inc s) * cos (w_inc s)).
  set (p2 := - (sin (w_inc s) * cos (w_inc s) ^ 2 * sin (w_azm s) * dipterm t s) / funky s).
  set (q2 := (t * sin (w_inc s) * cos (w_azm s) - cos (w_inc s)) / funky s).
  set (V1 := mkV 0 p1 p2). set (V2 := mkV 0 0 q2).
  assert (Fx : forall tf, wx tf = vscale (sin tf) (vadd (vscale (sin tf) V1) (vscale (cos tf) V2))).
  { intro tf. apply (corrected_unique _ _ _ _ _ _ _ _ _ _ (Hx tf)).
    unfold V1, V2, p1, p2, q2, t, funky in *. cfin; unfold dipterm; field; repeat split; lra. }
  assert (Fy : forall tf, wy tf = vscale (cos tf) (vsub (vscale (cos tf) V1) (vscale (sin tf) V2))).
  { intro tf. apply (corrected_unique _ _ _ _ _ _ _ _ _ _ (Hy tf)).
    unfold V1, V2, p1, p2, q2, t, funky, vsub in *. cfin; unfold dipterm; field; repeat split; lra. }
  assert (S2 : 0 < sqrt 2) by (apply sqrt_lt_R0; lra).
  unfold w_ASIXY_TI1, w_ASIXY_TI2, w_ASIXY_TI3. rewrite tan_ne by lra. cbn [bind]. fold t.
  rewrite !fdiv_ne by nra. cbn [bind].
  do 3 eexists. split; [reflexivity|split; [reflexivity|split; [reflexivity|]]].
  set (p := dot c V1). set (q := dot c V2).
  match goal with |- turn_mean _ (dot c ?a ^ 2 + dot c ?b ^ 2 + dot c ?e ^ 2) =>
    replace (dot c a) with (p / sqrt 2);
    [replace (dot c b) with (p / 2); [replace (dot c e) with (q / 2)|]|] end.
  2:{ unfold q, V2, q2, dot. cbn [vx vy vz]. field. lra. }
  2:{ unfold p, V1, p1, p2, dot. cbn [vx vy vz]. field. lra. }
  2:{ unfold p, V1, p1, p2, dot. cbn [vx vy vz]. field. split; lra. }
  rewrite sqrt2_sq.
  replace (p ^ 2 / 2 + (p / 2) ^ 2 + (q / 2) ^ 2) with (3 / 4 * p ^ 2 + 1 / 4 * q ^ 2) by field.
  apply (quartic_mean (p ^ 2) (q ^ 2) (2 * p * q)).
  intro tf. rewrite Fx, Fy.
  replace (dot c (vscale (sin tf) (vadd (vscale (sin tf) V1) (vscale (cos tf) V2))))
    with (sin tf * (sin tf * p + cos tf * q)).
  2:{ unfold p, q, dot, vscale, vadd; cbn [vx vy vz]; ring. }
  replace (dot c (vscale (cos tf) (vsub (vscale (cos tf) V1) (vscale (sin tf) V2))))
    with (cos tf * (cos tf * p - sin tf * q)).
  2:{ unfold p, q, dot, vscale, vsub, vadd, vneg; cbn [vx vy vz]; ring. }
  ring.
Qed.

Lemma msixy_mean : forall h s wx wy c, sensible h -> 0 < sin (w_inc s) -> 0 < funky s ->
  (forall tf, corrected_response (tool_at h s tf) (h_btotal h) (h_dip h) vzero
     (vx (mag_reading (tool_at h s tf))) 0 0 0 (wx tf)) ->
  (forall tf, corrected_response (tool_at h s tf) (h_btotal h) (h_dip h) vzero
     0 (vy (mag_reading (tool_at h s tf))) 0 0 (wy tf)) ->
  exists w1 w2 w3, w_MSIXY_TI1 h s = Some w1 /\ w_MSIXY_TI2 h s = Some w2 /\ w_MSIXY_TI3 h s = Some w3 /\
    turn_mean (fun tf => (dot c (wx tf)) ^ 2 + (dot c (wy tf)) ^ 2)
      ((dot c w1) ^ 2 + (dot c w2) ^ 2 + (dot c w3) ^ 2).
Proof.
  intros h s wx wy c Hh Hi Hf Hx Hy.
  assert (HB := sensible_b h Hh). assert (Hh' := Hh). destruct Hh' as [HG [HBt HC]].
  assert (Hf' := funky_pos s Hf).
  set (bh := h_btotal h * cos (h_dip h)) in *. set (bv := h_btotal h * sin (h_dip h)).
  set (P := bh * (cos (w_azm s) * cos (w_inc s)) - bv * sin (w_inc s)).
  set (Q := bh * sin (w_azm s)).
  set (r := - cos (w_inc s) * sin (w_azm s) / (bh * funky s)). set (t := cos (w_azm s) / (bh * funky s)).
  assert (Fx : forall tf, wx tf = mkV 0 0 ((P * sin tf + Q * cos tf) * (sin tf * r + cos tf * t))).
  { intro tf. apply (corrected_unique _ _ _ _ _ _ _ _ _ _ (Hx tf)).
    unfold P, Q, r, t, bv, bh, funky in *. cfin; field; repeat split; lra. }
  assert (Fy : forall tf, wy tf = mkV 0 0 ((P * cos tf - Q * sin tf) * (cos tf * r - sin tf * t))).
  { intro tf. apply (corrected_unique _ _ _ _ _ _ _ _ _ _ (Hy tf)).
    unfold P, Q, r, t, bv, bh, funky in *. cfin; field; repeat split; lra. }
  assert (S2' : 0 < sqrt 2) by (apply sqrt_lt_R0; lra).
  unfold w_MSIXY_TI1, w_MSIXY_TI2, w_MSIXY_TI3. rewrite tan_ne by lra. cbn [bind].
  rewrite !fdiv_ne by nra. cbn [bind].
  do 3 eexists. split; [reflexivity|split; [reflexivity|split; [reflexivity|]]].
  unfold dot. cbn [vx vy vz].
  pose proof (sin2_cos2 (w_inc s)) as S1. pose proof (sin2_cos2 (w_azm s)) as S2. unfold Rsqr in *.
  assert (K1 : sin (w_inc s) * sin (w_azm s) * dipterm (sin (h_dip h) / cos (h_dip h)) s / (sqrt 2 * funky s)
     = (P * r + Q * t) / sqrt 2).
  { unfold P, Q, r, t, dipterm, bv, bh.
    transitivity (sin (w_azm s) * (sin (w_inc s) * cos (w_inc s) * (sin (h_dip h) / cos (h_dip h))
       + (1 - cos (w_inc s) * cos (w_inc s)) * cos (w_azm s)) / (sqrt 2 * funky s)).
    - rewrite <- S1. field. repeat split; lra.
    - field. repeat split; lra. }
  assert (K2 : sin (w_azm s) * (sin (h_dip h) / cos (h_dip h) * sin (w_inc s) * cos (w_inc s)
                  - cos (w_inc s) ^ 2 * cos (w_azm s) - cos (w_azm s)) / (2 * funky s) = (P * r - Q * t) / 2).
  { unfold P, Q, r, t, bv, bh. field. repeat split; lra. }
  assert (K3 : (cos (w_inc s) * cos (w_azm s) ^ 2
                  - cos (w_inc s) * sin (w_azm s) ^ 2
                  - sin (h_dip h) / cos (h_dip h) * sin (w_inc s) * cos (w_azm s)) / (2 * funky s) = (P * t + Q * r) / 2).
  { unfold P, Q, r, t, bv, bh. field. repeat split; lra. }
  rewrite K1, K2, K3.
  replace ((vx c * 0 + vy c * 0 + vz c * ((P * r + Q * t) / sqrt 2)) ^ 2) with (vz c ^ 2 * ((P * r + Q * t) / sqrt 2) ^ 2) by ring.
  rewrite sqrt2_sq.
  match goal with |- turn_mean ?f ?m =>
    replace m with (3 / 4 * (vz c ^ 2 * ((P * r) ^ 2 + (Q * t) ^ 2))
                    + 1 / 4 * (vz c ^ 2 * ((P * t + Q * r) ^ 2 + 2 * (P * r) * (Q * t)))) by field end.
  apply (quartic_mean _ _ (vz c ^ 2 * (2 * (P * r) * (P * t + Q * r) - 2 * (P * t + Q * r) * (Q * t)))).
  intro tf. rewrite Fx, Fy. cbn [vx vy vz]. ring.
Qed.
