(** Connections for the option closest_approach. *)
Require Import Reals ZArith Bool String List Lra Lia Psatz.
Require Import Verif.Base Verif.Spec Verif.NumPy Verif.M_Utils Verif.M_Connector Verif.Spec_Connector Verif.Spec_Connector2 Verif.P_Utils Verif.P_Connector Verif.P_Connector2 Verif.P_Connector5.
Require Import Verif.M_Approach Verif.Spec_Approach Verif.P_Approach.
Import ListNotations.
Local Open Scope R_scope.

(** leaving the origin along (4, 7, -4) / 9 with one degree per 30 m *)
Definition tilt : V3 := mkV (4 / 9) (7 / 9) (- (4 / 9)).
Definition tilted (t : V3) : cargs :=
  mkArgs vzero (Some tilt) None None 0 (Some 1) None (Some t) None None None true (1 / 100000) false.
Lemma tilt_unit : is_unit tilt.
Proof. unfold is_unit, dot, tilt. cbn. field. Qed.
Lemma tilted_only : forall t, only_position (tilted t) tilt t 30.
Proof. intro t. repeat split; cbn; try lra. exists 1. repeat split; lra. Qed.
Lemma not_close_far : forall u w : V3, 1 / 10 < Rabs (vx u - vx w) -> Rabs (vx w) <= 100 -> ~ allclose u w.
Proof. intros u w D B (A & _). unfold close, rtol, atol in A. lra. Qed.
Lemma abs_ge : forall x, x <= Rabs x.
Proof. intro x. apply Rle_abs. Qed.

(** the first target: on the sphere around the pivot *)
Definition on_sphere_target : V3 := vscale (512 / 1215) (mkV 44 5 (-8)).
Lemma sphere_cross : cross on_sphere_target tilt = vscale (512 / 27 * (4 / 5)) (mkV (1 / 9) (4 / 9) (8 / 9)).
Proof. unfold on_sphere_target, tilt. apply V3_eq; cbn; field. Qed.
Lemma sub_zero_r : forall t, vsub t vzero = t.
Proof. intro t. vring. Qed.
Lemma ninth_unit : norm (mkV (1 / 9) (4 / 9) (8 / 9)) = 1.
Proof. apply norm_1. unfold dot. cbn. field. Qed.
Lemma pivot_tilted : forall t k, 0 < k -> cross t tilt = vscale k (mkV (1 / 9) (4 / 9) (8 / 9)) -> 0 < vx t -> 0 < vy t -> vz t < 0 ->
  pivot vzero tilt t 30 = mkV (30 / 9) (120 / 9) (- (240 / 9)).
Proof.
  intros t k K E X Y Z. unfold pivot. cbv zeta. rewrite sub_zero_r, E, norm_vscale, ninth_unit, (Rabs_pos_eq k) by lra.
  cbn [vscale vx vy vz]. unfold with_sign. destruct (Rlt_dec (vx t) 0); [lra|]. destruct (Rlt_dec (vy t) 0); [lra|]. destruct (Rlt_dec (vz t) 0); [|lra].
  rewrite !Rabs_pos_eq by lra. apply V3_eq; cbn; field; lra.
Qed.
Lemma sphere_pivot : pivot vzero tilt on_sphere_target 30 = mkV (30 / 9) (120 / 9) (- (240 / 9)).
Proof. apply (pivot_tilted _ (512 / 27 * (4 / 5))); [lra|apply sphere_cross|unfold on_sphere_target; cbn; lra ..]. Qed.
Lemma sphere_approachable : approachable vzero tilt on_sphere_target 30.
Proof.
  unfold approachable. rewrite sphere_pivot, sub_zero_r, sphere_cross. unfold no_zero, on_sphere_target. cbn [vscale vx vy vz].
  repeat split; try lra. intro E. apply (f_equal vx) in E. cbn in E. lra.
Qed.
Lemma sphere_dist : dist on_sphere_target (pivot vzero tilt on_sphere_target 30) = 30.
Proof. rewrite sphere_pivot. unfold dist. apply norm_from_sqr; [lra|]. unfold on_sphere_target, dot. cbn. field. Qed.
Lemma sphere_off : off_axis vzero tilt on_sphere_target = 512 / 27 * (4 / 5).
Proof. unfold off_axis. rewrite sub_zero_r, sphere_cross, norm_vscale, ninth_unit, Rabs_pos_eq by lra. ring. Qed.
Lemma sphere_ahead : ahead vzero tilt on_sphere_target = 512 / 27 * (3 / 5).
Proof. unfold ahead, on_sphere_target, tilt, dot. cbn. field. Qed.
Lemma sphere_radius : tangent_circle_radius vzero tilt on_sphere_target = 320 / 27.
Proof. unfold tangent_circle_radius. rewrite sphere_off. unfold on_sphere_target, dot. cbn. field. Qed.
Lemma close_origin_far : forall t, 1 <= vx t <= 100 -> ~ allclose vzero t.
Proof. intros t B. apply not_close_far; [|rewrite Rabs_pos_eq; lra]. cbn. rewrite Rabs_left; lra. Qed.
Lemma tilted_dir : forall t d, 0 < d -> dot t t = d * d -> vx t >= 17 / 30 * d -> ~ allclose tilt (vunit (vsub t vzero)).
Proof.
  intros t d D E B. rewrite sub_zero_r. assert (N : norm t = d) by (apply norm_from_sqr; [lra|exact E]).
  assert (XX : vx t * vx t <= d * d) by (rewrite <- E; unfold dot; nra).
  assert (XD : vx t <= d) by nra.
  assert (I : 0 < / d) by (apply Rinv_0_lt_compat; exact D). assert (ID : / d * d = 1) by (field; lra).
  apply not_close_far; unfold vunit; rewrite N; cbn [vscale vx tilt].
  - rewrite Rabs_left; nra.
  - rewrite Rabs_pos_eq; nra.
Qed.
Lemma sphere_case : forall bump bump', exists c,
  connector bump (tilted on_sphere_target) = inl c /\ approach_connector true bump bump' (tilted on_sphere_target) = inl c /\
  k_method c = MinCurveToTarget /\ k_pos_target c = on_sphere_target /\
  turn_then_straight vzero tilt (320 / 27) (k_dogleg c) 0 on_sphere_target on_sphere_target (k_vec_target c).
Proof.
  intros bump bump'. pose proof (tilted_only on_sphere_target) as OP.
  assert (NC : ~ allclose vzero on_sphere_target) by (apply close_origin_far; unfold on_sphere_target; cbn; lra).
  destruct (single_arc_solves bump _ _ _ _ OP tilt_unit) as (c & H & M & Q); cbn [a_pos1 tilted].
  - apply (tilted_dir _ (512 / 27)); [lra|unfold on_sphere_target, dot; cbn; field|unfold on_sphere_target; cbn; lra].
  - exact NC.
  - rewrite sphere_off. lra.
  - rewrite sphere_ahead. lra.
  - rewrite sphere_radius. lra.
  - exists c. split; [exact H|]. destruct (only_position_method _ _ _ _ OP) as (_ & SV & RD & _).
    assert (A : approach_connector true bump bump' (tilted on_sphere_target) = inl c).
    { rewrite <- H. apply (approach_same bump bump' _ on_sphere_target 30); auto; rewrite ?SV; cbn [a_pos1 tilted]; try lra.
      - rewrite sphere_off. lra.
      - apply sphere_approachable.
      - apply sphere_dist. }
    split; [exact A|]. split; [exact M|]. split; [exact Q|].
    destruct (single_arc_reaches bump _ c ltac:(rewrite SV; apply tilt_unit) H M) as (W & _); rewrite ?SV, ?Q; cbn [a_pos1 tilted]; auto.
    + rewrite sphere_off. lra.
    + rewrite sphere_ahead. lra.
    + intros r E. rewrite RD in E. injection E as <-. rewrite sphere_radius. lra.
    + rewrite SV, Q in W. cbn [a_pos1 tilted] in W. rewrite sphere_radius in W. exact W.
Qed.

(** the second: outside the sphere, and the new target is within reach of a wider turn *)
Definition far_target : V3 := mkV (161668 / 5103) (323336 / 25515) (- (525421 / 51030)).
Definition far_point : V3 := mkV (1088150 / 37129) (472568 / 37129) (- (1299562 / 111387)).
Lemma far_cross : cross far_target tilt = vscale (40417 / 1134 * (3 / 5)) (mkV (1 / 9) (4 / 9) (8 / 9)).
Proof. unfold far_target, tilt. apply V3_eq; cbn; field. Qed.
Lemma far_pivot : pivot vzero tilt far_target 30 = mkV (30 / 9) (120 / 9) (- (240 / 9)).
Proof. apply (pivot_tilted _ (40417 / 1134 * (3 / 5))); [lra|apply far_cross|unfold far_target; cbn; lra ..]. Qed.
Lemma far_approachable : approachable vzero tilt far_target 30.
Proof.
  unfold approachable. rewrite far_pivot, sub_zero_r, far_cross. unfold no_zero, far_target. cbn [vscale vx vy vz].
  repeat split; try lra. intro E. apply (f_equal vx) in E. cbn in E. lra.
Qed.
Lemma far_new : approach_target vzero tilt far_target 30 = Some far_point.
Proof.
  apply target_point. split; [exact far_approachable|]. rewrite far_pivot. unfold vunit.
  assert (N : norm (vsub far_target (mkV (30 / 9) (120 / 9) (- (240 / 9)))) = 37129 / 1134).
  { apply norm_from_sqr; [lra|]. unfold far_target, dot. cbn. field. }
  rewrite N. unfold far_point, far_target. apply V3_eq; cbn; field.
Qed.
Lemma far_off : off_axis vzero tilt far_target = 40417 / 1134 * (3 / 5).
Proof. unfold off_axis. rewrite sub_zero_r, far_cross, norm_vscale, ninth_unit, Rabs_pos_eq by lra. ring. Qed.
Lemma far_ahead : ahead vzero tilt far_target = 40417 / 1134 * (4 / 5).
Proof. unfold ahead, far_target, tilt, dot. cbn. field. Qed.
Lemma far_radius : tangent_circle_radius vzero tilt far_target < 30.
Proof.
  unfold tangent_circle_radius. rewrite far_off, sub_zero_r. assert (E : dot far_target far_target = 40417 / 1134 * (40417 / 1134)) by (unfold far_target, dot; cbn; field).
  rewrite E. lra.
Qed.
Lemma point_off : 19 < off_axis vzero tilt far_point < 19.2.
Proof.
  unfold off_axis. rewrite sub_zero_r. set (n := norm (cross far_point tilt)). pose proof (norm_ge0 (cross far_point tilt)) as P. fold n in P.
  assert (E : n * n = dot (cross far_point tilt) (cross far_point tilt)) by (unfold n; apply norm_sqr).
  assert (B : 361 < dot (cross far_point tilt) (cross far_point tilt) < 367.1) by (unfold far_point, tilt, dot; cbn; lra).
  split; nra.
Qed.
Lemma point_radius : 30 < tangent_circle_radius vzero tilt far_point.
Proof.
  unfold tangent_circle_radius. rewrite sub_zero_r. pose proof point_off as [L U].
  set (n := off_axis vzero tilt far_point) in *. clearbody n. assert (E : 1156 < dot far_point far_point) by (unfold far_point, dot; cbn; lra).
  apply Rmult_lt_reg_r with (2 * n); [lra|]. unfold Rdiv. rewrite Rmult_assoc, Rinv_l by lra. lra.
Qed.
Lemma far_case : forall bump bump', exists c0 c,
  connector bump (tilted far_target) = inl c0 /\ k_method c0 = MinCurveToTarget /\
  approach_connector true bump bump' (tilted far_target) = inl c /\ k_pos_target c = far_point /\ ~ allclose vzero far_point /\
  0 < off_axis vzero tilt far_point /\ ahead vzero tilt far_point <> 0 /\ 30 < tangent_circle_radius vzero tilt far_point /\
  exists n, is_unit n /\ orthogonal tilt n /\ k_md_target c = 30 * k_dogleg c /\
    0 < dist far_point (arc_point vzero tilt n 30 (k_dogleg c)).
Proof.
  intros bump bump'. pose proof (tilted_only far_target) as OP.
  assert (NC : ~ allclose vzero far_target) by (apply close_origin_far; unfold far_target; cbn; lra).
  assert (NP : ~ allclose vzero far_point) by (apply close_origin_far; unfold far_point; cbn; lra).
  pose proof point_off as PO. pose proof point_radius as PR.
  assert (PA : ahead vzero tilt far_point <> 0) by (unfold ahead, far_point, tilt, dot; cbn; lra).
  destruct (single_arc_solves bump _ _ _ _ OP tilt_unit) as (c0 & H & M & Q); cbn [a_pos1 tilted].
  - apply (tilted_dir _ (40417 / 1134)); [lra|unfold far_target, dot; cbn; field|unfold far_target; cbn; lra].
  - exact NC.
  - rewrite far_off. lra.
  - rewrite far_ahead. lra.
  - exact far_radius.
  - exists c0. destruct (only_position_method _ _ _ _ OP) as (_ & SV & RD & _).
    assert (O : 0 < off_axis vzero tilt far_target) by (rewrite far_off; lra).
    assert (US : is_unit (start_vec (tilted far_target))) by (rewrite SV; apply tilt_unit).
    destruct (approach_succeeds bump bump' (tilted far_target) c0 far_target 30 far_point) as (c & A & E); auto; rewrite ?SV; cbn [a_pos1 tilted]; auto; try lra.
    { exact far_approachable. }
    { assert (R3 : 0 < 30) by lra. apply (target_place _ _ _ _ _ R3 far_new). }
    exists c. split; [exact H|]. split; [exact M|]. split; [exact A|]. split; [exact E|]. split; [exact NP|]. split; [lra|]. split; [exact PA|]. split; [exact PR|].
    destruct (approach_turn bump bump' (tilted far_target) c0 c far_target 30 US H M) as [_ W]; rewrite ?SV, ?E; cbn [a_pos1 tilted]; auto; try lra.
    rewrite SV, E in W. cbn [a_pos1 a_md1 tilted] in W. destruct (W ltac:(lra)) as (n & Nn & On & MD & DI). exists n. repeat split; auto; try lra.
    rewrite DI. set (rc := tangent_circle_radius vzero tilt far_point) in *. clearbody rc.
    assert (30 / rc < 1) by (apply Rmult_lt_reg_r with rc; [lra|]; unfold Rdiv; rewrite Rmult_assoc, Rinv_l by lra; lra).
    assert (0 < dist far_point vzero); [|nra]. unfold dist. apply norm_pos. rewrite sub_zero_r. intro Z. apply (f_equal vx) in Z. unfold far_point in Z. cbn in Z. lra.
Qed.

(** with the option the turn can be as tight as without it *)
Lemma closest_refuted : forall bump bump', exists a t c,
  is_unit (start_vec a) /\ a_pos2 a = Some t /\ radius_design a = Some 30 /\
  connector bump a = inl c /\ approach_connector true bump bump' a = inl c /\ k_pos_target c = t /\
  turn_then_straight (a_pos1 a) (start_vec a) (320 / 27) (k_dogleg c) 0 t t (k_vec_target c).
Proof.
  intros bump bump'. destruct (sphere_case bump bump') as (c & H & A & _ & Q & W).
  exists (tilted on_sphere_target), on_sphere_target, c. destruct (only_position_method _ _ _ _ (tilted_only on_sphere_target)) as (_ & SV & RD & _).
  rewrite SV. split; [apply tilt_unit|]. repeat split; auto.
Qed.
(** or the reported end is not where a turn of the reported length and curvature ends *)
Lemma short_refuted : forall bump bump', exists a c n,
  is_unit (start_vec a) /\ radius_design a = Some 30 /\ approach_connector true bump bump' a = inl c /\
  is_unit n /\ orthogonal (start_vec a) n /\ k_md_target c = a_md1 a + 30 * k_dogleg c /\
  0 < dist (k_pos_target c) (arc_point (a_pos1 a) (start_vec a) n 30 (k_dogleg c)).
Proof.
  intros bump bump'. destruct (far_case bump bump') as (c0 & c & H & M & A & Q & NC & O & AH & RR & n & Nn & On & MD & D).
  exists (tilted far_target), c, n. destruct (only_position_method _ _ _ _ (tilted_only far_target)) as (_ & SV & RD & _).
  rewrite SV, Q. cbn [a_pos1 a_md1 tilted]. split; [apply tilt_unit|]. repeat split; auto. lra.
Qed.
