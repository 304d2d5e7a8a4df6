(** Proofs about M_Utils.v: vectors, angles, dogleg and minimum-curvature step. *)
Require Import Reals Lra Psatz ZArith List.
Require Import Verif.Base Verif.NumPy Verif.P_Trig Verif.Spec Verif.M_Utils.
Import ListNotations.
Open Scope R_scope.

Lemma direction_unit : forall i a, is_unit (direction_nev i a).
Proof.
  intros. unfold is_unit, direction_nev, dot; simpl.
  pose proof (sin2_cos2' i). pose proof (sin2_cos2' a).
  replace (sin i * cos a * (sin i * cos a) + sin i * sin a * (sin i * sin a) + cos i * cos i)
    with (sin i * sin i * (sin a * sin a + cos a * cos a) + cos i * cos i) by ring.
  rewrite H0. lra.
Qed.

Lemma direction_dot : forall i1 a1 i2 a2,
  dot (direction_nev i1 a1) (direction_nev i2 a2)
  = cos i1 * cos i2 + sin i1 * sin i2 * cos (a2 - a1).
Proof. intros. unfold dot, direction_nev; simpl. rewrite cos_minus. ring. Qed.

Lemma unit_dot_bounds : forall u v, is_unit u -> is_unit v -> -1 <= dot u v <= 1.
Proof.
  unfold is_unit; intros u v Hu Hv. pose proof (cauchy_sqr u v) as H.
  rewrite Hu, Hv in H. nra.
Qed.

Lemma unit_dot_1_eq : forall u v, is_unit u -> is_unit v -> dot u v = 1 -> u = v.
Proof.
  unfold is_unit; intros u v Hu Hv H.
  assert (E : dot (vsub u v) (vsub u v) = 0).
  { rewrite dot_vsub_l, !dot_vsub_r, (dot_comm v u). lra. }
  apply dot_self_eq0 in E. destruct u, v. unfold vsub, vzero in E; simpl in E.
  injection E; intros. f_equal; lra.
Qed.

(** ** dogleg *)
Lemma haversine : forall i1 a1 i2 a2,
  sin ((i2 - i1) / 2) ^ 2 + sin i1 * sin i2 * sin ((a2 - a1) / 2) ^ 2
  = (1 - dot (direction_nev i1 a1) (direction_nev i2 a2)) / 2.
Proof.
  intros. rewrite direction_dot.
  pose proof (sin_half_sqr (i2 - i1)). pose proof (sin_half_sqr (a2 - a1)).
  replace (sin ((i2 - i1) / 2) ^ 2) with ((1 - cos (i2 - i1))/2) by lra.
  replace (sin ((a2 - a1) / 2) ^ 2) with ((1 - cos (a2 - a1))/2) by lra.
  rewrite (cos_minus i2 i1). field.
Qed.

Lemma haversine_bounds : forall i1 a1 i2 a2,
  0 <= sin ((i2 - i1) / 2) ^ 2 + sin i1 * sin i2 * sin ((a2 - a1) / 2) ^ 2 <= 1.
Proof.
  intros. rewrite haversine.
  pose proof (unit_dot_bounds _ _ (direction_unit i1 a1) (direction_unit i2 a2)). lra.
Qed.

Lemma sqrt_le_1' : forall x, 0 <= x <= 1 -> 0 <= sqrt x <= 1.
Proof.
  intros x H; split; [apply sqrt_pos|]. rewrite <- sqrt_1. apply sqrt_le_1_alt; lra.
Qed.

Lemma asin_nonneg : forall s, 0 <= s <= 1 -> 0 <= asin s <= PI/2.
Proof.
  intros s H. split; [|apply asin_bound].
  destruct (Rle_dec 0 (asin s)); auto. exfalso.
  pose proof (asin_bound s). pose proof PI_RGT_0.
  assert (sin (asin s) < 0) by (apply sin_lt_0_var; lra).
  rewrite sin_asin in H2; lra.
Qed.

Lemma dogleg_angle : forall i1 a1 i2 a2,
  angle_between (direction_nev i1 a1) (direction_nev i2 a2) (get_dogleg i1 a1 i2 a2).
Proof.
  intros. unfold get_dogleg.
  pose proof (haversine_bounds i1 a1 i2 a2) as HB.
  pose proof (haversine i1 a1 i2 a2) as HE.
  set (h := sin ((i2 - i1) / 2) ^ 2 + sin i1 * sin i2 * sin ((a2 - a1) / 2) ^ 2) in *.
  pose proof (sqrt_le_1' h HB) as HS. pose proof (asin_nonneg _ HS) as HA.
  split; [lra|].
  rewrite cos_2a_sin, sin_asin by lra.
  replace (2 * sqrt h * sqrt h) with (2 * (sqrt h * sqrt h)) by ring.
  rewrite sqrt_sqrt by lra. lra.
Qed.

Lemma angle_between_unique : forall u v s t,
  angle_between u v s -> angle_between u v t -> s = t.
Proof.
  intros u v s t [Hs Es] [Ht Et]. apply cos_inj_0_PI; auto. congruence.
Qed.

Lemma dogleg_sym : forall i1 a1 i2 a2, get_dogleg i1 a1 i2 a2 = get_dogleg i2 a2 i1 a1.
Proof.
  intros. apply (angle_between_unique (direction_nev i1 a1) (direction_nev i2 a2)).
  - apply dogleg_angle.
  - destruct (dogleg_angle i2 a2 i1 a1) as [H E]. split; auto. rewrite dot_comm; auto.
Qed.

Lemma dogleg_azi_offset : forall i1 a1 i2 a2 d,
  get_dogleg i1 (a1 + d) i2 (a2 + d) = get_dogleg i1 a1 i2 a2.
Proof. intros. unfold get_dogleg. replace (a2 + d - (a1 + d)) with (a2 - a1) by ring. reflexivity. Qed.

Lemma direction_azi_period : forall i a (k : Z),
  direction_nev i (a + 2 * PI * IZR k) = direction_nev i a.
Proof. intros. unfold direction_nev. rewrite cos_shift_Z, sin_shift_Z. reflexivity. Qed.

Lemma dogleg_azi_period : forall i1 a1 i2 a2 (k1 k2 : Z),
  get_dogleg i1 (a1 + 2 * PI * IZR k1) i2 (a2 + 2 * PI * IZR k2) = get_dogleg i1 a1 i2 a2.
Proof.
  intros. apply (angle_between_unique (direction_nev i1 a1) (direction_nev i2 a2)).
  - rewrite <- (direction_azi_period i1 a1 k1), <- (direction_azi_period i2 a2 k2).
    apply dogleg_angle.
  - apply dogleg_angle.
Qed.

Lemma dogleg_0_iff : forall i1 a1 i2 a2,
  get_dogleg i1 a1 i2 a2 = 0 <-> direction_nev i1 a1 = direction_nev i2 a2.
Proof.
  intros. destruct (dogleg_angle i1 a1 i2 a2) as [H E]. split; intro Z.
  - rewrite Z, cos_0 in E. apply unit_dot_1_eq; auto using direction_unit.
  - rewrite Z in E. rewrite direction_unit in E.
    apply cos_inj_0_PI; auto. pose proof PI_RGT_0; lra. rewrite cos_0; auto.
Qed.

(** ** the step as a vector expression *)
Definition mc_disp (delta theta : R) (u v : V3) : V3 :=
  vscale (delta * get_rf theta / 2) (vadd u v).

Lemma min_curve_step_disp : forall d i1 a1 i2 a2,
  min_curve_step d i1 a1 i2 a2
  = mc_disp d (get_dogleg i1 a1 i2 a2) (direction_nev i1 a1) (direction_nev i2 a2).
Proof. intros. reflexivity. Qed.

Lemma tan_half_1 : forall t, 0 < t < PI -> sin t = tan (t/2) * (1 + cos t).
Proof.
  intros t H. assert (0 < cos (t/2)) by (apply cos_gt_0; lra).
  pose proof (cos_half_sqr t). rewrite <- H1. unfold tan.
  rewrite (sin_half_double t). field. lra.
Qed.
Lemma tan_half_2 : forall t, 0 < t < PI -> 1 - cos t = tan (t/2) * sin t.
Proof.
  intros t H. assert (0 < cos (t/2)) by (apply cos_gt_0; lra).
  pose proof (sin_half_sqr t). rewrite <- H1. unfold tan.
  rewrite (sin_half_double t). field. lra.
Qed.

(** The normal of the plane of two unit vectors at angle t. *)
Definition bend_normal (u v : V3) (t : R) : V3 :=
  vscale (/ sin t) (vsub v (vscale (cos t) u)).

Lemma bend_normal_spec : forall u v t, is_unit u -> is_unit v -> 0 < t < PI ->
  cos t = dot u v ->
  is_unit (bend_normal u v t) /\ orthogonal u (bend_normal u v t)
  /\ v = arc_tangent u (bend_normal u v t) t.
Proof.
  unfold is_unit, orthogonal, bend_normal, arc_tangent; intros u v t Hu Hv Ht Hc.
  assert (Hs : 0 < sin t) by (apply sin_gt_0; lra).
  pose proof (sin2_cos2' t) as HP.
  split; [|split].
  - rewrite dot_vscale_l, dot_vscale_r, dot_vsub_l, !dot_vsub_r,
      !dot_vscale_l, !dot_vscale_r, (dot_comm v u), Hu, Hv, <- Hc.
    replace (1 - cos t * cos t - (cos t * cos t - cos t * (cos t * 1)))
      with (sin t * sin t) by lra.
    field. lra.
  - rewrite dot_vscale_r, dot_vsub_r, dot_vscale_r, Hu, <- Hc. ring.
  - destruct u, v; unf. apply V3_eq; simpl; field; lra.
Qed.

Lemma mc_disp_arc : forall p u v d t, is_unit u -> is_unit v -> 0 < t < PI ->
  cos t = dot u v ->
  circular_arc p u d t (vadd p (mc_disp d t u v)) v.
Proof.
  intros p u v d t Hu Hv Ht Hc.
  destruct (bend_normal_spec u v t Hu Hv Ht Hc) as [N1 [N2 N3]].
  exists (bend_normal u v t), (d / t).
  split; [auto|]. split; [auto|]. split; [field; lra|]. split; [|auto].
  unfold arc_point. f_equal.
  unfold mc_disp, get_rf. destruct (Req_EM_T t 0); [lra|].
  assert (Hs : 0 < sin t) by (apply sin_gt_0; lra).
  pose proof (tan_half_1 t Ht) as T1. pose proof (tan_half_2 t Ht) as T2.
  rewrite T2. unfold bend_normal.
  set (T := tan (t/2)) in *.
  assert (forall x y : R, d * (2 / t * T) / 2 * (x + y)
     = d / t * sin t * x + d / t * (T * sin t) * (/ sin t * (y - cos t * x))) as E.
  { intros x y. replace (d / t * (T * sin t) * (/ sin t * (y - cos t * x)))
      with (d / t * T * (y - cos t * x)) by (field; lra).
    rewrite T1. field. lra. }
  destruct u, v; unf. apply V3_eq; simpl; apply E.
Qed.

Lemma mc_disp_straight : forall u d, mc_disp d 0 u u = vscale d u.
Proof.
  intros. unfold mc_disp, get_rf. destruct (Req_EM_T 0 0); [|lra].
  destruct u; unf. apply V3_eq; simpl; field.
Qed.

Lemma mc_disp_equal_angles : forall d t u v, is_unit u -> is_unit v ->
  dot (mc_disp d t u v) u = dot (mc_disp d t u v) v.
Proof.
  unfold is_unit, mc_disp; intros. rewrite !dot_vscale_l, !dot_vadd_l, H, H0, (dot_comm v u). ring.
Qed.

Lemma mc_disp_sqr : forall d t u v, is_unit u -> is_unit v -> 0 < t < PI ->
  cos t = dot u v ->
  dot (mc_disp d t u v) (mc_disp d t u v)
  = (d * (sin (t/2) / (t/2))) * (d * (sin (t/2) / (t/2))).
Proof.
  unfold is_unit, mc_disp; intros d t u v Hu Hv Ht Hc.
  rewrite dot_vscale_l, dot_vscale_r, dot_vadd_l, !dot_vadd_r, (dot_comm v u), Hu, Hv, <- Hc.
  unfold get_rf. destruct (Req_EM_T t 0); [lra|].
  assert (0 < cos (t/2)) by (apply cos_gt_0; lra).
  replace (1 + cos t + (cos t + 1)) with (4 * (cos (t/2) * cos (t/2))).
  2: { pose proof (cos_half_sqr t). lra. }
  unfold tan. field. lra.
Qed.

Lemma sinc_bounds : forall t, 0 < t < PI -> 0 < sin (t/2) / (t/2) <= 1.
Proof.
  intros t Ht. assert (0 < sin (t/2)) by (apply sin_gt_0; lra).
  pose proof (sin_le_x (t/2)).
  split. apply Rdiv_lt_0_compat; lra.
  apply Rmult_le_reg_r with (t/2); [lra|]. unfold Rdiv at 1.
  rewrite Rmult_assoc, Rinv_l by lra. lra.
Qed.

Lemma step_chord : forall d i1 a1 i2 a2, 0 <= d ->
  0 < get_dogleg i1 a1 i2 a2 < PI ->
  norm (min_curve_step d i1 a1 i2 a2)
  = d * (sin (get_dogleg i1 a1 i2 a2 / 2) / (get_dogleg i1 a1 i2 a2 / 2)).
Proof.
  intros d i1 a1 i2 a2 Hd Ht. destruct (dogleg_angle i1 a1 i2 a2) as [_ E].
  rewrite min_curve_step_disp. apply norm_from_sqr.
  - pose proof (sinc_bounds _ Ht). nra.
  - apply mc_disp_sqr; auto using direction_unit.
Qed.

Lemma step_straight : forall d i1 a1 i2 a2, get_dogleg i1 a1 i2 a2 = 0 ->
  min_curve_step d i1 a1 i2 a2 = vscale d (direction_nev i1 a1).
Proof.
  intros. rewrite min_curve_step_disp, H. apply dogleg_0_iff in H. rewrite <- H.
  apply mc_disp_straight.
Qed.

Lemma step_le_delta : forall d i1 a1 i2 a2, 0 <= d ->
  get_dogleg i1 a1 i2 a2 < PI ->
  norm (min_curve_step d i1 a1 i2 a2) <= d.
Proof.
  intros d i1 a1 i2 a2 Hd Ht. destruct (dogleg_angle i1 a1 i2 a2) as [B _].
  destruct (Req_EM_T (get_dogleg i1 a1 i2 a2) 0) as [Z|Z].
  - rewrite step_straight by auto. rewrite norm_vscale, Rabs_right by lra.
    rewrite (norm_1 _ (direction_unit i1 a1)). lra.
  - rewrite step_chord by lra.
    assert (0 < get_dogleg i1 a1 i2 a2 < PI) as P by lra.
    pose proof (sinc_bounds _ P). nra.
Qed.

Lemma direction_reverse : forall i a, direction_nev (PI - i) (a + PI) = vneg (direction_nev i a).
Proof.
  intros. unfold direction_nev, vneg; simpl.
  rewrite neg_cos, neg_sin, sin_PI_x.
  replace (cos (PI - i)) with (- cos i). 2:{ rewrite cos_minus, cos_PI, sin_PI. ring. }
  apply V3_eq; simpl; ring.
Qed.

Lemma step_reverse : forall d i1 a1 i2 a2,
  min_curve_step d (PI - i2) (a2 + PI) (PI - i1) (a1 + PI) = vneg (min_curve_step d i1 a1 i2 a2).
Proof.
  intros. rewrite !min_curve_step_disp, !direction_reverse.
  assert (E : get_dogleg (PI - i2) (a2 + PI) (PI - i1) (a1 + PI) = get_dogleg i1 a1 i2 a2).
  { apply (angle_between_unique (direction_nev i1 a1) (direction_nev i2 a2)).
    - destruct (dogleg_angle (PI - i2) (a2 + PI) (PI - i1) (a1 + PI)) as [H E]. split; auto.
      rewrite E, !direction_reverse. rewrite dot_vneg_l, dot_vneg_r, dot_comm. ring.
    - apply dogleg_angle. }
  rewrite E. unfold mc_disp.
  generalize (direction_nev i1 a1) (direction_nev i2 a2) (get_rf (get_dogleg i1 a1 i2 a2)).
  intros u v k; destruct u, v; unf; apply V3_eq; simpl; ring.
Qed.

(** ratio factor *)
Lemma tan_ge_x : forall x, 0 <= x < PI/2 -> x <= tan x.
Proof.
  intros x [H1 H2].
  rewrite <- (atan_tan x) at 1 by lra.
  (* atan y <= y for y >= 0 *)
  assert (forall y, 0 <= y -> atan y <= y) as A.
  { intros y [Hy|Hy].
    - destruct (MVT_cor2 atan (fun z => / (1 + z^2)) 0 y Hy) as [c [Ec Hc]].
      { intros c _. apply derivable_pt_lim_atan. }
      rewrite atan_0 in Ec.
      assert (/ (1 + c^2) <= 1).
      { rewrite <- Rinv_1. apply Rinv_le_contravar; nra. }
      nra.
    - subst y. rewrite atan_0. lra. }
  apply A. destruct H1 as [H1|H1].
  - left; apply tan_gt_0; lra.
  - subst x. rewrite tan_0; lra.
Qed.

Lemma rf_ge_1 : forall t, 0 <= t < PI -> 1 <= get_rf t.
Proof.
  intros t H. unfold get_rf. destruct (Req_EM_T t 0); [lra|].
  pose proof (tan_ge_x (t/2)). 
  apply Rmult_le_reg_l with (t/2); [lra|].
  replace (t / 2 * (2 / t * tan (t / 2))) with (tan (t/2)) by (field; lra). lra.
Qed.

(** ** get_vec, get_angles *)
Lemma vunit_unit : forall v, is_unit v -> vunit v = v.
Proof. intros v H. unfold vunit. rewrite (norm_1 _ H), Rinv_1. apply vscale_1. Qed.
Lemma vunit_is_unit : forall v, v <> vzero -> is_unit (vunit v).
Proof.
  intros v H. unfold is_unit, vunit. rewrite dot_vscale_l, dot_vscale_r, <- norm_sqr.
  pose proof (norm_pos v H). field. lra.
Qed.
Lemma vunit_scale : forall k v, 0 < k -> v <> vzero -> vunit (vscale k v) = vunit v.
Proof.
  intros k v Hk Hv. unfold vunit. rewrite norm_vscale, Rabs_right, vscale_vscale by lra.
  f_equal. pose proof (norm_pos v Hv). field. lra.
Qed.
Lemma unit_nonzero : forall v, is_unit v -> v <> vzero.
Proof. intros v H E. subst. unfold is_unit, dot, vzero in H; simpl in H. lra. Qed.

Definition swap_xy (v : V3) : V3 := mkV (vy v) (vx v) (vz v).
Lemma swap_swap : forall v, swap_xy (swap_xy v) = v. Proof. intros []; reflexivity. Qed.
Lemma swap_unit : forall v, is_unit v -> is_unit (swap_xy v).
Proof. intros [x y z]; unfold is_unit, dot, swap_xy; simpl; intro; lra. Qed.

Lemma get_vec_spec : forall nev r i a, 0 < r ->
  get_vec nev r i a = if nev then direction_nev i a else swap_xy (direction_nev i a).
Proof.
  intros nev r i a Hr. unfold get_vec.
  destruct nev.
  - replace (mkV (r * sin i * cos a) (r * sin i * sin a) (r * cos i))
      with (vscale r (direction_nev i a)).
    2: { unfold vscale, direction_nev; simpl; apply V3_eq; simpl; ring. }
    rewrite vunit_scale; auto using unit_nonzero, direction_unit, vunit_unit.
  - replace (mkV (r * sin i * sin a) (r * sin i * cos a) (r * cos i))
      with (vscale r (swap_xy (direction_nev i a))).
    2: { unfold vscale, direction_nev, swap_xy; simpl; apply V3_eq; simpl; ring. }
    rewrite vunit_scale; auto using unit_nonzero, direction_unit, vunit_unit, swap_unit.
Qed.

Lemma angles_range : forall v,
  0 <= fst (get_angles_xyz v) <= PI /\ 0 <= snd (get_angles_xyz v) < 2 * PI.
Proof.
  intro v. unfold get_angles_xyz; simpl. pose proof PI_RGT_0. split.
  - split; [|apply arctan2_bounds].
    unfold arctan2. set (s := sqrt _).
    assert (0 <= s) by apply sqrt_pos.
    destruct (Rlt_dec 0 (vz v)) as [Hz|Hz].
    + assert (0 <= s / vz v).
      { apply Rmult_le_pos; auto. left; apply Rinv_0_lt_compat; auto. }
      destruct H1 as [H1|H1].
      * left; rewrite <- atan_0; apply atan_increasing; auto.
      * rewrite <- H1, atan_0; lra.
    + destruct (Rlt_dec (vz v) 0).
      * destruct (Rle_dec 0 s); [|lra]. pose proof (atan_bound (s / vz v)). lra.
      * destruct (Rlt_dec 0 s); [lra|]. destruct (Rlt_dec s 0); lra.
  - apply rmod_bounds. lra.
Qed.

Lemma angles_direction : forall v, is_unit v ->
  let '(i, a) := get_angles_xyz v in direction_nev i a = swap_xy v.
Proof.
  intros [x y z] Hu. unfold get_angles_xyz, direction_nev, swap_xy, is_unit, dot in *; simpl in *.
  rewrite cos_rmod, sin_rmod.
  replace (arctan2 x y + 2 * PI) with (arctan2 x y + 2 * PI * IZR 1) by (simpl; ring).
  rewrite cos_shift_Z, sin_shift_Z.
  replace (x * (x * 1) + y * (y * 1)) with (y*y+x*x) by ring.
  destruct (arctan2_cos_sin x y) as [C S].
  destruct (arctan2_cos_sin (sqrt (y*y+x*x)) z) as [C' S'].
  replace (z * z + sqrt (y*y+x*x) * sqrt (y*y+x*x)) with 1 in C', S'.
  2: { rewrite sqrt_sqrt by nra. lra. }
  rewrite sqrt_1, Rmult_1_l in C', S'.
  apply V3_eq; simpl; rewrite ?S', ?C'; auto.
Qed.

Lemma get_angles_get_vec_unit : forall nev v, v <> vzero ->
  let '(i, a) := get_angles nev v in get_vec nev 1 i a = vunit v.
Proof.
  intros nev v Hv. unfold get_angles.
  pose proof (vunit_is_unit v Hv) as U.
  destruct nev.
  - fold (swap_xy (vunit v)). pose proof (angles_direction (swap_xy (vunit v)) (swap_unit _ U)) as A.
    destruct (get_angles_xyz (swap_xy (vunit v))) as [i a].
    rewrite get_vec_spec by lra. rewrite A. apply swap_swap.
  - pose proof (angles_direction (vunit v) U) as A.
    destruct (get_angles_xyz (vunit v)) as [i a].
    rewrite get_vec_spec by lra. rewrite A. apply swap_swap.
Qed.

Lemma get_angles_direction : forall v, v <> vzero ->
  let '(i, a) := get_angles true v in direction_nev i a = vunit v.
Proof.
  intros v Hv. pose proof (get_angles_get_vec_unit true v Hv) as H.
  destruct (get_angles true v) as [i a]. rewrite get_vec_spec in H by lra. auto.
Qed.

Lemma get_angles_range : forall nev v,
  0 <= fst (get_angles nev v) <= PI /\ 0 <= snd (get_angles nev v) < 2 * PI.
Proof. intros. unfold get_angles. apply angles_range. Qed.

Lemma direction_inj : forall i a j b, 0 < i < PI -> 0 <= j <= PI ->
  0 <= a < 2 * PI -> 0 <= b < 2 * PI ->
  direction_nev i a = direction_nev j b -> i = j /\ a = b.
Proof.
  intros i a j b Hi Hj Ha Hb E. unfold direction_nev in E. injection E; intros C S1 S2.
  assert (i = j) by (apply cos_inj_0_PI; lra). subst j. split; auto.
  assert (0 < sin i) by (apply sin_gt_0; lra).
  apply Rmult_eq_reg_l in S1; [|lra]. apply Rmult_eq_reg_l in S2; [|lra].
  apply angle_unique; auto. lra.
Qed.

Lemma get_angles_of_vec : forall nev r i a, 0 < r -> 0 < i < PI -> 0 <= a < 2 * PI ->
  get_angles nev (get_vec nev r i a) = (i, a).
Proof.
  intros nev r i a Hr Hi Ha.
  assert (E : get_vec nev r i a = get_vec nev 1 i a) by (rewrite !get_vec_spec by lra; auto).
  rewrite E.
  assert (U : is_unit (get_vec nev 1 i a)).
  { rewrite get_vec_spec by lra. destruct nev; auto using direction_unit, swap_unit. }
  pose proof (get_angles_get_vec_unit nev _ (unit_nonzero _ U)) as G.
  pose proof (get_angles_range nev (get_vec nev 1 i a)) as B.
  destruct (get_angles nev (get_vec nev 1 i a)) as [j b]; simpl in B.
  rewrite (vunit_unit _ U) in G. rewrite !get_vec_spec in G by lra.
  assert (D : direction_nev i a = direction_nev j b).
  { destruct nev; auto. apply (f_equal swap_xy) in G. rewrite !swap_swap in G. auto. }
  destruct B. destruct (direction_inj i a j b) as [-> ->]; auto.
Qed.

(** ** nev / xyz *)
Lemma xyz_nev : forall p sx sn, get_xyz (get_nev p sx sn) sx sn = p.
Proof. intros [] [] []; unfold get_xyz, get_nev; unf; apply V3_eq; simpl; ring. Qed.
Lemma nev_xyz : forall p sx sn, get_nev (get_xyz p sx sn) sx sn = p.
Proof. intros [] [] []; unfold get_xyz, get_nev; unf; apply V3_eq; simpl; ring. Qed.
Lemma nev_dist : forall p q sx sn, dist (get_nev p sx sn) (get_nev q sx sn) = dist p q.
Proof. intros. apply norm_eq_dot. destruct p, q, sx, sn; unfold get_nev; unf; ring. Qed.
Lemma nev_datum : forall sx sn, get_nev sx sx sn = sn.
Proof. intros [] []; unfold get_nev; unf; apply V3_eq; simpl; ring. Qed.
