(** Lemmas about curve-and-hold and single-arc connections. *)
Require Import Reals ZArith Bool String List Lra Lia Psatz.
Require Import Verif.Base Verif.NumPy Verif.P_Trig Verif.Spec Verif.M_Utils Verif.P_Utils
  Verif.M_Survey Verif.M_Torque Verif.M_Connector Verif.Spec_Connector.
Import ListNotations.
Open Scope R_scope.

(** ** distances *)
Lemma off_axis_sqr : forall p u q, is_unit u ->
  off_axis p u q * off_axis p u q = dot (vsub q p) (vsub q p) - ahead p u q * ahead p u q.
Proof.
  intros p u q U. unfold off_axis, ahead. rewrite norm_sqr. unfold is_unit in U.
  pose proof (lagrange (vsub q p) u) as L. rewrite U in L. lra.
Qed.
Lemma off_axis_ge0 : forall p u q, 0 <= off_axis p u q.
Proof. intros. apply norm_ge0. Qed.
Lemma ahead_le : forall p u q, is_unit u -> ahead p u q <= norm (vsub q p).
Proof.
  intros p u q U. unfold ahead. pose proof (dot_le_norm (vsub q p) u) as H.
  rewrite (norm_1 u U) in H. lra.
Qed.
Lemma dist_triple_spec : forall p u q, is_unit u ->
  dist_triple p u q = (norm (vsub q p), ahead p u q, off_axis p u q).
Proof.
  intros p u q U. unfold dist_triple. fold (ahead p u q).
  pose proof (ahead_le p u q U) as A.
  destruct (Rlt_dec (norm (vsub q p)) (ahead p u q)); [lra|].
  f_equal. pose proof (off_axis_sqr p u q U) as S.
  replace (norm (vsub q p) ^ 2 - ahead p u q ^ 2) with (off_axis p u q * off_axis p u q).
  - apply sqrt_square, off_axis_ge0.
  - rewrite S. rewrite <- norm_sqr. ring.
Qed.
Lemma axis_frame : forall p u q, is_unit u -> 0 < off_axis p u q ->
  exists n, is_unit n /\ orthogonal u n /\
    vsub q p = vadd (vscale (ahead p u q) u) (vscale (off_axis p u q) n).
Proof.
  intros p u q U H. set (w := vsub (vsub q p) (vscale (ahead p u q) u)).
  exists (vscale (/ off_axis p u q) w).
  assert (W : dot w w = off_axis p u q * off_axis p u q).
  { rewrite off_axis_sqr by auto. unfold w, ahead. generalize (vsub q p). intro d.
    rewrite !dot_vsub_l, !dot_vsub_r, !dot_vscale_l, !dot_vscale_r. unfold is_unit in U.
    rewrite U, (dot_comm u d). ring. }
  assert (O : dot u w = 0).
  { unfold w, ahead. rewrite dot_vsub_r, dot_vscale_r, (dot_comm u). unfold is_unit in U.
    rewrite U. ring. }
  split; [|split].
  - unfold is_unit. rewrite dot_vscale_l, dot_vscale_r, W. field. lra.
  - unfold orthogonal. rewrite dot_vscale_r, O. ring.
  - rewrite vscale_vscale, Rinv_r, vscale_1 by lra. unfold w. vring.
Qed.
Lemma frame_sqr : forall p u q, is_unit u ->
  norm (vsub q p) ^ 2 = ahead p u q ^ 2 + off_axis p u q ^ 2.
Proof.
  intros p u q U. pose proof (off_axis_sqr p u q U) as S. rewrite <- norm_sqr in S.
  simpl. lra.
Qed.

(** ** the dogleg *)
Lemma check_dogleg_trig : forall d, cos (check_dogleg d) = cos d /\ sin (check_dogleg d) = sin d.
Proof.
  intro d. unfold check_dogleg. destruct (Rlt_dec d 0); auto.
  pose proof (cos_shift_Z d 1). pose proof (sin_shift_Z d 1).
  replace (d + 2 * PI * 1) with (d + 2 * PI) in * by ring. auto.
Qed.
Lemma check_dogleg_bounds : forall a, - PI < a < PI -> 0 <= check_dogleg (2 * a) < 2 * PI.
Proof. intros a H. unfold check_dogleg. destruct (Rlt_dec (2 * a) 0); lra. Qed.
(** twice the angle of a point (b, a), in half-angle form *)
Lemma double_arctan2 : forall a b, a * a + b * b <> 0 ->
  let t := check_dogleg (2 * arctan2 a b) in
  cos t * (a * a + b * b) = b * b - a * a /\ sin t * (a * a + b * b) = 2 * a * b.
Proof.
  intros a b H t. destruct (check_dogleg_trig (2 * arctan2 a b)) as [C S]. fold t in C, S.
  rewrite C, S. destruct (arctan2_cos_sin a b) as [X Y].
  assert (Q : sqrt (b * b + a * a) * sqrt (b * b + a * a) = a * a + b * b)
    by (rewrite sqrt_sqrt by nra; ring).
  rewrite cos_2a, sin_2a. set (s := sqrt (b * b + a * a)) in *.
  rewrite <- Q. split.
  - transitivity ((s * cos (arctan2 a b)) * (s * cos (arctan2 a b)) - (s * sin (arctan2 a b)) * (s * sin (arctan2 a b))); [ring|].
    rewrite X, Y; ring.
  - transitivity (2 * (s * sin (arctan2 a b)) * (s * cos (arctan2 a b))); [ring|].
    rewrite X, Y; ring.
Qed.
Lemma arctan2_lt_PI : forall y x, x <> 0 \/ y <> 0 -> (y = 0 -> 0 < x) -> - PI < arctan2 y x < PI.
Proof.
  intros y x H P. pose proof (arctan2_bounds y x) as B. split; [lra|].
  destruct (Req_dec (arctan2 y x) PI) as [E|E]; [|lra].
  destruct (arctan2_cos_sin y x) as [X Y]. rewrite E, cos_PI in X. rewrite E, sin_PI in Y.
  assert (y = 0) by lra. specialize (P H0). pose proof (sqrt_pos (x * x + y * y)). lra.
Qed.
Lemma tan_check : forall a b, b <> 0 -> tan (check_dogleg (2 * arctan2 a b) / 2) = a / b.
Proof.
  intros a b Hb. destruct (arctan2_cos_sin a b) as [X Y].
  set (s := sqrt (b * b + a * a)) in *. set (f := arctan2 a b) in *.
  assert (s <> 0) by (intro Z; rewrite Z in X; lra).
  assert (C : cos f = b / s) by (rewrite <- X; field; auto).
  assert (S : sin f = a / s) by (rewrite <- Y; field; auto).
  unfold check_dogleg. destruct (Rlt_dec (2 * f) 0).
  - replace ((2 * f + 2 * PI) / 2) with (f + PI) by field.
    unfold tan. rewrite neg_sin, neg_cos, C, S. field. auto.
  - replace (2 * f / 2) with f by field. unfold tan. rewrite C, S. field. auto.
Qed.
Lemma half_chord : forall r t, t <> 0 -> r * t * get_rf t / 2 = r * tan (t / 2).
Proof. intros r t H. unfold get_rf. destruct (Req_EM_T t 0); [lra|]. field. auto. Qed.

(** ** curve and hold in the plane *)
Lemma ch_plane : forall p n R, 0 < n -> 0 <= p ^ 2 + n ^ 2 - 2 * R * n -> n <> 2 * R ->
  let T := sqrt (p ^ 2 + n ^ 2 - 2 * R * n) in
  let t := check_dogleg (2 * arctan2 (p - T) (2 * R - n)) in
  0 < t < 2 * PI /\
  R * sin t + T * cos t = p /\ R * (1 - cos t) + T * sin t = n /\
  R * tan (t / 2) + T <> 0 /\
  p - R * tan (t / 2) = (R * tan (t / 2) + T) * cos t /\
  n = (R * tan (t / 2) + T) * sin t.
Proof.
  intros p n R Hn Q Hb T t.
  assert (TT : T * T = p ^ 2 + n ^ 2 - 2 * R * n) by (apply sqrt_sqrt; auto).
  set (a := p - T) in *. set (b := 2 * R - n) in *.
  assert (B : b <> 0) by (unfold b; lra).
  assert (K : a * (p + T) = n * b) by (unfold a, b; nra).
  assert (AB : 0 < a * a + b * b) by nra.
  destruct (double_arctan2 a b ltac:(lra)) as [C S]. fold t in C, S.
  assert (Tn : tan (t / 2) = a / b) by (apply tan_check; auto).
  set (D := a * a + b * b) in *.
  assert (C' : cos t = (b * b - a * a) / D) by (rewrite <- C; field; lra).
  assert (S' : sin t = 2 * a * b / D) by (rewrite <- S; field; lra).
  assert (E1 : R * (2 * a * b) + T * (b * b - a * a) = p * D).
  { unfold D. replace p with (a + T) by (unfold a; ring).
    assert (2 * R * b * a = (a * a + b * b + 2 * T * a) * a).
    { f_equal. replace (2 * R) with (b + n) by (unfold b; ring).
      replace (a * a + b * b + 2 * T * a) with (a * (p + T) + b * b) by (unfold a; ring).
      rewrite K. ring. }
    lra. }
  assert (E2 : R * (2 * (a * a)) + T * (2 * a * b) = n * D).
  { unfold D. replace (n * (a * a + b * b)) with (n * (a * a) + (n * b) * b) by ring.
    rewrite <- K. unfold a at 4. replace (2 * R) with (b + n) by (unfold b; ring).
    unfold b, a. ring. }
  assert (Den : R * a + T * b <> 0).
  { intro Z. assert (2 * a * (R * a + T * b) = n * D) by lra. rewrite Z in H.
    assert (n * D = 0) by lra. nra. }
  assert (An : a <> 0).
  { intro Z. rewrite Z in K. assert (n * b = 0) by lra. nra. }
  assert (bnd : - PI < arctan2 a b < PI) by (apply arctan2_lt_PI; [left; auto | lra]).
  assert (t0 : t <> 0).
  { intro Z. rewrite Z, sin_0 in S'. apply An.
    assert (2 * a * b = 0) by (replace 0 with (0 * D) by ring; rewrite S'; field; lra). nra. }
  pose proof (check_dogleg_bounds _ bnd) as Bt. fold t in Bt.
  repeat split; try lra.
  - rewrite C', S'. transitivity ((R * (2 * a * b) + T * (b * b - a * a)) / D); [field; lra|].
    rewrite E1. field. lra.
  - rewrite C', S'. transitivity ((R * (2 * (a * a)) + T * (2 * a * b)) / D).
    + unfold D. field. fold D. lra.
    + rewrite E2. field. lra.
  - rewrite Tn. intro Z. apply Den. replace (R * a + T * b) with ((R * (a / b) + T) * b) by (field; auto).
    rewrite Z. ring.
  - rewrite Tn, C'. apply Rmult_eq_reg_r with D; [|lra]. apply Rmult_eq_reg_r with b; [|auto].
    transitivity (p * D * b - R * a * D); [field; auto|]. rewrite <- E1.
    transitivity ((R * a + T * b) * (b * b - a * a)); [unfold D; ring|]. field. split; lra.
  - rewrite Tn, S'. apply Rmult_eq_reg_r with D; [|lra]. rewrite <- E2. field. split; lra.
Qed.

Lemma arc_unit : forall u n t, is_unit u -> is_unit n -> orthogonal u n -> is_unit (arc_tangent u n t).
Proof.
  intros u n t U N O. unfold is_unit, arc_tangent, orthogonal in *.
  rewrite !dot_vadd_l, !dot_vadd_r, !dot_vscale_l, !dot_vscale_r, U, N, O, (dot_comm n u), O.
  pose proof (sin2_cos2' t). lra.
Qed.
Lemma normalised_unit : forall v, is_unit v -> normalised v = Some v.
Proof.
  intros v U. unfold normalised, vunit. rewrite (norm_1 v U).
  destruct (Req_EM_T 1 0); [lra|]. rewrite Rinv_1, vscale_1. reflexivity.
Qed.

(** the direction that get_vec_target finds is the tangent of the arc *)
Lemma vec_target_exact : forall p u q n r T t a d,
  is_unit u -> is_unit n -> orthogonal u n ->
  vsub q p = vadd (vscale a u) (vscale d n) ->
  t <> 0 -> r <> 0 -> r * tan (t / 2) + T <> 0 ->
  a - r * tan (t / 2) = (r * tan (t / 2) + T) * cos t ->
  d = (r * tan (t / 2) + T) * sin t ->
  get_vec_target p u q T (r * t) (get_rf t) = Some (arc_tangent u n t).
Proof.
  intros p u q n r T t a d U N O V t0 r0 D0 E1 E2. unfold get_vec_target.
  rewrite half_chord by auto. set (h := r * tan (t / 2)) in *.
  destruct (Req_EM_T (r * t) 0) as [Z|Z].
  { apply Rmult_integral in Z. tauto. }
  destruct (Req_EM_T (h + T) 0); [lra|].
  replace (vscale (/ (h + T)) (vsub (vsub q p) (vscale h u))) with (arc_tangent u n t).
  - apply normalised_unit, arc_unit; auto.
  - rewrite V. unfold arc_tangent.
    replace (vsub (vadd (vscale a u) (vscale d n)) (vscale h u))
      with (vadd (vscale (a - h) u) (vscale d n)) by vring.
    rewrite E1, E2, vscale_vadd, !vscale_vscale.
    replace (/ (h + T) * ((h + T) * cos t)) with (cos t) by (field; auto).
    replace (/ (h + T) * ((h + T) * sin t)) with (sin t) by (field; auto). reflexivity.
Qed.

Lemma arc_end : forall p q u n r T t a d,
  vsub q p = vadd (vscale a u) (vscale d n) ->
  r * sin t + T * cos t = a -> r * (1 - cos t) + T * sin t = d ->
  vsub q (vscale T (arc_tangent u n t)) = arc_point p u n r t.
Proof.
  intros p q u n r T t a d V A D. replace q with (vadd p (vsub q p)) by vring.
  rewrite V, <- A, <- D. unfold arc_point, arc_tangent. vring.
Qed.

(** curve and hold: the solution of a reachable target *)
Lemma ch_solve : forall p u q r, is_unit u -> 0 < r -> 0 < off_axis p u q ->
  off_axis p u q <> 2 * r -> r <= tangent_circle_radius p u q ->
  exists T t v,
    min_dist_to_target r (dist_triple p u q) =
      Some (T, 2 * arctan2 (ahead p u q - T) (2 * r - off_axis p u q)) /\
    t = check_dogleg (2 * arctan2 (ahead p u q - T) (2 * r - off_axis p u q)) /\
    get_vec_target p u q T (r * t) (get_rf t) = Some v /\
    0 < t < 2 * PI /\ 0 <= T /\
    turn_then_straight p u r t T (vsub q (vscale T v)) q v.
Proof.
  intros p u q r U Hr Hn Hb Hc. rewrite dist_triple_spec by auto.
  set (n := off_axis p u q) in *. set (a := ahead p u q) in *.
  pose proof (frame_sqr p u q U) as F. fold n a in F.
  assert (Q : 0 <= a ^ 2 + n ^ 2 - 2 * r * n).
  { unfold tangent_circle_radius in Hc. fold n in Hc. rewrite <- norm_sqr in Hc.
    assert (r * (2 * n) <= norm (vsub q p) * norm (vsub q p)).
    { apply Rmult_le_compat_r with (r := 2 * n) in Hc; [|lra].
      replace (norm (vsub q p) * norm (vsub q p) / (2 * n) * (2 * n))
        with (norm (vsub q p) * norm (vsub q p)) in Hc by (field; lra). lra. }
    rewrite <- F. simpl. lra. }
  destruct (ch_plane a n r Hn Q Hb) as (Bt & E1 & E2 & D0 & E3 & E4).
  set (T := sqrt (a ^ 2 + n ^ 2 - 2 * r * n)) in *.
  set (t := check_dogleg (2 * arctan2 (a - T) (2 * r - n))) in *.
  destruct (axis_frame p u q U Hn) as (m & N & O & V). fold a n in V.
  exists T, t, (arc_tangent u m t). repeat split; auto; try lra.
  - unfold min_dist_to_target. rewrite F. destruct (Rlt_dec (a ^ 2 + n ^ 2 - 2 * r * n) 0); [lra|].
    reflexivity.
  - apply vec_target_exact with (a := a) (d := n); auto; lra.
  - apply sqrt_pos.
  - exists m. repeat split; auto.
    + rewrite V, dot_vadd_r, !dot_vscale_r, (dot_comm m u). unfold is_unit, orthogonal in *.
      rewrite N, O. lra.
    + apply arc_end with (a := a) (d := n); auto.
    + vring.
Qed.

(** no turn of a larger radius reaches the target *)
Lemma radius_bound : forall p u q r t len m v, is_unit u -> 0 < r -> 0 <= len ->
  0 < off_axis p u q -> turn_then_straight p u r t len m q v ->
  r <= tangent_circle_radius p u q.
Proof.
  intros p u q r t len m v U Hr Hl Hn (n & N & O & W & M & V & Q).
  assert (E : vsub q p = vadd (vscale (r * sin t + len * cos t) u)
                              (vscale (r * (1 - cos t) + len * sin t) n)).
  { rewrite Q, M, V. unfold arc_point, arc_tangent. vring. }
  set (x := r * sin t + len * cos t) in *. set (y := r * (1 - cos t) + len * sin t) in *.
  unfold is_unit, orthogonal in *.
  assert (NN : dot (vsub q p) (vsub q p) = x * x + y * y).
  { rewrite E. rewrite !dot_vadd_l, !dot_vadd_r, !dot_vscale_l, !dot_vscale_r.
    rewrite U, N, O, (dot_comm n u), O. ring. }
  assert (A : ahead p u q = x).
  { unfold ahead. rewrite E, dot_vadd_l, !dot_vscale_l, (dot_comm n u). rewrite U, O. ring. }
  rewrite E, dot_vadd_r, !dot_vscale_r, (dot_comm n u), O, N in W.
  pose proof (off_axis_sqr p u q U) as S. rewrite NN, A in S.
  assert (Y : off_axis p u q = y).
  { rewrite <- (Rabs_pos_eq (off_axis p u q)) by lra. rewrite <- (Rabs_pos_eq y) by lra.
    apply Rsqr_eq_abs_0. unfold Rsqr. lra. }
  unfold tangent_circle_radius. rewrite NN, Y.
  assert (I : x * x + y * y = len * len + 2 * r * y).
  { unfold x, y. pose proof (sin2_cos2' t). set (s := sin t) in *. set (c := cos t) in *.
    replace ((r * s + len * c) * (r * s + len * c) + (r * (1 - c) + len * s) * (r * (1 - c) + len * s))
      with (r * r * (s * s + c * c) + len * len * (s * s + c * c) + r * r * (1 - 2 * c) + 2 * r * len * s) by ring.
    rewrite H. ring. }
  apply Rmult_le_reg_r with (2 * y); [lra|].
  replace ((x * x + y * y) / (2 * y) * (2 * y)) with (x * x + y * y) by (field; lra).
  rewrite I. nra.
Qed.

(** ** the single arc *)
Lemma arc_plane : forall a n, 0 < n -> a <> 0 ->
  let r := (a ^ 2 + n ^ 2) / (2 * n) in
  let t := check_dogleg (2 * arctan2 n a) in
  t = 2 * arctan2 n a /\ 0 < r /\ 0 < t < 2 * PI /\ r * sin t = a /\ r * (1 - cos t) = n /\
  tan (t / 2) = n / a.
Proof.
  intros a n Hn Ha r t.
  assert (Y : 0 < arctan2 n a < PI).
  { destruct (arctan2_cos_sin n a) as [_ S].
    pose proof (arctan2_bounds n a) as [B1 B2].
    assert (0 < sqrt (a * a + n * n)) by (apply hyp_pos; right; lra).
    assert (0 < sin (arctan2 n a)) by nra.
    split.
    - destruct (Rle_dec (arctan2 n a) 0); [|lra].
      assert (sin (arctan2 n a) <= 0); [|lra].
      pose proof (sin_ge_0' (- arctan2 n a) ltac:(lra)) as G. rewrite sin_neg in G. lra.
    - destruct (Req_dec (arctan2 n a) PI) as [E|E]; [|lra]. rewrite E, sin_PI in H0. lra. }
  assert (T : t = 2 * arctan2 n a).
  { unfold t, check_dogleg. destruct (Rlt_dec (2 * arctan2 n a) 0); lra. }
  destruct (double_arctan2 n a ltac:(nra)) as [C S]. fold t in C, S.
  assert (0 < n * n + a * a) by nra.
  split; [auto|]. split; [|split; [lra|split; [|split]]].
  - unfold r. apply Rdiv_lt_0_compat; [simpl; nra|lra].
  - unfold r. replace ((a ^ 2 + n ^ 2) / (2 * n) * sin t) with (sin t * (n * n + a * a) / (2 * n)) by (field; lra).
    rewrite S. field. lra.
  - unfold r. replace ((a ^ 2 + n ^ 2) / (2 * n) * (1 - cos t))
      with (((n * n + a * a) - cos t * (n * n + a * a)) / (2 * n)) by (field; lra).
    rewrite C. field. lra.
  - apply tan_check. auto.
Qed.
Lemma tangent_radius_frame : forall p u q, is_unit u ->
  tangent_circle_radius p u q = (ahead p u q ^ 2 + off_axis p u q ^ 2) / (2 * off_axis p u q).
Proof.
  intros p u q U. unfold tangent_circle_radius. rewrite <- (frame_sqr p u q U), <- norm_sqr.
  f_equal. ring.
Qed.
Lemma off_axis_norm_pos : forall p u q, is_unit u -> 0 < off_axis p u q -> norm (vsub q p) <> 0.
Proof.
  intros p u q U H Z. apply norm_eq0 in Z. unfold off_axis in H. rewrite Z in H.
  replace (cross vzero u) with vzero in H by vring. rewrite norm_vzero in H. lra.
Qed.
Lemma arc_solve : forall p u q, is_unit u -> 0 < off_axis p u q -> ahead p u q <> 0 ->
  let r := tangent_circle_radius p u q in
  exists t v,
    min_curve_to_target (dist_triple p u q) = (0, Some r, t) /\ check_dogleg t = t /\
    get_vec_target p u q 0 (r * t) (get_rf t) = Some v /\
    0 < r /\ 0 < t < 2 * PI /\
    turn_then_straight p u r t 0 q q v.
Proof.
  intros p u q U Hn Ha r. rewrite dist_triple_spec by auto.
  set (n := off_axis p u q) in *. set (a := ahead p u q) in *.
  assert (Er : r = (a ^ 2 + n ^ 2) / (2 * n)) by (apply tangent_radius_frame; auto).
  destruct (arc_plane a n Hn Ha) as (Et & Hr & Bt & E1 & E2 & Tn).
  rewrite <- Er in Hr, E1, E2. set (t := check_dogleg (2 * arctan2 n a)) in *.
  destruct (axis_frame p u q U Hn) as (m & N & O & V). fold a n in V.
  exists t, (arc_tangent u m t). repeat split; auto; try lra.
  - unfold min_curve_to_target.
    destruct (Req_EM_T (norm (vsub q p)) 0) as [Z|Z].
    { exfalso. apply (off_axis_norm_pos p u q U Hn Z). }
    destruct (Req_EM_T n 0); [lra|]. rewrite Et. repeat f_equal.
    rewrite Er. pose proof (frame_sqr p u q U) as F. fold a n in F. rewrite F. reflexivity.
  - unfold check_dogleg. destruct (Rlt_dec t 0); lra.
  - assert (R0 : r * (n / a) + 0 <> 0).
    { intro Z. assert (r * n = 0) by (replace (r * n) with ((r * (n / a) + 0) * a) by (field; auto); rewrite Z; ring). nra. }
    assert (S2 : sin t * (n * n + a * a) = 2 * n * a /\ cos t * (n * n + a * a) = a * a - n * n)
      by (destruct (double_arctan2 n a ltac:(nra)); auto).
    destruct S2 as [S2 C2]. assert (0 < n * n + a * a) by nra.
    assert (St : sin t = 2 * n * a / (n * n + a * a)) by (rewrite <- S2; field; lra).
    assert (Ct : cos t = (a * a - n * n) / (n * n + a * a)) by (rewrite <- C2; field; lra).
    apply vec_target_exact with (a := a) (d := n); auto; try lra; rewrite ?Tn; auto.
    + rewrite Ct, Er. field. repeat split; lra.
    + rewrite St, Er. field. repeat split; lra.
  - exists m. repeat split; auto.
    + rewrite V, dot_vadd_r, !dot_vscale_r, (dot_comm m u). unfold is_unit, orthogonal in *.
      rewrite N, O. lra.
    + replace q with (vsub q (vscale 0 (arc_tangent u m t))) at 1 by vring.
      apply arc_end with (a := a) (d := n); auto; lra.
    + vring.
Qed.
