(** Misalignment weights. *)
Require Import Reals Lra Psatz Lia Bool String List Nsatz.
Require Import Verif.Base Verif.NumPy Verif.M_Utils Verif.M_Error Verif.M_Weights Verif.Spec_Weights.
Require Import Verif.P_Error Verif.P_Weights Verif.P_Weights2.
Import ListNotations.
Local Open Scope R_scope.

Definition tilt_of (s : wstation) (w : V3) : V3 :=
  vadd (vscale (vy w) (high_side s)) (vscale (sin (w_inc s) * vz w) (right_side s)).

Lemma tilts_intro : forall s w, tilts s w (tilt_of s w).
Proof.
  intros s w c. unfold dot, tool_axis, tilt_of, high_side, right_side, vadd, vscale. cbn [vx vy vz].
  eapply der_conv; [dl|]. rewrite !Rmult_0_l, !Rplus_0_r. ring.
Qed.
Lemma tilts_unique : forall s w v v', tilts s w v -> tilts s w v' -> v = v'.
Proof.
  intros s w [x y z] [x' y' z'] H H'.
  pose proof (uniqueness_limite _ _ _ _ (H ex_) (H' ex_)) as E1.
  pose proof (uniqueness_limite _ _ _ _ (H ey_) (H' ey_)) as E2.
  pose proof (uniqueness_limite _ _ _ _ (H ez_) (H' ez_)) as E3.
  unfold dot, ex_, ey_, ez_ in *. cbn in *. f_equal; lra.
Qed.

Lemma across_norm : forall s c, across s c ->
  dot c c = dot c (high_side s) ^ 2 + dot c (right_side s) ^ 2.
Proof.
  intros s [x y z] H. unfold across, dot, tool_axis in H. cbn [vx vy vz] in H.
  unfold dot, high_side, right_side. cbn [vx vy vz].
  pose proof (sin2_cos2 (w_inc s)) as P. pose proof (sin2_cos2 (w_azt s)) as Q. unfold Rsqr in *.
  set (si := sin (w_inc s)) in *. set (ci := cos (w_inc s)) in *.
  set (sa := sin (w_azt s)) in *. set (ca := cos (w_azt s)) in *. clearbody si ci sa ca.
  assert (P' : ci * ci = 1 - si * si) by lra. assert (Q' : ca * ca = 1 - sa * sa) by lra.
  assert (E : x * x + y * y + z * z = (x * (si * ca) + y * (si * sa) + z * ci) ^ 2
     + ((x * (ci * ca) + y * (ci * sa) + z * - si) ^ 2 + (x * - sa + y * ca + z * 0) ^ 2)) by ring [P' Q'].
  rewrite E, H. ring.
Qed.

Lemma tilt_dot : forall s w c, dot c (tilt_of s w)
  = vy w * dot c (high_side s) + sin (w_inc s) * vz w * dot c (right_side s).
Proof. intros s w [x y z]. unfold tilt_of, dot, vadd, vscale. cbn [vx vy vz]. ring. Qed.

Lemma abs_sq : forall x, Rabs x * Rabs x = x * x.
Proof. intro x. unfold Rabs. destruct (Rcase_abs x); ring. Qed.

(** the four terms of a tool misalignment: equal in every direction across the hole *)
Lemma xym_isotropic : forall h s a b c v1 v2 v3 v4 w1 w2 w3 w4, 0 < sin (w_inc s) ->
  w_XYM1 h s = Some w1 -> w_XYM2 h s = Some w2 -> w_XYM3 h s = Some w3 -> w_XYM4 h s = Some w4 ->
  tilts s (vscale a w1) v1 -> tilts s (vscale a w2) v2 ->
  tilts s (vscale b w3) v3 -> tilts s (vscale b w4) v4 ->
  across s c ->
  dot c v1 ^ 2 + dot c v2 ^ 2 + dot c v3 ^ 2 + dot c v4 ^ 2
  = (a ^ 2 * sin (w_inc s) ^ 2 + b ^ 2 * cos (w_inc s) ^ 2) * dot c c.
Proof.
  intros h s a b c v1 v2 v3 v4 w1 w2 w3 w4 Hi E1 E2 E3 E4 T1 T2 T3 T4 Hc.
  rewrite (across_norm s c Hc).
  rewrite (tilts_unique _ _ _ _ T1 (tilts_intro _ _)), (tilts_unique _ _ _ _ T2 (tilts_intro _ _)),
    (tilts_unique _ _ _ _ T3 (tilts_intro _ _)), (tilts_unique _ _ _ _ T4 (tilts_intro _ _)).
  rewrite !tilt_dot. unfold w_XYM1, w_XYM2, w_XYM3, w_XYM4 in *.
  rewrite fdiv_ne in E3, E4 by lra. cbn [nan0] in E3, E4.
  injection E1 as <-. injection E2 as <-. injection E3 as <-. injection E4 as <-.
  cbn [vscale vx vy vz].
  set (H := dot c (high_side s)). set (Q := dot c (right_side s)).
  replace (sin (w_inc s) * (b * (- (Rabs (cos (w_inc s)) * sin (w_azt s)) / sin (w_inc s))) * Q)
    with (- b * Rabs (cos (w_inc s)) * sin (w_azt s) * Q) by (field; lra).
  replace (sin (w_inc s) * (b * (Rabs (cos (w_inc s)) * cos (w_azt s) / sin (w_inc s))) * Q)
    with (b * Rabs (cos (w_inc s)) * cos (w_azt s) * Q) by (field; lra).
  pose proof (sin2_cos2 (w_azt s)) as P. unfold Rsqr in P.
  pose proof (abs_sq (cos (w_inc s))) as A1. pose proof (abs_sq (sin (w_inc s))) as A2.
  assert (P' : cos (w_azt s) * cos (w_azt s) = 1 - sin (w_azt s) * sin (w_azt s)) by lra.
  clearbody H Q. ring [P' A1 A2].
Qed.

Lemma xyml_isotropic : forall s k c v3 v4 w3 w4, 0 < sin (w_inc s) ->
  w_XYM3L s k = Some w3 -> w_XYM4L s k = Some w4 -> tilts s w3 v3 -> tilts s w4 v4 -> across s c ->
  dot c v3 ^ 2 + dot c v4 ^ 2 = k ^ 2 * cos (w_inc s) ^ 2 * dot c c.
Proof.
  intros s k c v3 v4 w3 w4 Hi E3 E4 T3 T4 Hc. rewrite (across_norm s c Hc).
  rewrite (tilts_unique _ _ _ _ T3 (tilts_intro _ _)), (tilts_unique _ _ _ _ T4 (tilts_intro _ _)).
  rewrite !tilt_dot. unfold w_XYM3L, w_XYM4L in *.
  rewrite fdiv_ne in E3, E4 by lra. cbn [bind nan0] in E3, E4.
  injection E3 as <-. injection E4 as <-. cbn [vx vy vz].
  set (H := dot c (high_side s)). set (Q := dot c (right_side s)).
  replace (sin (w_inc s) * (- Rabs (cos (w_inc s)) * (sin (w_azt s) / sin (w_inc s)) * k) * Q)
    with (- k * Rabs (cos (w_inc s)) * sin (w_azt s) * Q) by (field; lra).
  replace (sin (w_inc s) * (Rabs (cos (w_inc s)) * cos (w_azt s) / sin (w_inc s) * k) * Q)
    with (k * Rabs (cos (w_inc s)) * cos (w_azt s) * Q) by (field; lra).
  pose proof (sin2_cos2 (w_azt s)) as P. unfold Rsqr in P.
  pose proof (abs_sq (cos (w_inc s))) as A1.
  assert (P' : cos (w_azt s) * cos (w_azt s) = 1 - sin (w_azt s) * sin (w_azt s)) by lra.
  clearbody H Q. ring [P' A1].
Qed.

Lemma xyme_quad : forall h s k c v3 v4 w3 w4, 0 < sin (w_inc s) -> 0 <= cos (w_inc s) ->
  ~ vertical h s -> 0 <= k ->
  w_XYM3E h s k = Some w3 -> w_XYM4E h s k = Some w4 -> tilts s w3 v3 -> tilts s w4 v4 -> across s c ->
  dot c v3 ^ 2 + dot c v4 ^ 2 = k ^ 2 * cos (w_inc s) ^ 2 *
    (dot c c + 2 * (cos (w_azt s) - Rabs (cos (w_azt s))) * sin (w_azt s)
               * dot c (high_side s) * dot c (right_side s)).
Proof.
  intros h s k c v3 v4 w3 w4 Hi Hci Hv Hk E3 E4 T3 T4 Hc. rewrite (across_norm s c Hc).
  rewrite (tilts_unique _ _ _ _ T3 (tilts_intro _ _)), (tilts_unique _ _ _ _ T4 (tilts_intro _ _)).
  rewrite !tilt_dot. unfold w_XYM3E, w_XYM4E, is_sing in *.
  destruct (Rlt_dec (w_inc s) (h_limit h)); [contradiction|].
  rewrite fdiv_ne in E3, E4 by lra. cbn [bind nan0] in E3, E4.
  injection E3 as <-. injection E4 as <-. cbn [vx vy vz].
  set (H := dot c (high_side s)). set (Q := dot c (right_side s)).
  replace (Rabs (cos (w_inc s) * cos (w_azt s) * k)) with (cos (w_inc s) * Rabs (cos (w_azt s)) * k).
  2:{ rewrite !Rabs_mult, (Rabs_pos_eq k), (Rabs_pos_eq (cos (w_inc s))) by lra. reflexivity. }
  rewrite (Rabs_pos_eq (cos (w_inc s))) by lra.
  replace (sin (w_inc s) * (- cos (w_inc s) * sin (w_azt s) / sin (w_inc s) * k) * Q)
    with (- k * cos (w_inc s) * sin (w_azt s) * Q) by (field; lra).
  replace (sin (w_inc s) * (cos (w_inc s) * cos (w_azt s) / sin (w_inc s) * k) * Q)
    with (k * cos (w_inc s) * cos (w_azt s) * Q) by (field; lra).
  pose proof (sin2_cos2 (w_azt s)) as P. unfold Rsqr in P.
  pose proof (abs_sq (cos (w_azt s))) as A1.
  assert (P' : cos (w_azt s) * cos (w_azt s) = 1 - sin (w_azt s) * sin (w_azt s)) by lra.
  clearbody H Q. set (aa := Rabs (cos (w_azt s))) in *. clearbody aa.
  assert (A1' : aa * aa = 1 - sin (w_azt s) * sin (w_azt s)) by lra.
  ring [P' A1'].
Qed.

Lemma sides_across : forall s x y, across s (vadd (vscale x (high_side s)) (vscale y (right_side s))) /\
  dot (vadd (vscale x (high_side s)) (vscale y (right_side s))) (high_side s) = x /\
  dot (vadd (vscale x (high_side s)) (vscale y (right_side s))) (right_side s) = y.
Proof.
  intros s x y. unfold across, dot, tool_axis, high_side, right_side, vadd, vscale. cbn [vx vy vz].
  pose proof (sin2_cos2 (w_inc s)) as P. pose proof (sin2_cos2 (w_azt s)) as Q. unfold Rsqr in *.
  set (si := sin (w_inc s)) in *. set (ci := cos (w_inc s)) in *.
  set (sa := sin (w_azt s)) in *. set (ca := cos (w_azt s)) in *. clearbody si ci sa ca.
  assert (P' : ci * ci = 1 - si * si) by lra. assert (Q' : ca * ca = 1 - sa * sa) by lra.
  split; [|split]; ring [P' Q'].
Qed.

(** the E pair is isotropic only for azimuths in the northern half *)
Lemma xyme_isotropic_iff : forall h s k v3 v4 w3 w4, 0 < sin (w_inc s) -> 0 < cos (w_inc s) ->
  ~ vertical h s -> 0 < k ->
  w_XYM3E h s k = Some w3 -> w_XYM4E h s k = Some w4 -> tilts s w3 v3 -> tilts s w4 v4 ->
  ((forall c, across s c -> dot c v3 ^ 2 + dot c v4 ^ 2 = k ^ 2 * cos (w_inc s) ^ 2 * dot c c)
   <-> 0 <= cos (w_azt s) \/ sin (w_azt s) = 0).
Proof.
  intros h s k v3 v4 w3 w4 Hi Hci Hv Hk E3 E4 T3 T4.
  pose proof (fun c => xyme_quad h s k c v3 v4 w3 w4 Hi (Rlt_le _ _ Hci) Hv (Rlt_le _ _ Hk) E3 E4 T3 T4) as X.
  split.
  - intro H. destruct (sides_across s 1 1) as [A [B C]].
    set (c := vadd (vscale 1 (high_side s)) (vscale 1 (right_side s))) in *.
    pose proof (X c A) as E. rewrite (H c A), B, C in E.
    assert (K : 0 < k ^ 2 * cos (w_inc s) ^ 2) by (apply Rmult_lt_0_compat; apply pow_lt; assumption).
    assert (Z : (cos (w_azt s) - Rabs (cos (w_azt s))) * sin (w_azt s) = 0) by nra.
    apply Rmult_integral in Z. destruct Z as [Z|Z]; [left | right; exact Z].
    pose proof (Rabs_pos (cos (w_azt s))). lra.
  - intros Hz c A. rewrite (X c A). destruct Hz as [Hz|Hz].
    + rewrite (Rabs_pos_eq (cos (w_azt s))) by exact Hz. ring.
    + rewrite Hz. ring.
Qed.
