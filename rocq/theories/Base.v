(** 3-vectors and 3x3 matrices over the reals: the shapes of welleng's
    (n,3) and (n,3,3) numpy arrays, one station at a time.  This file is
    plain linear algebra; it models no particular function of /repo. *)
Require Import Reals Lra Psatz List.
Import ListNotations.
Open Scope R_scope.

Record V3 := mkV { vx : R; vy : R; vz : R }.

Definition vzero : V3 := mkV 0 0 0.
Definition vadd (a b : V3) : V3 := mkV (vx a + vx b) (vy a + vy b) (vz a + vz b).
Definition vsub (a b : V3) : V3 := mkV (vx a - vx b) (vy a - vy b) (vz a - vz b).
Definition vscale (k : R) (a : V3) : V3 := mkV (k * vx a) (k * vy a) (k * vz a).
Definition vneg (a : V3) : V3 := mkV (- vx a) (- vy a) (- vz a).
Definition dot (a b : V3) : R := vx a * vx b + vy a * vy b + vz a * vz b.
Definition cross (a b : V3) : V3 :=
  mkV (vy a * vz b - vz a * vy b)
      (vz a * vx b - vx a * vz b)
      (vx a * vy b - vy a * vx b).
Definition norm (a : V3) : R := sqrt (dot a a).
Definition dist (a b : V3) : R := norm (vsub a b).

(** A matrix is its three rows. *)
Record M3 := mkM { r1 : V3; r2 : V3; r3 : V3 }.

Definition col1 (m : M3) := mkV (vx (r1 m)) (vx (r2 m)) (vx (r3 m)).
Definition col2 (m : M3) := mkV (vy (r1 m)) (vy (r2 m)) (vy (r3 m)).
Definition col3 (m : M3) := mkV (vz (r1 m)) (vz (r2 m)) (vz (r3 m)).
Definition mtrans (m : M3) : M3 := mkM (col1 m) (col2 m) (col3 m).
Definition mzero : M3 := mkM vzero vzero vzero.
Definition mid : M3 := mkM (mkV 1 0 0) (mkV 0 1 0) (mkV 0 0 1).
Definition madd (a b : M3) : M3 :=
  mkM (vadd (r1 a) (r1 b)) (vadd (r2 a) (r2 b)) (vadd (r3 a) (r3 b)).
Definition msub (a b : M3) : M3 :=
  mkM (vsub (r1 a) (r1 b)) (vsub (r2 a) (r2 b)) (vsub (r3 a) (r3 b)).
Definition mscale (k : R) (a : M3) : M3 :=
  mkM (vscale k (r1 a)) (vscale k (r2 a)) (vscale k (r3 a)).
Definition mv (m : M3) (v : V3) : V3 := mkV (dot (r1 m) v) (dot (r2 m) v) (dot (r3 m) v).
Definition vrow_m (v : V3) (m : M3) : V3 := mkV (dot v (col1 m)) (dot v (col2 m)) (dot v (col3 m)).
Definition mm (a b : M3) : M3 :=
  mkM (vrow_m (r1 a) b) (vrow_m (r2 a) b) (vrow_m (r3 a) b).
Definition outer (a b : V3) : M3 :=
  mkM (vscale (vx a) b) (vscale (vy a) b) (vscale (vz a) b).
Definition trace (m : M3) : R := vx (r1 m) + vy (r2 m) + vz (r3 m).
Definition det (m : M3) : R := dot (r1 m) (cross (r2 m) (r3 m)).
(** variance of the direction [v] under covariance [m]:  v^T m v *)
Definition qform (m : M3) (v : V3) : R := dot v (mv m v).

Lemma V3_eq : forall a b, vx a = vx b -> vy a = vy b -> vz a = vz b -> a = b.
Proof. intros [a1 a2 a3] [b1 b2 b3]; simpl; intros; subst; reflexivity. Qed.
Lemma M3_eq : forall a b, r1 a = r1 b -> r2 a = r2 b -> r3 a = r3 b -> a = b.
Proof. intros [a1 a2 a3] [b1 b2 b3]; simpl; intros; subst; reflexivity. Qed.

Ltac v3 := apply V3_eq; simpl.
Ltac m3 := apply M3_eq; apply V3_eq; simpl.
Ltac dv :=
  repeat match goal with
         | v : V3 |- _ => destruct v
         | m : M3 |- _ => destruct m
         end; simpl in *.
Ltac unf := unfold qform, trace, mv, mm, mtrans, vrow_m, outer, madd, msub, mscale, mid, mzero, col1, col2, col3 in *;
  unfold dot, cross, vadd, vsub, vscale, vneg, vzero in *; simpl in *.
Ltac vring := intros; dv; unf; try apply M3_eq; try apply V3_eq; simpl; ring.

Lemma dot_comm : forall a b, dot a b = dot b a. Proof. vring. Qed.
Lemma dot_vadd_l : forall a b c, dot (vadd a b) c = dot a c + dot b c. Proof. vring. Qed.
Lemma dot_vadd_r : forall a b c, dot a (vadd b c) = dot a b + dot a c. Proof. vring. Qed.
Lemma dot_vsub_l : forall a b c, dot (vsub a b) c = dot a c - dot b c. Proof. vring. Qed.
Lemma dot_vsub_r : forall a b c, dot a (vsub b c) = dot a b - dot a c. Proof. vring. Qed.
Lemma dot_vscale_l : forall k a b, dot (vscale k a) b = k * dot a b. Proof. vring. Qed.
Lemma dot_vscale_r : forall k a b, dot a (vscale k b) = k * dot a b. Proof. vring. Qed.
Lemma dot_vneg_l : forall a b, dot (vneg a) b = - dot a b. Proof. vring. Qed.
Lemma dot_vneg_r : forall a b, dot a (vneg b) = - dot a b. Proof. vring. Qed.
Lemma vadd_comm : forall a b, vadd a b = vadd b a. Proof. vring. Qed.
Lemma vadd_assoc : forall a b c, vadd a (vadd b c) = vadd (vadd a b) c. Proof. vring. Qed.
Lemma vadd_0_l : forall a, vadd vzero a = a. Proof. vring. Qed.
Lemma vadd_0_r : forall a, vadd a vzero = a. Proof. vring. Qed.
Lemma vscale_1 : forall a, vscale 1 a = a. Proof. vring. Qed.
Lemma vscale_0 : forall a, vscale 0 a = vzero. Proof. vring. Qed.
Lemma vscale_vscale : forall k l a, vscale k (vscale l a) = vscale (k * l) a. Proof. vring. Qed.
Lemma vscale_vadd : forall k a b, vscale k (vadd a b) = vadd (vscale k a) (vscale k b). Proof. vring. Qed.
Lemma vsub_vadd_neg : forall a b, vsub a b = vadd a (vneg b). Proof. vring. Qed.
Lemma vsub_self : forall a, vsub a a = vzero. Proof. vring. Qed.
Lemma vadd_vsub : forall a b, vadd a (vsub b a) = b. Proof. vring. Qed.
Lemma vsub_vadd_l : forall a b, vsub (vadd a b) a = b. Proof. vring. Qed.

Lemma dot_self_ge0 : forall a, 0 <= dot a a.
Proof. intros [x y z]; unfold dot; simpl; nra. Qed.
Lemma dot_self_eq0 : forall a, dot a a = 0 -> a = vzero.
Proof.
  intros [x y z]; unfold dot; simpl; intro H.
  assert (x = 0) by nra. assert (y = 0) by nra. assert (z = 0) by nra.
  subst; reflexivity.
Qed.
Lemma dot_self_pos : forall a, a <> vzero -> 0 < dot a a.
Proof.
  intros a H. destruct (Rle_lt_or_eq_dec _ _ (dot_self_ge0 a)) as [|E]; auto.
  exfalso; apply H, dot_self_eq0; auto.
Qed.

Lemma norm_ge0 : forall a, 0 <= norm a. Proof. intros; apply sqrt_pos. Qed.
Lemma norm_sqr : forall a, norm a * norm a = dot a a.
Proof. intros; apply sqrt_sqrt, dot_self_ge0. Qed.
Lemma norm_pos : forall a, a <> vzero -> 0 < norm a.
Proof. intros a H; apply sqrt_lt_R0, dot_self_pos, H. Qed.
Lemma norm_vzero : norm vzero = 0.
Proof. unfold norm, dot; simpl. replace (0*0+0*0+0*0) with 0 by ring. apply sqrt_0. Qed.
Lemma norm_eq0 : forall a, norm a = 0 -> a = vzero.
Proof.
  intros a H. apply dot_self_eq0. rewrite <- norm_sqr, H; ring.
Qed.
Lemma norm_vscale : forall k a, norm (vscale k a) = Rabs k * norm a.
Proof.
  intros. unfold norm. rewrite dot_vscale_l, dot_vscale_r.
  replace (k * (k * dot a a)) with ((k*k) * dot a a) by ring.
  rewrite sqrt_mult; [|nra|apply dot_self_ge0].
  f_equal. change (k*k) with (Rsqr k). apply sqrt_Rsqr_abs.
Qed.
Lemma norm_vneg : forall a, norm (vneg a) = norm a.
Proof. intros; unfold norm. replace (dot (vneg a) (vneg a)) with (dot a a) by vring. reflexivity. Qed.
Lemma norm_eq_dot : forall a b, dot a a = dot b b -> norm a = norm b.
Proof. intros a b H; unfold norm; rewrite H; reflexivity. Qed.
Lemma norm_from_sqr : forall a k, 0 <= k -> dot a a = k * k -> norm a = k.
Proof. intros a k Hk H; unfold norm; rewrite H. apply sqrt_square, Hk. Qed.
Lemma norm_1 : forall a, dot a a = 1 -> norm a = 1.
Proof. intros a H; unfold norm; rewrite H; apply sqrt_1. Qed.
Lemma norm_1_inv : forall a, norm a = 1 -> dot a a = 1.
Proof. intros a H; rewrite <- norm_sqr, H; ring. Qed.

Lemma lagrange : forall a b,
  dot a a * dot b b - dot a b * dot a b = dot (cross a b) (cross a b).
Proof. vring. Qed.
Lemma cauchy_sqr : forall a b, dot a b * dot a b <= dot a a * dot b b.
Proof. intros; pose proof (lagrange a b); pose proof (dot_self_ge0 (cross a b)); lra. Qed.
Lemma cauchy_schwarz : forall a b, Rabs (dot a b) <= norm a * norm b.
Proof.
  intros. rewrite <- (Rabs_right (norm a * norm b)).
  2: apply Rle_ge, Rmult_le_pos; apply norm_ge0.
  apply Rsqr_le_abs_0. unfold Rsqr.
  pose proof (cauchy_sqr a b).
  pose proof (norm_sqr a). pose proof (norm_sqr b).
  replace (norm a * norm b * (norm a * norm b))
    with ((norm a * norm a) * (norm b * norm b)) by ring.
  rewrite H0, H1. exact H.
Qed.
Lemma dot_le_norm : forall a b, dot a b <= norm a * norm b.
Proof. intros; eapply Rle_trans; [apply Rle_abs|apply cauchy_schwarz]. Qed.
Lemma norm_triangle : forall a b, norm (vadd a b) <= norm a + norm b.
Proof.
  intros. apply Rsqr_incr_0_var.
  2: { pose proof (norm_ge0 a); pose proof (norm_ge0 b); lra. }
  unfold Rsqr. rewrite norm_sqr.
  rewrite dot_vadd_l, !dot_vadd_r. rewrite (dot_comm b a).
  pose proof (dot_le_norm a b). pose proof (norm_sqr a). pose proof (norm_sqr b). nra.
Qed.

(** matrices *)
Lemma mtrans_mtrans : forall m, mtrans (mtrans m) = m. Proof. vring. Qed.
Lemma mm_assoc : forall a b c, mm a (mm b c) = mm (mm a b) c. Proof. vring. Qed.
Lemma mtrans_mm : forall a b, mtrans (mm a b) = mm (mtrans b) (mtrans a). Proof. vring. Qed.
Lemma mv_mm : forall a b v, mv (mm a b) v = mv a (mv b v). Proof. vring. Qed.
Lemma mm_id_l : forall a, mm mid a = a. Proof. vring. Qed.
Lemma mm_id_r : forall a, mm a mid = a. Proof. vring. Qed.
Lemma mv_id : forall v, mv mid v = v. Proof. vring. Qed.
Lemma dot_mv : forall m a b, dot (mv m a) b = dot a (mv (mtrans m) b). Proof. vring. Qed.
Lemma mv_vadd : forall m a b, mv m (vadd a b) = vadd (mv m a) (mv m b). Proof. vring. Qed.
Lemma mv_vsub : forall m a b, mv m (vsub a b) = vsub (mv m a) (mv m b). Proof. vring. Qed.
Lemma mv_vscale : forall m k a, mv m (vscale k a) = vscale k (mv m a). Proof. vring. Qed.
Lemma mv_vneg : forall m a, mv m (vneg a) = vneg (mv m a). Proof. vring. Qed.
Lemma madd_comm : forall a b, madd a b = madd b a. Proof. vring. Qed.
Lemma madd_assoc : forall a b c, madd a (madd b c) = madd (madd a b) c. Proof. vring. Qed.
Lemma madd_0_l : forall a, madd mzero a = a. Proof. vring. Qed.
Lemma madd_0_r : forall a, madd a mzero = a. Proof. vring. Qed.
Lemma qform_madd : forall a b v, qform (madd a b) v = qform a v + qform b v. Proof. vring. Qed.
Lemma qform_msub : forall a b v, qform (msub a b) v = qform a v - qform b v. Proof. vring. Qed.
Lemma qform_mscale : forall k a v, qform (mscale k a) v = k * qform a v. Proof. vring. Qed.
Lemma qform_outer : forall a v, qform (outer a a) v = dot a v * dot a v. Proof. vring. Qed.
Lemma qform_mzero : forall v, qform mzero v = 0. Proof. vring. Qed.
Lemma qform_vscale : forall m k v, qform m (vscale k v) = k * k * qform m v. Proof. vring. Qed.
Lemma qform_vneg : forall m v, qform m (vneg v) = qform m v. Proof. vring. Qed.
