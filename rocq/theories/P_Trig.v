(** Trigonometric facts about the primitives of NumPy.v. *)
Require Import Reals Lra Psatz List ZArith.
Require Import Verif.Base Verif.NumPy.
Import ListNotations.
Open Scope R_scope.

Lemma sin2_cos2' : forall x, sin x * sin x + cos x * cos x = 1.
Proof. intro x; pose proof (sin2_cos2 x) as H; unfold Rsqr in H; exact H. Qed.
Lemma cos_sqr : forall x, cos x * cos x = 1 - sin x * sin x.
Proof. intro x; pose proof (sin2_cos2' x); lra. Qed.

Lemma cos_half_sqr : forall x, 2 * (cos (x/2) * cos (x/2)) = 1 + cos x.
Proof.
  intro x. replace (cos x) with (cos (2 * (x/2))) by (f_equal; field).
  rewrite cos_2a. pose proof (sin2_cos2' (x/2)). lra.
Qed.
Lemma sin_half_sqr : forall x, 2 * (sin (x/2) * sin (x/2)) = 1 - cos x.
Proof.
  intro x. replace (cos x) with (cos (2 * (x/2))) by (f_equal; field).
  rewrite cos_2a. pose proof (sin2_cos2' (x/2)). lra.
Qed.
Lemma sin_half_double : forall x, sin x = 2 * sin (x/2) * cos (x/2).
Proof. intro x. rewrite <- sin_2a. f_equal; field. Qed.

(** floor and mod *)
Lemma rfloor_spec : forall x, IZR (rfloor x) <= x < IZR (rfloor x) + 1.
Proof. intro x. unfold rfloor. pose proof (base_Int_part x). lra. Qed.
Lemma rfloor_unique : forall x z, IZR z <= x < IZR z + 1 -> rfloor x = z.
Proof.
  intros x z H. pose proof (rfloor_spec x) as S.
  assert (A : IZR (rfloor x) < IZR z + 1) by lra.
  assert (B : IZR z < IZR (rfloor x) + 1) by lra.
  rewrite <- plus_IZR in A, B. apply lt_IZR in A, B. lia.
Qed.
Lemma rfloor_IZR : forall z, rfloor (IZR z) = z.
Proof. intro z; apply rfloor_unique; lra. Qed.
Lemma rmod_bounds : forall a m, 0 < m -> 0 <= rmod a m < m.
Proof.
  intros a m Hm. unfold rmod. pose proof (rfloor_spec (a/m)) as [H1 H2].
  assert (E : a = m * (a / m)) by (field; lra).
  split; [|]; rewrite E at 1; nra.
Qed.
Lemma rmod_small : forall a m, 0 <= a < m -> rmod a m = a.
Proof.
  intros a m H. unfold rmod. rewrite (rfloor_unique (a/m) 0); [ring|].
  split.
  - apply Rmult_le_reg_l with m; [lra|]. replace (m * (a/m)) with a by (field; lra). lra.
  - apply Rmult_lt_reg_l with m; [lra|]. replace (m * (a/m)) with a by (field; lra). lra.
Qed.
Lemma rmod_unique : forall a m b (k : Z), 0 < m -> 0 <= b < m -> a = b + m * IZR k -> rmod a m = b.
Proof.
  intros a m b k Hm Hb E. unfold rmod. rewrite (rfloor_unique (a/m) k); [lra|].
  subst a. replace ((b + m * IZR k)/m) with (b/m + IZR k) by (field; lra).
  assert (0 <= b/m). { apply Rmult_le_pos; [lra|]. left; apply Rinv_0_lt_compat; lra. }
  assert (b/m < 1). { apply Rmult_lt_reg_l with m; [lra|]. replace (m*(b/m)) with b by (field; lra). lra. }
  lra.
Qed.
Lemma rmod_shift : forall a m (k : Z), 0 < m -> rmod (a + m * IZR k) m = rmod a m.
Proof.
  intros. apply rmod_unique with (rfloor (a/m) + k)%Z; auto.
  apply rmod_bounds; auto. unfold rmod. rewrite plus_IZR. ring.
Qed.

Lemma cos_shift_Z : forall x (k : Z), cos (x + 2 * PI * IZR k) = cos x.
Proof.
  intros x k.
  destruct (Z_le_gt_dec 0 k) as [H|H].
  - rewrite <- (Z2Nat.id k H). rewrite <- INR_IZR_INZ.
    replace (x + 2 * PI * INR (Z.to_nat k)) with (x + 2 * INR (Z.to_nat k) * PI) by ring.
    apply cos_period.
  - rewrite <- (cos_period _ (Z.to_nat (- k))). f_equal.
    rewrite INR_IZR_INZ, Z2Nat.id by lia. rewrite opp_IZR. ring.
Qed.
Lemma sin_shift_Z : forall x (k : Z), sin (x + 2 * PI * IZR k) = sin x.
Proof.
  intros x k.
  destruct (Z_le_gt_dec 0 k) as [H|H].
  - rewrite <- (Z2Nat.id k H). rewrite <- INR_IZR_INZ.
    replace (x + 2 * PI * INR (Z.to_nat k)) with (x + 2 * INR (Z.to_nat k) * PI) by ring.
    apply sin_period.
  - rewrite <- (sin_period _ (Z.to_nat (- k))). f_equal.
    rewrite INR_IZR_INZ, Z2Nat.id by lia. rewrite opp_IZR. ring.
Qed.
Lemma cos_rmod : forall a, cos (rmod a (2*PI)) = cos a.
Proof.
  intro a. unfold rmod. rewrite <- (cos_shift_Z _ (rfloor (a / (2*PI)))). f_equal. ring.
Qed.
Lemma sin_rmod : forall a, sin (rmod a (2*PI)) = sin a.
Proof.
  intro a. unfold rmod. rewrite <- (sin_shift_Z _ (rfloor (a / (2*PI)))). f_equal. ring.
Qed.

(** arctan2 *)
Lemma cos_atan_eq : forall t, cos (atan t) = / sqrt (1 + t * t).
Proof.
  intro t. rewrite cos_atan. unfold Rdiv, Rsqr. rewrite Rmult_1_l. reflexivity.
Qed.
Lemma sin_atan_eq : forall t, sin (atan t) = t * / sqrt (1 + t * t).
Proof. intro t. rewrite sin_atan. unfold Rdiv, Rsqr. reflexivity. Qed.

Lemma sqrt_ratio : forall x y, x <> 0 ->
  sqrt (1 + y / x * (y / x)) = sqrt (x * x + y * y) / Rabs x.
Proof.
  intros x y Hx.
  replace (1 + y/x*(y/x)) with ((x*x + y*y) / (x*x)) by (field; auto).
  rewrite sqrt_div_alt by nra. f_equal.
  change (x*x) with (Rsqr x). apply sqrt_Rsqr_abs.
Qed.

Lemma hyp_pos : forall x y, x <> 0 \/ y <> 0 -> 0 < sqrt (x * x + y * y).
Proof. intros x y H; apply sqrt_lt_R0. destruct H; nra. Qed.

Lemma arctan2_cos_sin : forall y x,
  sqrt (x*x + y*y) * cos (arctan2 y x) = x /\
  sqrt (x*x + y*y) * sin (arctan2 y x) = y.
Proof.
  intros y x. unfold arctan2.
  destruct (Rlt_dec 0 x) as [Hx|Hx].
  - assert (Hr : 0 < sqrt (x*x+y*y)) by (apply hyp_pos; left; lra).
    rewrite cos_atan_eq, sin_atan_eq, sqrt_ratio by lra.
    rewrite Rabs_right by lra. split; field; lra.
  - destruct (Rlt_dec x 0) as [Hx'|Hx'].
    + assert (Hr : 0 < sqrt (x*x+y*y)) by (apply hyp_pos; left; lra).
      destruct (Rle_dec 0 y) as [Hy|Hy].
      * rewrite neg_cos, neg_sin, cos_atan_eq, sin_atan_eq, sqrt_ratio by lra.
        rewrite Rabs_left by lra. split; field; lra.
      * replace (atan (y/x) - PI) with (atan (y/x) + PI + 2 * PI * IZR (-1)) by (simpl; ring).
        rewrite cos_shift_Z, sin_shift_Z.
        rewrite neg_cos, neg_sin, cos_atan_eq, sin_atan_eq, sqrt_ratio by lra.
        rewrite Rabs_left by lra. split; field; lra.
    + assert (x = 0) by lra. subst x.
      replace (0*0 + y*y) with (y*y) by ring.
      change (y*y) with (Rsqr y). rewrite sqrt_Rsqr_abs.
      destruct (Rlt_dec 0 y) as [Hy|Hy].
      * rewrite cos_PI2, sin_PI2, Rabs_right by lra. lra.
      * destruct (Rlt_dec y 0) as [Hy'|Hy'].
        -- rewrite cos_neg, sin_neg, cos_PI2, sin_PI2, Rabs_left by lra. lra.
        -- assert (y = 0) by lra. subst y. rewrite Rabs_R0. lra.
Qed.

Lemma arctan2_bounds : forall y x, - PI < arctan2 y x <= PI.
Proof.
  intros y x. unfold arctan2. pose proof PI_RGT_0.
  pose proof (atan_bound (y/x)) as [B1 B2].
  destruct (Rlt_dec 0 x); [lra|].
  destruct (Rlt_dec x 0) as [Hx|].
  - destruct (Rle_dec 0 y) as [Hy|Hy].
    + assert (y / x <= 0).
      { unfold Rdiv. assert (/ x < 0) by (apply Rinv_lt_0_compat; lra). nra. }
      assert (atan (y/x) <= 0).
      { destruct H0 as [H0|H0]. left. rewrite <- atan_0. apply atan_increasing; auto.
        rewrite H0, atan_0; lra. }
      lra.
    + assert (0 < y / x).
      { unfold Rdiv. assert (/ x < 0) by (apply Rinv_lt_0_compat; lra). nra. }
      assert (0 < atan (y/x)). { rewrite <- atan_0. apply atan_increasing; auto. }
      lra.
  - destruct (Rlt_dec 0 y); [lra|]. destruct (Rlt_dec y 0); lra.
Qed.

(** an angle in a half-open interval of length 2 PI is determined by its cosine and sine *)
Lemma cos_eq_1_small : forall d, - (2 * PI) < d < 2 * PI -> cos d = 1 -> d = 0.
Proof.
  intros d Hd Hc. pose proof PI_RGT_0.
  assert (S : sin (d/2) = 0).
  { pose proof (sin_half_sqr d). rewrite Hc in H0. nra. }
  destruct (Rtotal_order d 0) as [H0|[H0|H0]]; auto.
  - assert (0 < sin (- (d/2))). { apply sin_gt_0; lra. } rewrite sin_neg in H1. lra.
  - assert (0 < sin (d/2)). { apply sin_gt_0; lra. } lra.
Qed.
Lemma angle_unique : forall a b, - (2 * PI) < a - b < 2 * PI ->
  cos a = cos b -> sin a = sin b -> a = b.
Proof.
  intros a b H Hc Hs.
  assert (cos (a - b) = 1).
  { rewrite cos_minus, Hc, Hs. pose proof (sin2_cos2' b). lra. }
  assert (a - b = 0) by (apply cos_eq_1_small; auto). lra.
Qed.

Lemma arctan2_polar : forall r t, 0 < r -> - PI < t <= PI ->
  arctan2 (r * sin t) (r * cos t) = t.
Proof.
  intros r t Hr Ht.
  destruct (arctan2_cos_sin (r * sin t) (r * cos t)) as [C S].
  replace (r * cos t * (r * cos t) + r * sin t * (r * sin t)) with (r * r) in C, S.
  2: { pose proof (sin2_cos2' t). nra. }
  rewrite sqrt_square in C, S by lra.
  apply Rmult_eq_reg_l in C; [|lra]. apply Rmult_eq_reg_l in S; [|lra].
  apply angle_unique; auto. pose proof (arctan2_bounds (r * sin t) (r * cos t)).
  pose proof PI_RGT_0. lra.
Qed.

Lemma arctan2_scale : forall k y x, 0 < k -> arctan2 (k * y) (k * x) = arctan2 y x.
Proof.
  intros k y x Hk.
  destruct (Req_EM_T x 0) as [Ex|Ex]; destruct (Req_EM_T y 0) as [Ey|Ey].
  - subst. rewrite !Rmult_0_r. reflexivity.
  - destruct (arctan2_cos_sin y x) as [C S].
    assert (Hr : 0 < sqrt (x*x+y*y)) by (apply hyp_pos; right; auto).
    rewrite <- S at 1. rewrite <- C at 4.
    rewrite <- !Rmult_assoc. apply arctan2_polar. nra. apply arctan2_bounds.
  - destruct (arctan2_cos_sin y x) as [C S].
    assert (Hr : 0 < sqrt (x*x+y*y)) by (apply hyp_pos; left; auto).
    rewrite <- S at 1. rewrite <- C at 4.
    rewrite <- !Rmult_assoc. apply arctan2_polar. nra. apply arctan2_bounds.
  - destruct (arctan2_cos_sin y x) as [C S].
    assert (Hr : 0 < sqrt (x*x+y*y)) by (apply hyp_pos; left; auto).
    rewrite <- S at 1. rewrite <- C at 4.
    rewrite <- !Rmult_assoc. apply arctan2_polar. nra. apply arctan2_bounds.
Qed.

Lemma sin_ge_0' : forall x, 0 <= x <= PI -> 0 <= sin x.
Proof. intros; apply sin_ge_0; lra. Qed.

Lemma cos_inj_0_PI : forall a b, 0 <= a <= PI -> 0 <= b <= PI -> cos a = cos b -> a = b.
Proof.
  intros a b Ha Hb H. destruct (Rtotal_order a b) as [L|[L|L]]; auto.
  - pose proof (cos_decreasing_1 a b). assert (cos b < cos a) by (apply H0; lra). lra.
  - pose proof (cos_decreasing_1 b a). assert (cos a < cos b) by (apply H0; lra). lra.
Qed.

Lemma sin_le_x : forall x, 0 <= x -> sin x <= x.
Proof.
  intros x [H|H].
  - left; apply sin_lt_x; auto.
  - subst; rewrite sin_0; lra.
Qed.
