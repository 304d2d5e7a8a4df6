(** Relative errors of the rounded dogleg and ratio factor (C158). *)
Require Import Reals List Lra Lia.
Require Import Verif.Base Verif.NumPy Verif.M_Utils Verif.P_Trig.
Require Import Verif.M_Round Verif.Spec_Round.
Open Scope R_scope.

(** * Factors close to one *)
(** [x'] is [x] times a factor between w^n and 1/w^n *)
Definition near (w : R) (n : nat) (x' x : R) : Prop :=
  exists f, x' = x * f /\ w ^ n <= f /\ f * w ^ n <= 1.

Lemma near_refl : forall w x, near w 0 x x.
Proof. intros w x. exists 1. simpl. lra. Qed.

Lemma wpow_pos : forall w n, 0 < w -> 0 < w ^ n.
Proof. intros; apply pow_lt; assumption. Qed.

Lemma wpow_le : forall w n m, 0 < w <= 1 -> (n <= m)%nat -> w ^ m <= w ^ n.
Proof.
  intros w n m Hw H. replace m with (n + (m - n))%nat by lia. rewrite pow_add.
  assert (P := wpow_pos w n ltac:(lra)).
  assert (Q : w ^ (m - n) <= 1).
  { replace 1 with (1 ^ (m - n)) by apply pow1. apply pow_incr. lra. }
  assert (P2 := wpow_pos w (m - n) ltac:(lra)). nra.
Qed.

Lemma near_weaken : forall w n m x' x, 0 < w <= 1 -> (n <= m)%nat ->
  near w n x' x -> near w m x' x.
Proof.
  intros w n m x' x Hw H [f [E [L U]]]. exists f.
  assert (K := wpow_le w n m Hw H). assert (P := wpow_pos w n ltac:(lra)).
  assert (P2 := wpow_pos w m ltac:(lra)). repeat split; auto; nra.
Qed.

Lemma near_mul : forall w n m a' a b' b, 0 < w ->
  near w n a' a -> near w m b' b -> near w (n + m) (a' * b') (a * b).
Proof.
  intros w n m a' a b' b Hw [f [Ea [La Ua]]] [g [Eb [Lb Ub]]].
  exists (f * g). rewrite Ea, Eb, pow_add.
  assert (P := wpow_pos w n Hw). assert (P2 := wpow_pos w m Hw).
  repeat split; [ring | nra |].
  replace (f * g * (w ^ n * w ^ m)) with ((f * w ^ n) * (g * w ^ m)) by ring.
  assert (0 <= f * w ^ n) by nra. assert (0 <= g * w ^ m) by nra. nra.
Qed.

Lemma near_trans : forall w n m a b c, 0 < w ->
  near w n a b -> near w m b c -> near w (n + m) a c.
Proof.
  intros w n m a b c Hw [f [Ea [La Ua]]] [g [Eb [Lb Ub]]].
  destruct (near_mul w n m f 1 g 1 Hw) as [h [E [L U]]].
  - exists f. repeat split; lra.
  - exists g. repeat split; lra.
  - exists h. split; [rewrite Ea, Eb; rewrite <- (Rmult_1_l h) , <- (Rmult_1_r 1), <- E; ring | split; assumption].
Qed.

Lemma near_inv : forall w n x' x, 0 < w -> near w n x' x -> near w n (/ x') (/ x).
Proof.
  intros w n x' x Hw [f [E [L U]]]. assert (P := wpow_pos w n Hw).
  assert (Hf : 0 < f) by lra.
  exists (/ f). split; [subst x'; apply Rinv_mult |]. split.
  - apply Rmult_le_reg_l with f; [exact Hf |]. rewrite Rinv_r; lra.
  - apply Rmult_le_reg_l with f; [exact Hf |]. rewrite <- Rmult_assoc, Rinv_r; lra.
Qed.

Lemma near_scale : forall w n k x' x, near w n x' x -> near w n (k * x') (k * x).
Proof. intros w n k x' x [f [E H]]. exists f. split; [subst; ring | exact H]. Qed.

Lemma near_add : forall w n a' a b' b, 0 < w <= 1 -> 0 <= a -> 0 <= b ->
  near w n a' a -> near w n b' b -> near w n (a' + b') (a + b).
Proof.
  intros w n a' a b' b Hw Ha Hb [f [Ea [La Ua]]] [g [Eb [Lb Ub]]].
  assert (P := wpow_pos w n ltac:(lra)).
  destruct (Req_dec (a + b) 0) as [Z | NZ].
  - assert (a = 0) by lra. assert (b = 0) by lra. subst.
    assert (W : w ^ n <= 1) by (change 1 with (w ^ 0); apply wpow_le; [lra | lia]).
    exists 1. repeat split; lra.
  - assert (S0 : 0 < a + b) by lra. subst a' b'.
    exists ((a * f + b * g) / (a + b)). split; [field; lra |]. split.
    + apply Rmult_le_reg_r with (a + b); [exact S0 |].
      unfold Rdiv. rewrite Rmult_assoc, Rinv_l by lra. nra.
    + apply Rmult_le_reg_r with (a + b); [exact S0 |].
      replace ((a * f + b * g) / (a + b) * w ^ n * (a + b))
        with (a * (f * w ^ n) + b * (g * w ^ n)) by (field; lra). nra.
Qed.

Lemma near_sqrt : forall w k x' x, 0 < w -> 0 <= x ->
  near w (2 * k) x' x -> near w k (sqrt x') (sqrt x).
Proof.
  intros w k x' x Hw Hx [f [E [L U]]]. assert (P := wpow_pos w k Hw).
  replace (2 * k)%nat with (k + k)%nat in * by lia. rewrite pow_add in *.
  assert (Hf : 0 < f) by nra.
  exists (sqrt f). split; [subst; apply sqrt_mult; lra |].
  assert (Q := sqrt_lt_R0 f Hf). assert (SS := sqrt_sqrt f ltac:(lra)).
  split.
  - rewrite <- (sqrt_square (w ^ k)) by lra. apply sqrt_le_1_alt. exact L.
  - apply Rsqr_incr_0_var; [| lra]. unfold Rsqr.
    replace (sqrt f * w ^ k * (sqrt f * w ^ k)) with (sqrt f * sqrt f * (w ^ k * w ^ k)) by ring.
    rewrite SS. lra.
Qed.

Lemma abs_inv : forall a b, Rabs a <= b -> - b <= a <= b.
Proof. intros a b. unfold Rabs. destruct Rcase_abs; lra. Qed.

(** one operation of relative error at most u, with w = 1 - u *)
Lemma near_error : forall u x' x, 0 <= u < 1 -> relative_error u x' x ->
  near (1 - u) 1 x' x.
Proof.
  intros u x' x Hu H. unfold relative_error in H. rewrite <- Rmult_1_r in H at 1.
  destruct (Req_dec x 0) as [Z | NZ].
  - subst. rewrite Rabs_R0, Rmult_0_r, Rminus_0_r, Rmult_1_r in H.
    exists 1. assert (x' = 0).
    { destruct (Req_dec x' 0); [assumption |]. apply Rabs_pos_lt in H0. lra. }
    subst. simpl. repeat split; lra.
  - exists (x' / x). split; [field; exact NZ |]. simpl. rewrite Rmult_1_r in *.
    assert (K : Rabs (x' / x - 1) <= u).
    { replace (x' / x - 1) with ((x' - x) * / x) by (field; exact NZ).
      rewrite Rabs_mult, Rabs_inv. apply Rmult_le_reg_r with (Rabs x); [apply Rabs_pos_lt; exact NZ |].
      rewrite Rmult_assoc, Rinv_l by (apply Rabs_no_R0; exact NZ). lra. }
    apply abs_inv in K. split; [lra | nra].
Qed.

(** * Chords of concave functions *)
Lemma chord : forall (f f' : R -> R) X g, 0 <= X -> 0 <= g <= 1 ->
  (forall x, 0 <= x <= X -> derivable_pt_lim f x (f' x)) ->
  (forall x y, 0 <= x -> x <= y -> y <= X -> f' y <= f' x) ->
  (1 - g) * f 0 + g * f X <= f (g * X).
Proof.
  intros f f' X g HX Hg D M.
  destruct (Req_dec X 0) as [Z | NZ]; [subst; rewrite Rmult_0_r; lra |].
  destruct (Req_dec g 0) as [Z | Ng]; [subst; rewrite !Rmult_0_l; lra |].
  destruct (Req_dec g 1) as [Z | Ng1]; [subst; rewrite !Rmult_1_l; lra |].
  assert (G0 : 0 < g * X) by (apply Rmult_lt_0_compat; lra).
  assert (G1 : g * X < X) by nra.
  destruct (MVT_cor2 f f' 0 (g * X) G0) as [c1 [E1 B1]]; [intros; apply D; lra |].
  destruct (MVT_cor2 f f' (g * X) X G1) as [c2 [E2 B2]]; [intros; apply D; lra |].
  assert (K := M c1 c2 ltac:(lra) ltac:(lra) ltac:(lra)).
  assert (Hx : 0 <= g * (1 - g) * X).
  { apply Rmult_le_pos; [apply Rmult_le_pos; lra | lra]. }
  assert (Q : g * (1 - g) * X * f' c2 <= g * (1 - g) * X * f' c1)
    by (apply Rmult_le_compat_l; assumption).
  replace (f X) with (f (g * X) + f' c2 * (X - g * X)) by lra.
  assert (E : (1 - g) * (f (g * X) - f 0) = g * (1 - g) * X * f' c1) by (rewrite E1; ring).
  lra.
Qed.

Lemma sin_chord : forall g x, 0 <= g <= 1 -> 0 <= x <= PI -> g * sin x <= sin (g * x).
Proof.
  intros g x Hg Hx.
  assert (K := chord sin cos x g ltac:(lra) Hg (fun y _ => derivable_pt_lim_sin y)).
  rewrite sin_0 in K. enough (forall a b, 0 <= a -> a <= b -> b <= x -> cos b <= cos a) as M
    by (specialize (K M); lra).
  intros a b Ha Hab Hb. destruct (Req_dec a b); [subst; lra |].
  apply Rlt_le, cos_decreasing_1; lra.
Qed.

Lemma cos_chord : forall g x, 0 <= g <= 1 -> 0 <= x <= PI / 2 ->
  1 - g + g * cos x <= cos (g * x).
Proof.
  intros g x Hg Hx. pose proof PI_RGT_0.
  assert (K := chord cos (fun y => - sin y) x g ltac:(lra) Hg (fun y _ => derivable_pt_lim_cos y)).
  rewrite cos_0 in K. enough (forall a b, 0 <= a -> a <= b -> b <= x -> - sin b <= - sin a) as M
    by (specialize (K M); lra).
  intros a b Ha Hab Hb. destruct (Req_dec a b); [subst; lra |].
  apply Ropp_le_contravar, Rlt_le, sin_increasing_1; lra.
Qed.

(** the square of the sine is convex up to pi/4 *)
Lemma sin_sqr_chord : forall g x, 0 <= g <= 1 -> 0 <= x <= PI / 4 ->
  sin (g * x) * sin (g * x) <= g * (sin x * sin x).
Proof.
  intros g x Hg Hx.
  assert (K := cos_chord g (2 * x) Hg ltac:(lra)).
  assert (A := sin_half_sqr (2 * x)). assert (B := sin_half_sqr (g * (2 * x))).
  replace (2 * x / 2) with x in A by field. replace (g * (2 * x) / 2) with (g * x) in B by field.
  nra.
Qed.

Lemma tan_slope : forall x, cos x <> 0 -> derivable_pt_lim tan x (/ (cos x * cos x)).
Proof.
  intros x C.
  assert (D := derivable_pt_lim_div sin cos x (cos x) (- sin x)
                 (derivable_pt_lim_sin x) (derivable_pt_lim_cos x) C).
  replace (/ (cos x * cos x)) with ((cos x * cos x - - sin x * sin x) / Rsqr (cos x)); [exact D |].
  replace (cos x * cos x - - sin x * sin x) with 1 by (pose proof (sin2_cos2' x); lra).
  unfold Rsqr, Rdiv. ring.
Qed.

Lemma tan_chord : forall g x, 0 <= g <= 1 -> 0 <= x < PI / 2 -> tan (g * x) <= g * tan x.
Proof.
  intros g x Hg Hx. pose proof PI_RGT_0.
  assert (K := chord (fun y => - tan y) (fun y => - / (cos y * cos y)) x g ltac:(lra) Hg).
  cbv beta in K. rewrite tan_0 in K.
  enough ((1 - g) * - 0 + g * - tan x <= - tan (g * x)) by lra.
  apply K.
  - intros y Hy. apply derivable_pt_lim_opp. apply tan_slope.
    assert (0 < cos y) by (apply cos_gt_0; lra). lra.
  - intros a b Ha Hab Hb. destruct (Req_dec a b); [subst; lra |].
    assert (T : cos b < cos a) by (apply cos_decreasing_1; lra).
    assert (T0 : 0 < cos b) by (apply cos_gt_0; lra).
    apply Ropp_le_contravar, Rinv_le_contravar; nra.
Qed.

(** y cos y grows up to pi/4 *)
Lemma ycos_grows : forall a b, 0 <= a -> a <= b -> b <= PI / 4 -> a * cos a <= b * cos b.
Proof.
  intros a b Ha Hab Hb. destruct (Req_dec a b) as [E | N]; [subst; lra |].
  pose proof PI_RGT_0. pose proof PI_4.
  destruct (MVT_cor2 (fun y => y * cos y) (fun y => 1 * cos y + y * - sin y) a b ltac:(lra))
    as [c [E B]].
  - intros c _. apply (derivable_pt_lim_mult id cos); [apply derivable_pt_lim_id | apply derivable_pt_lim_cos].
  - assert (S0 : 0 <= sin c) by (apply sin_ge_0; lra).
    assert (SC : sin c <= cos c).
    { rewrite cos_sin.
      destruct (Req_dec c (PI / 2 + c)); [lra |].
      replace (sin (PI / 2 + c)) with (sin (PI / 2 - c)).
      - apply Rlt_le, sin_increasing_1; lra.
      - rewrite sin_minus, sin_plus, cos_PI2. ring. }
    assert (c <= 1) by lra.
    assert (P : 0 <= (1 * cos c + c * - sin c) * (b - a)) by (apply Rmult_le_pos; nra).
    lra.
Qed.

Lemma tan_lower : forall g x, 0 <= g <= 1 -> 0 <= x <= PI / 4 -> g * g * tan x <= tan (g * x).
Proof.
  intros g x Hg Hx. pose proof PI_RGT_0.
  destruct (Req_dec g 0) as [Z | Ng]; [subst; rewrite !Rmult_0_l, tan_0; lra |].
  destruct (Req_dec x 0) as [Z | Nx]; [subst; rewrite Rmult_0_r, tan_0; lra |].
  assert (Hgx : 0 <= g * x <= x) by nra.
  assert (C1 : 0 < cos x) by (apply cos_gt_0; lra).
  assert (C2 : 0 < cos (g * x)) by (apply cos_gt_0; lra).
  assert (S1 : 0 <= sin x) by (apply sin_ge_0; lra).
  assert (SC := sin_chord g x Hg ltac:(lra)).
  assert (Y := ycos_grows (g * x) x ltac:(lra) ltac:(lra) ltac:(lra)).
  assert (Y' : g * cos (g * x) <= cos x) by nra.
  unfold tan. apply Rmult_le_reg_r with (cos x * cos (g * x)); [apply Rmult_lt_0_compat; assumption |].
  replace (g * g * (sin x / cos x) * (cos x * cos (g * x))) with (g * sin x * (g * cos (g * x))) by (field; lra).
  replace (sin (g * x) / cos (g * x) * (cos x * cos (g * x))) with (sin (g * x) * cos x) by (field; lra).
  assert (0 <= g * sin x) by nra. assert (0 <= g * cos (g * x)) by nra. nra.
Qed.

(** * Errors through the functions *)
Lemma factor_le1 : forall w n f, 0 < w -> f <= 1 -> w ^ n <= f -> f * w ^ n <= 1.
Proof. intros w n f Hw H L. assert (P := wpow_pos w n Hw). nra. Qed.
Lemma factor_ge1 : forall w n f, 0 < w <= 1 -> 1 <= f -> w ^ n <= f.
Proof.
  intros w n f Hw H. assert (w ^ n <= 1) by (change 1 with (w ^ 0); apply wpow_le; [lra | lia]). lra.
Qed.

Lemma near_sin_pos : forall w n x f, 0 < w <= 1 -> 0 <= x ->
  w ^ n <= f -> f * w ^ n <= 1 -> x * f <= PI / 2 -> x <= PI / 2 ->
  near w n (sin (x * f)) (sin x).
Proof.
  intros w n x f Hw Hx L U Hf Hx2. pose proof PI_RGT_0.
  assert (P := wpow_pos w n ltac:(lra)).
  destruct (Req_dec x 0) as [Z | Nx].
  { subst. rewrite Rmult_0_l. exists 1. rewrite sin_0.
    assert (w ^ n <= 1) by (change 1 with (w ^ 0); apply wpow_le; [lra | lia]). repeat split; lra. }
  assert (S1 : 0 < sin x) by (apply sin_gt_0; lra).
  exists (sin (x * f) / sin x). split; [field; lra |].
  assert (D : forall c, c * sin x <= sin (x * f) -> c <= sin (x * f) / sin x).
  { intros c Hc. apply Rmult_le_reg_r with (sin x); [exact S1 |].
    unfold Rdiv. rewrite Rmult_assoc, Rinv_l by lra. lra. }
  assert (D2 : forall c, sin (x * f) <= c * sin x -> sin (x * f) / sin x <= c).
  { intros c Hc. apply Rmult_le_reg_r with (sin x); [exact S1 |].
    unfold Rdiv. rewrite Rmult_assoc, Rinv_l by lra. lra. }
  destruct (Rle_dec f 1) as [F | F].
  - assert (K := sin_chord f x ltac:(lra) ltac:(lra)). rewrite (Rmult_comm f x) in K.
    assert (K2 : sin (x * f) <= sin x).
    { destruct (Req_dec (x * f) x) as [E | E]; [rewrite E; lra |].
      apply Rlt_le, sin_increasing_1; nra. }
    assert (A := D f K). assert (B := D2 1 ltac:(lra)). split; [lra |].
    apply factor_le1; lra.
  - assert (Fi : 0 < f) by lra.
    assert (G : 0 <= / f <= 1).
    { split; [apply Rlt_le, Rinv_0_lt_compat; lra |].
      rewrite <- Rinv_1. apply Rinv_le_contravar; lra. }
    assert (K := sin_chord (/ f) (x * f) G ltac:(nra)).
    replace (/ f * (x * f)) with x in K by (field; lra).
    assert (K' : sin (x * f) <= f * sin x).
    { apply Rmult_le_reg_l with (/ f); [apply Rinv_0_lt_compat; lra |].
      rewrite <- Rmult_assoc, Rinv_l by lra. lra. }
    assert (K2 : sin x <= sin (x * f)).
    { apply Rlt_le, sin_increasing_1; nra. }
    assert (A := D 1 ltac:(lra)). assert (B := D2 f K').
    split; [apply factor_ge1; lra | nra].
Qed.

Lemma near_sin : forall w n x' x, 0 < w <= 1 -> near w n x' x ->
  Rabs x <= w ^ n * (PI / 2) -> near w n (sin x') (sin x).
Proof.
  intros w n x' x Hw [f [E [L U]]] B. assert (P := wpow_pos w n ltac:(lra)).
  pose proof PI_RGT_0. assert (W : w ^ n <= 1) by (change 1 with (w ^ 0); apply wpow_le; [lra | lia]).
  assert (Q : Rabs x * f <= PI / 2).
  { assert (Rabs x * f <= w ^ n * (PI / 2) * f) by (apply Rmult_le_compat_r; lra). nra. }
  assert (Q2 : Rabs x <= PI / 2) by nra.
  subst x'. destruct (Rle_dec 0 x) as [X | X].
  - rewrite Rabs_pos_eq in Q, Q2 by exact X. apply near_sin_pos; assumption.
  - rewrite Rabs_left in Q, Q2 by lra.
    assert (K := near_sin_pos w n (- x) f Hw ltac:(lra) L U Q Q2).
    replace (- x * f) with (- (x * f)) in K by ring. rewrite !sin_neg in K.
    destruct K as [g [Eg Hg]]. exists g. split; [lra | exact Hg].
Qed.

Lemma asin_nonneg : forall s, 0 <= s <= 1 -> 0 <= asin s.
Proof.
  intros s Hs. destruct (Rle_dec 0 (asin s)) as [H | H]; [exact H |]. exfalso.
  assert (B := asin_bound s). pose proof PI_RGT_0.
  assert (K : sin (asin s) < 0) by (apply sin_lt_0_var; lra).
  rewrite sin_asin in K; lra.
Qed.

Lemma near_asin : forall w n s' t, 0 < w <= 1 -> 0 <= t -> t <= w ^ (2 * n) * (PI / 4) ->
  near w n s' (sin t) -> near w (2 * n) (asin s') t /\ 0 <= s' <= 1.
Proof.
  intros w n s' t Hw Ht B [f [E [L U]]]. pose proof PI_RGT_0.
  assert (P := wpow_pos w n ltac:(lra)).
  assert (W : w ^ n <= 1) by (change 1 with (w ^ 0); apply wpow_le; [lra | lia]).
  replace (2 * n)%nat with (n + n)%nat in * by lia. rewrite pow_add in *.
  assert (Hf : 0 < f) by lra.
  assert (WW : 0 < w ^ n * w ^ n <= 1) by (split; nra).
  assert (T4 : t <= PI / 4).
  { assert (w ^ n * w ^ n * (PI / 4) <= 1 * (PI / 4)) by (apply Rmult_le_compat_r; lra). lra. }
  assert (S0 : 0 <= sin t) by (apply sin_ge_0; lra).
  assert (FF : f * f * (w ^ n * w ^ n) <= 1).
  { replace (f * f * (w ^ n * w ^ n)) with ((f * w ^ n) * (f * w ^ n)) by ring.
    assert (0 <= f * w ^ n) by nra. nra. }
  assert (TF : t * (f * f) <= PI / 4).
  { assert (t * (f * f) <= w ^ n * w ^ n * (PI / 4) * (f * f)) by (apply Rmult_le_compat_r; nra).
    nra. }
  (* bounds of the angle whose sine is s' *)
  assert (R0 : exists g, 0 <= t * g <= PI / 2 /\ sin (t * g) = s' /\
               w ^ n * w ^ n <= g /\ g * (w ^ n * w ^ n) <= 1).
  { destruct (Req_dec t 0) as [Z | Nt].
    { exists 1. subst t. rewrite Rmult_0_l, sin_0 in *. repeat split; try lra; nra. }
    assert (SB : Rmin 1 (f * f) = 1 \/ Rmin 1 (f * f) = f * f) by (unfold Rmin; destruct Rle_dec; auto).
    assert (FL : f <= 1 -> t * (f * f) <= t).
    { intro F. assert (f * f <= 1 * 1) by (apply Rmult_le_compat; lra).
      assert (t * (f * f) <= t * 1) by (apply Rmult_le_compat_l; lra). lra. }
    assert (FG : ~ f <= 1 -> t <= t * (f * f)).
    { intro F. assert (1 * 1 <= f * f) by (apply Rmult_le_compat; lra).
      assert (t * 1 <= t * (f * f)) by (apply Rmult_le_compat_l; lra). lra. }
    assert (S4 : s' <= sin (Rmax t (t * (f * f)))).
    { subst s'. destruct (Rle_dec f 1) as [F | F].
      - rewrite Rmax_left by auto.
        assert (sin t * f <= sin t * 1) by (apply Rmult_le_compat_l; lra). lra.
      - rewrite Rmax_right by auto.
        assert (G : 0 <= / (f * f) <= 1).
        { split; [apply Rlt_le, Rinv_0_lt_compat; nra |].
          rewrite <- Rinv_1. apply Rinv_le_contravar; nra. }
        assert (K := sin_sqr_chord (/ (f * f)) (t * (f * f)) G ltac:(split; [nra | exact TF])).
        replace (/ (f * f) * (t * (f * f))) with t in K by (field; lra).
        assert (S1 : 0 <= sin (t * (f * f))) by (apply sin_ge_0; nra).
        apply Rsqr_incr_0_var; [unfold Rsqr | exact S1].
        apply Rmult_le_reg_l with (/ (f * f)); [apply Rinv_0_lt_compat; nra |].
        replace (/ (f * f) * (sin t * f * (sin t * f))) with (sin t * sin t) by (field; lra). lra. }
    assert (S5 : sin (Rmin t (t * (f * f))) <= s').
    { subst s'. destruct (Rle_dec f 1) as [F | F].
      - rewrite Rmin_right by auto.
        assert (K := sin_sqr_chord (f * f) t ltac:(nra) ltac:(lra)).
        rewrite (Rmult_comm (f * f) t) in K.
        apply Rsqr_incr_0_var; [unfold Rsqr; nra | nra].
      - rewrite Rmin_left by auto.
        assert (sin t * 1 <= sin t * f) by (apply Rmult_le_compat_l; lra). lra. }
    assert (M1 : 0 <= Rmin t (t * (f * f))) by (apply Rmin_glb; nra).
    assert (M2 : Rmax t (t * (f * f)) <= PI / 4) by (apply Rmax_lub; lra).
    assert (Sp : 0 <= s') by (subst s'; nra).
    assert (S1 : s' <= 1) by (eapply Rle_trans; [exact S4 | apply SIN_bound]).
    assert (AS := asin_bound s').
    assert (A0 : 0 <= asin s') by (apply asin_nonneg; lra).
    assert (SA : sin (asin s') = s') by (apply sin_asin; lra).
    assert (LO : Rmin t (t * (f * f)) <= asin s').
    { destruct (Rle_dec (Rmin t (t * (f * f))) (asin s')); [assumption |]. exfalso.
      assert (sin (asin s') < sin (Rmin t (t * (f * f)))).
      { assert (Rmin t (t * (f * f)) <= t) by apply Rmin_l. apply sin_increasing_1; lra. }
      lra. }
    assert (HI : asin s' <= Rmax t (t * (f * f))).
    { destruct (Rle_dec (asin s') (Rmax t (t * (f * f)))); [assumption |]. exfalso.
      assert (sin (Rmax t (t * (f * f))) < sin (asin s')).
      { assert (t <= Rmax t (t * (f * f))) by apply Rmax_l. apply sin_increasing_1; lra. }
      lra. }
    exists (asin s' / t). replace (t * (asin s' / t)) with (asin s') by (field; lra).
    repeat split; try lra.
    - apply Rmult_le_reg_r with t; [lra |].
      replace (asin s' / t * t) with (asin s') by (field; lra).
      eapply Rle_trans; [| exact LO].
      assert (WF : w ^ n * w ^ n <= f * f) by (apply Rmult_le_compat; lra).
      rewrite (Rmult_comm (w ^ n * w ^ n) t). apply Rmin_glb.
      + assert (t * (w ^ n * w ^ n) <= t * 1) by (apply Rmult_le_compat_l; lra). lra.
      + apply Rmult_le_compat_l; lra.
    - apply Rmult_le_reg_r with t; [lra |].
      replace (asin s' / t * (w ^ n * w ^ n) * t) with (asin s' * (w ^ n * w ^ n)) by (field; lra).
      rewrite Rmult_1_l. apply Rle_trans with (Rmax t (t * (f * f)) * (w ^ n * w ^ n)).
      + apply Rmult_le_compat_r; lra.
      + unfold Rmax. destruct Rle_dec.
        * assert (t * (f * f * (w ^ n * w ^ n)) <= t * 1) by (apply Rmult_le_compat_l; lra). lra.
        * assert (t * (w ^ n * w ^ n) <= t * 1) by (apply Rmult_le_compat_l; lra). lra. }
  destruct R0 as [g [B1 [B2 [B3 B4]]]].
  split.
  - exists g. rewrite pow_add. split; [| split; assumption]. rewrite <- B2. apply asin_sin. lra.
  - rewrite <- B2. split; [apply sin_ge_0; lra | apply SIN_bound].
Qed.

(** tan t / t: an error factor f in the angle changes the ratio by at most f *)
Lemma near_tan_ratio : forall w n x f, 0 < w <= 1 -> 0 < x -> x <= w ^ n * (PI / 4) ->
  w ^ n <= f -> f * w ^ n <= 1 ->
  near w n (tan (x * f)) (tan x * f) /\ 0 < x * f <= PI / 4.
Proof.
  intros w n x f Hw Hx B L U. pose proof PI_RGT_0.
  assert (P := wpow_pos w n ltac:(lra)).
  assert (W : w ^ n <= 1) by (change 1 with (w ^ 0); apply wpow_le; [lra | lia]).
  assert (Hf : 0 < f) by lra. assert (X4 : x <= PI / 4) by nra.
  assert (XF : x * f <= PI / 4).
  { assert (x * f <= w ^ n * (PI / 4) * f) by (apply Rmult_le_compat_r; lra). nra. }
  assert (XF0 : 0 < x * f) by nra.
  assert (T0 : 0 < tan x) by (apply tan_gt_0; lra).
  split; [| lra].
  exists (tan (x * f) / (tan x * f)). split; [field; lra |].
  assert (TF : 0 < tan x * f) by nra.
  destruct (Rle_dec f 1) as [F | F].
  - assert (A := tan_chord f x ltac:(lra) ltac:(lra)). assert (C := tan_lower f x ltac:(lra) ltac:(lra)).
    rewrite (Rmult_comm f x) in *.
    assert (Lo : f <= tan (x * f) / (tan x * f)).
    { apply Rmult_le_reg_r with (tan x * f); [exact TF |]. unfold Rdiv.
      rewrite Rmult_assoc, Rinv_l by lra. lra. }
    assert (Hi : tan (x * f) / (tan x * f) <= 1).
    { apply Rmult_le_reg_r with (tan x * f); [exact TF |]. unfold Rdiv.
      rewrite Rmult_assoc, Rinv_l by lra. lra. }
    split; [lra | apply factor_le1; lra].
  - assert (G : 0 <= / f <= 1).
    { split; [apply Rlt_le, Rinv_0_lt_compat; lra |].
      rewrite <- Rinv_1. apply Rinv_le_contravar; lra. }
    assert (A := tan_chord (/ f) (x * f) G ltac:(lra)).
    assert (C := tan_lower (/ f) (x * f) G ltac:(lra)).
    replace (/ f * (x * f)) with x in * by (field; lra).
    assert (A' : tan x * f <= tan (x * f)).
    { apply Rmult_le_reg_l with (/ f); [apply Rinv_0_lt_compat; lra |].
      replace (/ f * (tan x * f)) with (tan x) by (field; lra). exact A. }
    assert (C' : tan (x * f) <= f * (tan x * f)).
    { apply Rmult_le_reg_l with (/ f * / f); [apply Rmult_lt_0_compat; apply Rinv_0_lt_compat; lra |].
      replace (/ f * / f * (f * (tan x * f))) with (tan x) by (field; lra). exact C. }
    assert (Lo : 1 <= tan (x * f) / (tan x * f)).
    { apply Rmult_le_reg_r with (tan x * f); [exact TF |]. unfold Rdiv.
      rewrite Rmult_assoc, Rinv_l by lra. lra. }
    assert (Hi : tan (x * f) / (tan x * f) <= f).
    { apply Rmult_le_reg_r with (tan x * f); [exact TF |]. unfold Rdiv.
      rewrite Rmult_assoc, Rinv_l by lra. lra. }
    split; [apply factor_ge1; lra | nra].
Qed.

(** * Rounded operations *)
Lemma bernoulli : forall u n, 0 <= u <= 1 -> 1 - INR n * u <= (1 - u) ^ n.
Proof.
  intros u n Hu. induction n as [| n IH].
  - simpl. lra.
  - rewrite S_INR. simpl pow. assert (N := pos_INR n).
    destruct (Rle_dec 0 (1 - u)); [| lra]. nra.
Qed.

Lemma gamma_bound : forall u n, 0 <= u <= 1 -> INR n * u < 1 -> / (1 - u) ^ n - 1 <= gamma u n.
Proof.
  intros u n Hu H. unfold gamma. assert (K := bernoulli u n Hu).
  assert (A : / (1 - u) ^ n <= / (1 - INR n * u)) by (apply Rinv_le_contravar; lra).
  replace (INR n * u / (1 - INR n * u)) with (/ (1 - INR n * u) - 1) by (field; lra). lra.
Qed.

Lemma near_gamma : forall u n x' x, 0 <= u < 1 -> INR n * u < 1 -> near (1 - u) n x' x ->
  relative_error (gamma u n) x' x.
Proof.
  intros u n x' x Hu H [f [E [L U]]]. unfold relative_error.
  assert (P := wpow_pos (1 - u) n ltac:(lra)).
  replace (x' - x) with ((f - 1) * x) by (subst; ring). rewrite Rabs_mult.
  apply Rmult_le_compat_r; [apply Rabs_pos |].
  assert (B := bernoulli u n ltac:(lra)).
  assert (F : f <= / (1 - u) ^ n).
  { apply Rmult_le_reg_r with ((1 - u) ^ n); [exact P |]. rewrite Rinv_l; lra. }
  assert (G := gamma_bound u n ltac:(lra) H).
  assert (N : INR n * u <= gamma u n).
  { unfold gamma. assert (0 <= INR n * u) by (apply Rmult_le_pos; [apply pos_INR | lra]).
    apply Rmult_le_reg_r with (1 - INR n * u); [lra |].
    replace (INR n * u / (1 - INR n * u) * (1 - INR n * u)) with (INR n * u) by (field; lra). nra. }
  apply Rabs_le. split; lra.
Qed.

Lemma near_fl : forall u M n x' x, 0 <= u < 1 -> accurate u M ->
  near (1 - u) n x' x -> near (1 - u) (S n) (fl M x') x.
Proof.
  intros u M n x' x Hu [A _] H. change (S n) with (1 + n)%nat.
  apply near_trans with x'; [lra | | exact H]. apply near_error; [exact Hu | apply A].
Qed.

Lemma near_half : forall w n x' x, near w n x' x -> near w n (x' / 2) (x / 2).
Proof. intros w n x' x H. unfold Rdiv. rewrite !(Rmult_comm _ (/ 2)). apply near_scale, H. Qed.

Lemma near_sqr : forall u M n x' x, 0 <= u < 1 -> accurate u M ->
  near (1 - u) n x' x -> near (1 - u) (S (n + n)) (fsqr M x') (x * x).
Proof.
  intros. unfold fsqr. apply near_fl; auto. apply near_mul; auto. lra.
Qed.

(** the sine of a rounded half difference of two angles *)
Lemma near_half_diff : forall u M a b, 0 <= u <= 1 / 1000 -> accurate u M -> Rabs (b - a) <= 29 / 10 ->
  near (1 - u) 3 (fsin M (fl M (fl M (b - a) / 2))) (sin ((b - a) / 2)).
Proof.
  intros u M a b Hu A H.
  assert (N : near (1 - u) 2 (fl M (fl M (b - a) / 2)) ((b - a) / 2)).
  { apply near_fl; [lra | exact A |]. apply near_half. apply near_fl; [lra | exact A |]. apply near_refl. }
  change 3%nat with (1 + 2)%nat.
  eapply near_trans; [lra | |].
  - apply near_error; [lra |]. apply A.
  - apply near_sin; [lra | exact N |]. unfold Rdiv at 1. rewrite Rabs_mult.
    rewrite (Rabs_pos_eq (/ 2)) by lra. pose proof PI2_3_2.
    assert (B := bernoulli u 2 ltac:(lra)). simpl INR in B.
    apply Rle_trans with ((1 - 2 / 1000) * (3 / 2)); [lra |]. apply Rmult_le_compat; lra.
Qed.

Lemma dogleg_near : forall u M inc1 azi1 inc2 azi2, 0 <= u <= 1 / 1000 -> accurate u M ->
  mild_turn (get_dogleg inc1 azi1 inc2 azi2) inc1 azi1 inc2 azi2 ->
  near (1 - u) 16 (r_dogleg M inc1 azi1 inc2 azi2) (get_dogleg inc1 azi1 inc2 azi2).
Proof.
  intros u M i1 a1 i2 a2 Hu A [I1 [I2 [DI [DA TT]]]].
  assert (Hu1 : 0 <= u < 1) by lra. pose proof PI_RGT_0. pose proof PI2_3_2 as P32.
  unfold r_dogleg.
  set (h := sin ((i2 - i1) / 2) ^ 2 + sin i1 * sin i2 * sin ((a2 - a1) / 2) ^ 2).
  assert (Eg : get_dogleg i1 a1 i2 a2 = 2 * asin (sqrt h)) by reflexivity.
  assert (S1 : 0 <= sin i1) by (apply sin_ge_0; lra).
  assert (S2 : 0 <= sin i2) by (apply sin_ge_0; lra).
  assert (SS : 0 <= sin i1 * sin i2) by (apply Rmult_le_pos; assumption).
  assert (H0 : 0 <= h) by (unfold h; apply Rplus_le_le_0_compat; [| apply Rmult_le_pos]; try assumption; apply pow2_ge_0).
  assert (Na := near_sqr u M 3 _ _ Hu1 A (near_half_diff u M i1 i2 Hu A DI)).
  assert (Nb := near_sqr u M 3 _ _ Hu1 A (near_half_diff u M a1 a2 Hu A DA)).
  assert (N1 : near (1 - u) 1 (fsin M i1) (sin i1)) by (apply near_error; [lra | apply A]).
  assert (N2 : near (1 - u) 1 (fsin M i2) (sin i2)) by (apply near_error; [lra | apply A]).
  assert (N3 : near (1 - u) 3 (fl M (fsin M i1 * fsin M i2)) (sin i1 * sin i2)).
  { apply near_fl; auto. apply (near_mul _ 1 1); [lra | exact N1 | exact N2]. }
  assert (N4 : near (1 - u) 11
    (fl M (fl M (fsin M i1 * fsin M i2) * fsqr M (fsin M (fl M (fl M (a2 - a1) / 2)))))
    (sin i1 * sin i2 * (sin ((a2 - a1) / 2) * sin ((a2 - a1) / 2)))).
  { apply near_fl; auto. apply (near_mul _ 3 7); [lra | exact N3 | exact Nb]. }
  set (a := fsqr M (fsin M (fl M (fl M (i2 - i1) / 2)))) in *.
  set (b := fl M (fl M (fsin M i1 * fsin M i2) * fsqr M (fsin M (fl M (fl M (a2 - a1) / 2))))) in *.
  assert (N5 : near (1 - u) 12 (fl M (a + b)) h).
  { apply near_fl; auto. unfold h. apply near_add; [lra | apply pow2_ge_0 | apply Rmult_le_pos; [assumption | apply pow2_ge_0] | |].
    - apply (near_weaken _ 7); [lra | lia |]. simpl pow. rewrite Rmult_1_r. exact Na.
    - simpl pow. rewrite Rmult_1_r. exact N4. }
  assert (Hab : 0 <= fl M (a + b)).
  { destruct N5 as [f [E [L U]]]. rewrite E. apply Rmult_le_pos; [assumption |].
    assert (P := wpow_pos (1 - u) 12 ltac:(lra)). lra. }
  assert (N6 : near (1 - u) 7 (fsqrt M (fl M (a + b))) (sqrt h)).
  { apply (near_trans _ 1 6 _ (sqrt (fl M (a + b)))); [lra | |].
    - apply near_error; [lra | apply A; exact Hab].
    - apply near_sqrt; [lra | assumption | exact N5]. }
  (* the exact half angle *)
  assert (SB : sqrt h <= 1).
  { destruct (Rle_dec (sqrt h) 1) as [K | K]; [exact K |]. exfalso.
    assert (E1 : asin (sqrt h) = PI / 2).
    { unfold asin. destruct Rle_dec; [lra |]. destruct Rle_dec; [reflexivity | lra]. }
    rewrite Eg, E1 in TT. lra. }
  assert (Sq0 := sqrt_pos h).
  assert (SA : sin (asin (sqrt h)) = sqrt h) by (apply sin_asin; lra).
  assert (A0 : 0 <= asin (sqrt h)) by (apply asin_nonneg; lra).
  rewrite <- SA in N6.
  assert (W14 : 1 - 14 / 1000 <= (1 - u) ^ 14).
  { assert (B := bernoulli u 14 ltac:(lra)). simpl INR in B. lra. }
  assert (P4 : 3 / 4 <= PI / 4) by lra.
  assert (TB : asin (sqrt h) <= (1 - u) ^ (2 * 7) * (PI / 4)).
  { change (2 * 7)%nat with 14%nat. rewrite Eg in TT.
    apply Rle_trans with (7 / 10); [lra |].
    apply Rle_trans with ((1 - 14 / 1000) * (3 / 4)); [lra |].
    apply Rmult_le_compat; lra. }
  destruct (near_asin (1 - u) 7 _ _ ltac:(lra) A0 TB N6) as [N7 B7].
  rewrite Eg. apply (near_fl u M 15); auto. apply near_scale.
  apply (near_trans _ 1 14 _ (asin (fsqrt M (fl M (a + b))))); [lra | | exact N7].
  apply near_error; [lra |]. apply A. lra.
Qed.

Lemma rf_near : forall u M k d' d, 0 <= u <= 1 / 1000 -> accurate u M -> (k <= 20)%nat ->
  0 <= d <= 71 / 50 -> near (1 - u) k d' d ->
  near (1 - u) (k + 5) (r_rf M d') (get_rf d).
Proof.
  intros u M k d' d Hu A Hk Hd [f [E [L U]]].
  assert (Hu1 : 0 <= u < 1) by lra. pose proof PI_RGT_0.
  assert (P := wpow_pos (1 - u) k ltac:(lra)). assert (Hf : 0 < f) by lra.
  unfold r_rf, get_rf. destruct (Req_EM_T d 0) as [Z | NZ].
  - assert (d' = 0) by (subst; ring). destruct (Req_EM_T d' 0); [| contradiction].
    apply (near_weaken _ 0); [lra | lia | apply near_refl].
  - assert (NZ' : d' <> 0) by (subst; apply Rmult_integral_contrapositive_currified; lra).
    destruct (Req_EM_T d' 0) as [E0 | _]; [contradiction |].
    assert (P4 : 3 / 4 <= PI / 4) by (pose proof PI2_3_2; lra).
    assert (Wn : forall n, (n <= 25)%nat -> 71 / 100 <= (1 - u) ^ n * (PI / 4)).
    { intros n Hn. assert (B := bernoulli u n ltac:(lra)).
      assert (In : INR n <= 25) by (replace 25 with (INR 25) by (simpl; lra); apply le_INR; exact Hn).
      assert (N0 := pos_INR n).
      assert (INR n * u <= 25 * (1 / 1000)) by (apply Rmult_le_compat; lra).
      apply Rle_trans with ((1 - 25 / 1000) * (3 / 4)); [lra |]. apply Rmult_le_compat; lra. }
    (* the tangent of the rounded half angle *)
    assert (N1 : near (1 - u) (S k) (fl M (d' / 2)) (d / 2)).
    { apply near_fl; auto. apply near_half. exists f. auto. }
    assert (X : exists g, fl M (d' / 2) = d' / 2 * g /\ (1 - u) ^ 1 <= g /\ g * (1 - u) ^ 1 <= 1)
      by (apply near_error; [lra | apply A]).
    destruct X as [g [Eg [Lg Ug]]].
    destruct (near_tan_ratio (1 - u) k (d / 2) f ltac:(lra) ltac:(lra)) as [T1 B1]; auto.
    { apply Rle_trans with (71 / 100); [lra | apply Wn; lia]. }
    assert (D2 : d / 2 * f = d' / 2) by (subst; field).
    rewrite D2 in T1, B1.
    destruct (near_tan_ratio (1 - u) 1 (d' / 2) g ltac:(lra) ltac:(lra)) as [T2 B2]; auto.
    { (* d'/2 is at most (3/4) / w^k *)
      apply Rmult_le_reg_r with ((1 - u) ^ k); [exact P |].
      apply Rle_trans with (71 / 100).
      - rewrite <- D2. nra.
      - replace ((1 - u) ^ 1 * (PI / 4) * (1 - u) ^ k) with ((1 - u) ^ (S k) * (PI / 4)) by (simpl; ring).
        apply Wn. lia. }
    rewrite <- Eg in T2, B2.
    assert (T3 : near (1 - u) 1 (ftan M (fl M (d' / 2))) (tan (fl M (d' / 2)))).
    { apply near_error; [lra |]. apply A. lra. }
    assert (T4 : near (1 - u) 2 (tan (d' / 2) * g) (tan (d' / 2)) -> True) by auto. clear T4.
    assert (N2 : near (1 - u) 1 (fl M (2 / d')) (2 / d')) by (apply near_error; [lra | apply A]).
    assert (Tall : near (1 - u) (1 + (1 + (1 + k))) (ftan M (fl M (d' / 2))) (tan (d / 2) * f)).
    { apply (near_trans _ 1 _ _ (tan (fl M (d' / 2)))); [lra | exact T3 |].
      apply (near_trans _ 1 _ _ (tan (d' / 2) * g)); [lra | exact T2 |].
      apply (near_trans _ 1 k _ (tan (d' / 2))); [lra | | exact T1].
      exists g. auto. }
    replace (k + 5)%nat with (S (1 + (1 + (1 + (1 + k)))))%nat by lia.
    apply near_fl; auto.
    replace (2 / d * tan (d / 2)) with (2 / d' * (tan (d / 2) * f)).
    + apply near_mul; [lra | exact N2 | exact Tall].
    + subst d'. field. split; [exact NZ |]. lra.
Qed.
