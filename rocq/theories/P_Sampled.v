(** Proofs about wells between stations. *)
Require Import Reals ZArith Bool String List Lra Lia Psatz.
Require Import Verif.Base Verif.NumPy Verif.Spec Verif.M_Utils Verif.M_Survey Verif.Spec_Length Verif.Spec_Missed Verif.Spec_Sampled.
Require Import Verif.P_Trig Verif.P_Utils Verif.P_Utils2 Verif.P_Survey Verif.P_Survey2 Verif.P_Survey3 Verif.P_Survey5 Verif.P_Length Verif.P_Missed Verif.P_Round Verif.P_Round2 Verif.P_Stability.
Import ListNotations.
Local Open Scope R_scope.

(** rates that grow, or fall, at most linearly *)
Lemma grows (f f' : R -> R) a b A k : a <= b -> (forall x, a <= x <= b -> derivable_pt_lim f x (f' x)) ->
  (forall x, a <= x <= b -> f' x <= A + k * (x - a)) -> f b - f a <= A * (b - a) + k * (b - a) ^ 2 / 2.
Proof.
  intros L D B. destruct (Req_dec a b) as [->|N]; [lra|].
  set (h := fun x => f x - A * x - k * ((x - a) * (x - a)) / 2).
  assert (DH : forall x, a <= x <= b -> derivable_pt_lim h x (f' x - A - k * (x - a))).
  { intros x X. unfold h. replace (f' x - A - k * (x - a)) with (f' x - (A * 1) - (k / 2) * (1 * (x - a) + (x - a) * 1)) by field.
    apply derivable_pt_lim_minus; [apply derivable_pt_lim_minus; [apply D, X|]|].
    - apply derivable_pt_lim_scal, derivable_pt_lim_id.
    - assert (E : derivable_pt_lim (fun y => (y - a) * (y - a)) x (1 * (x - a) + (x - a) * 1)).
      { assert (D1 : derivable_pt_lim (fun y => y - a) x 1).
        { replace 1 with (1 - 0) by ring. apply derivable_pt_lim_minus; [apply derivable_pt_lim_id|apply derivable_pt_lim_const]. }
        apply (derivable_pt_lim_mult (fun y => y - a) (fun y => y - a) x 1 1 D1 D1). }
      intros eps He. destruct (derivable_pt_lim_scal _ (k / 2) _ _ E eps He) as [d Hd]. exists d. intros hh Hh Hl. specialize (Hd hh Hh Hl).
      unfold mult_real_fct in Hd. replace (k * ((x + hh - a) * (x + hh - a)) / 2 - k * ((x - a) * (x - a)) / 2) with (k / 2 * ((x + hh - a) * (x + hh - a)) - k / 2 * ((x - a) * (x - a))) by field. exact Hd. }
  destruct (MVT_cor2 h (fun x => f' x - A - k * (x - a)) a b ltac:(lra) DH) as (x & E & X).
  specialize (B x ltac:(lra)). unfold h in E.
  assert ((f' x - A - k * (x - a)) * (b - a) <= 0) by nra. nra.
Qed.
Lemma falls (f f' : R -> R) a b A k : a <= b -> (forall x, a <= x <= b -> derivable_pt_lim f x (f' x)) ->
  (forall x, a <= x <= b -> f' x <= A + k * (b - x)) -> f b - f a <= A * (b - a) + k * (b - a) ^ 2 / 2.
Proof.
  intros L D B. pose proof (grows f f' a b (A + k * (b - a)) (- k) L D) as G. 
  assert (f b - f a <= (A + k * (b - a)) * (b - a) + - k * (b - a) ^ 2 / 2).
  { apply G. intros x X. specialize (B x X). lra. }
  nra.
Qed.
Lemma sin_over x : 0 <= x -> sin x - x * cos x <= x ^ 3 / 3.
Proof.
  intros X. destruct (Req_dec x 0) as [->|N]; [rewrite sin_0; lra|].
  set (h := fun y => y ^ 3 * / 3 - sin y + y * cos y).
  assert (D : forall y, 0 <= y <= x -> derivable_pt_lim h y (y ^ 2 - y * sin y)).
  { intros y _. unfold h. replace (y ^ 2 - y * sin y) with (INR 3 * y ^ 2 * / 3 - cos y + (1 * cos y + y * - sin y)) by (simpl; field).
    apply (derivable_pt_lim_plus (fun y => y ^ 3 * / 3 - sin y) (fun y => y * cos y)).
    - apply (derivable_pt_lim_minus (fun y => y ^ 3 * / 3) sin); [|apply derivable_pt_lim_sin].
      replace (INR 3 * y ^ 2 * / 3) with (INR 3 * y ^ pred 3 * / 3 + y ^ 3 * 0) by (simpl; ring).
      apply (derivable_pt_lim_mult (fun y => y ^ 3) (fun _ => / 3)); [apply derivable_pt_lim_pow|apply derivable_pt_lim_const].
    - apply (derivable_pt_lim_mult (fun y => y) cos); [apply derivable_pt_lim_id|apply derivable_pt_lim_cos]. }
  destruct (MVT_cor2 h (fun y => y ^ 2 - y * sin y) 0 x ltac:(lra) D) as (y & E & Y). unfold h in E. rewrite sin_0 in E.
  assert (sin y <= y) by (apply sin_le_x; lra). assert (0 <= (y ^ 2 - y * sin y) * (x - 0)) by (apply Rmult_le_pos; nra). lra.
Qed.
Lemma norm_by_dots v d : 0 <= d -> (forall w, is_unit w -> dot w v <= d) -> norm v <= d.
Proof.
  intros D H. destruct (Req_dec (norm v) 0) as [Z|Z]; [lra|].
  assert (N : v <> vzero) by (intros ->; apply Z; unfold norm; replace (dot vzero vzero) with 0 by (unfold dot, vzero; simpl; ring); apply sqrt_0).
  specialize (H (vunit v) (vunit_is_unit v N)). unfold vunit in H. rewrite dot_vscale_l, <- norm_sqr in H.
  replace (/ norm v * (norm v * norm v)) with (norm v) in H by (field; exact Z). exact H.
Qed.

Section Drilled.
  Variables (c T : R -> V3) (k : R).
  Hypothesis HC : drilled c T.
  Hypothesis HT : turns_at_most k T.

  Lemma along w s : derivable_pt_lim (fun x => dot w (c x)) s (dot w (T s)).
  Proof.
    destruct (HC s) as (_ & X & Y & Z). unfold dot.
    apply (derivable_pt_lim_plus (fun x => vx w * vx (c x) + vy w * vy (c x)) (fun x => vz w * vz (c x))).
    - apply (derivable_pt_lim_plus (fun x => vx w * vx (c x)) (fun x => vy w * vy (c x))); apply derivable_pt_lim_scal; assumption.
    - apply derivable_pt_lim_scal; assumption.
  Qed.
  Lemma turned w s s' : is_unit w -> s <= s' -> Rabs (dot w (T s') - dot w (T s)) <= k * (s' - s).
  Proof.
    intros W L. destruct (HT s s' L) as (t & A & K). destruct (HC s) as (U & _). destruct (HC s') as (V & _).
    pose proof (chord_le (T s) (T s') t U V A) as C. pose proof (cauchy_schwarz w (vsub (T s') (T s))) as S.
    rewrite (norm_1 w W) in S. replace (dot w (vsub (T s') (T s))) with (dot w (T s') - dot w (T s)) in S by (unfold dot, vsub; simpl; ring). lra.
  Qed.
  (** displacement against the mean of the directions at the ends *)
  Lemma mean_displacement a b : a <= b -> norm (vsub (vsub (c b) (c a)) (vscale ((b - a) / 2) (vadd (T a) (T b)))) <= k * (b - a) ^ 2 / 4.
  Proof.
    intros L. assert (K0 : 0 <= k * (b - a)). { destruct (HT a b L) as (t & [B _] & K). lra. }
    apply norm_by_dots; [nra|]. intros w W. set (m := (a + b) / 2).
    assert (G : dot w (c m) - dot w (c a) <= dot w (T a) * (m - a) + k * (m - a) ^ 2 / 2).
    { apply (grows (fun x => dot w (c x)) (fun x => dot w (T x))); [unfold m; lra|intros; apply along|].
      intros x X. pose proof (turned w a x W ltac:(lra)) as Z. pose proof (Rle_abs (dot w (T x) - dot w (T a))). lra. }
    assert (F : dot w (c b) - dot w (c m) <= dot w (T b) * (b - m) + k * (b - m) ^ 2 / 2).
    { apply (falls (fun x => dot w (c x)) (fun x => dot w (T x))); [unfold m; lra|intros; apply along|].
      intros x X. pose proof (turned w x b W ltac:(lra)) as Z. pose proof (Rle_abs (- (dot w (T b) - dot w (T x)))) as Y. rewrite Rabs_Ropp in Y. lra. }
    replace (dot w (vsub (vsub (c b) (c a)) (vscale ((b - a) / 2) (vadd (T a) (T b)))))
      with ((dot w (c m) - dot w (c a)) + (dot w (c b) - dot w (c m)) - (b - a) / 2 * (dot w (T a) + dot w (T b))) by (unfold dot, vsub, vscale, vadd; simpl; ring).
    replace (m - a) with ((b - a) / 2) in G by (unfold m; field). replace (b - m) with ((b - a) / 2) in F by (unfold m; field).
    replace (k * (b - a) ^ 2 / 4) with (k * ((b - a) / 2) ^ 2 / 2 + k * ((b - a) / 2) ^ 2 / 2) by field. lra.
  Qed.
End Drilled.

(** the minimum curvature step against the same mean *)
Lemma step_mean a b : st_md a <= st_md b -> pair_dogleg a b < PI ->
  norm (vsub (step_between a b) (vscale ((st_md b - st_md a) / 2) (vadd (heading a) (heading b)))) <= (st_md b - st_md a) * pair_dogleg a b ^ 2 / 12.
Proof.
  intros L D. rewrite step_between_disp. unfold mc_disp. fold (heading a). fold (heading b).
  change (dir a) with (heading a). change (dir b) with (heading b).
  destruct (dogleg_angle (st_inc a) (st_azi a) (st_inc b) (st_azi b)) as [B C]. fold (pair_dogleg a b) in B, C. fold (heading a) (heading b) in C.
  set (t := pair_dogleg a b) in *. set (d := st_md b - st_md a). assert (D0 : 0 <= d) by (unfold d; lra).
  assert (R1 : 1 <= get_rf t) by (apply rf_ge_1; lra).
  replace (vsub (vscale (d * get_rf t / 2) (vadd (heading a) (heading b))) (vscale (d / 2) (vadd (heading a) (heading b))))
    with (vscale (d * (get_rf t - 1) / 2) (vadd (heading a) (heading b))).
  2:{ generalize (vadd (heading a) (heading b)). intros []. unfold vscale, vsub. simpl. f_equal; field. }
  rewrite norm_vscale, Rabs_pos_eq by nra.
  assert (N : norm (vadd (heading a) (heading b)) = 2 * cos (t / 2)).
  { assert (0 <= cos (t / 2)) by (apply cos_ge_0; lra). apply norm_from_sqr; [lra|].
    pose proof (direction_unit (st_inc a) (st_azi a)) as U. pose proof (direction_unit (st_inc b) (st_azi b)) as V. fold (heading a) in U. fold (heading b) in V. unfold is_unit in U, V.
    replace (dot (vadd (heading a) (heading b)) (vadd (heading a) (heading b))) with (dot (heading a) (heading a) + dot (heading b) (heading b) + 2 * dot (heading a) (heading b)) by (unfold dot, vadd; simpl; ring).
    rewrite U, V, <- C. replace t with (2 * (t / 2)) at 1 by field. rewrite cos_2a_cos. ring. }
  rewrite N. unfold get_rf in *. destruct (Req_EM_T t 0) as [Z|Z].
  { rewrite Z. replace ((1 - 1) : R) with 0 by ring. nra. }
  assert (CP : 0 < cos (t / 2)) by (apply cos_gt_0; lra).
  set (x := t / 2) in *. replace t with (2 * x) in * by (unfold x; field).
  assert (X : 0 < x) by lra. pose proof (sin_over x ltac:(lra)) as S. unfold tan.
  replace (d * (2 / (2 * x) * (sin x / cos x) - 1) / 2 * (2 * cos x)) with (d * ((sin x - x * cos x) / x)) by (field; lra).
  replace (d * (2 * x) ^ 2 / 12) with (d * (x ^ 2 / 3)) by field. apply Rmult_le_compat_l; [exact D0|].
  apply (Rmult_le_reg_r x); [exact X|]. replace ((sin x - x * cos x) / x * x) with (sin x - x * cos x) by (field; lra). replace (x ^ 2 / 3 * x) with (x ^ 3 / 3) by field. exact S.
Qed.
Lemma angle_same u v s t : angle_between u v s -> angle_between u v t -> s = t.
Proof. apply angle_between_unique. Qed.
Lemma sampled : forall sv c T k g i a p, surveyed sv -> spacing sv g -> drilled c T -> turns_at_most k T -> measures sv c T -> k * g < PI ->
  nth_error (sv_rows sv) i = Some a -> nth_error (sv_nev sv) i = Some p -> forall a0, nth_error (sv_rows sv) 0 = Some a0 ->
  dist p (c (st_md a)) <= (st_md a - st_md a0) * (k * g / 4 + (k * g) ^ 2 / 12).
Proof.
  intros sv c T k g i a p HS SP HC HT [M0 M1] KG A P a0 A0. revert a p A P.
  induction i as [|i IH]; intros a p A P.
  - assert (a = a0) by congruence. subst a0. rewrite (M0 a p A P). unfold dist. replace (vsub (c (st_md a)) (c (st_md a))) with vzero by (unfold vsub, vzero; f_equal; ring).
    unfold norm. replace (dot vzero vzero) with 0 by (unfold dot, vzero; simpl; ring). rewrite sqrt_0. lra.
  - destruct (nth_before (sv_rows sv) i (S i) a) as [b B]; [lia|exact A|]. destruct (nth_before (sv_nev sv) i (S i) p) as [q Q]; [lia|exact P|].
    specialize (IH b q B Q). pose proof (sd_path sv HS) as [_ W]. rewrite (W i b a q p B A Q P).
    destruct (end_of sv HS i b a q p B A Q P) as (D & L & _). pose proof (SP i b a B A) as G. set (d := st_md a - st_md b) in *.
    destruct (HT (st_md b) (st_md a) ltac:(unfold d in *; lra)) as (t & AN & TK). fold d in TK.
    rewrite <- (M1 i b B), <- (M1 (S i) a A) in AN. assert (ET : pair_dogleg b a = t) by (apply (angle_same (heading b) (heading a)); [apply dogleg_angle|exact AN]).
    pose proof (step_mean b a ltac:(unfold d in *; lra) D) as S1. pose proof (mean_displacement c T k HC HT (st_md b) (st_md a) ltac:(unfold d in *; lra)) as S2.
    rewrite <- (M1 i b B), <- (M1 (S i) a A) in S2. fold d in S1, S2. rewrite ET in S1.
    set (mean := vscale (d / 2) (vadd (heading b) (heading a))) in *.
    assert (TR : dist (vadd q (step_between b a)) (c (st_md a)) <= dist q (c (st_md b)) + norm (vsub (step_between b a) mean) + norm (vsub (vsub (c (st_md a)) (c (st_md b))) mean)).
    { pose proof (norm_triangle (vsub q (c (st_md b))) (vsub (step_between b a) mean)) as T1.
      pose proof (norm_triangle (vadd (vsub q (c (st_md b))) (vsub (step_between b a) mean)) (vsub mean (vsub (c (st_md a)) (c (st_md b))))) as T2.
      replace (norm (vsub mean (vsub (c (st_md a)) (c (st_md b))))) with (norm (vsub (vsub (c (st_md a)) (c (st_md b))) mean)) in T2
        by (exact (dist_swap (vsub (c (st_md a)) (c (st_md b))) mean)).
      unfold dist. replace (vsub (vadd q (step_between b a)) (c (st_md a)))
        with (vadd (vadd (vsub q (c (st_md b))) (vsub (step_between b a) mean)) (vsub mean (vsub (c (st_md a)) (c (st_md b))))); [lra|].
      generalize (step_between b a) mean (c (st_md a)) (c (st_md b)). intros u1 u2 u3 u4. unfold vadd, vsub. simpl. f_equal; ring. }
    assert (T0 : 0 <= t) by (destruct AN as [[? _] _]; assumption).
    assert (K0 : 0 <= k) by nra. assert (KD : k * d <= k * g) by (apply Rmult_le_compat_l; assumption).
    assert (B1 : d * t ^ 2 / 12 <= d * ((k * g) ^ 2 / 12)).
    { assert (t ^ 2 <= (k * g) ^ 2) by (apply pow_incr; lra). nra. }
    assert (B2 : k * d ^ 2 / 4 <= d * (k * g / 4)) by nra.
    replace (st_md a - st_md a0) with ((st_md b - st_md a0) + d) by (unfold d; ring). lra.
Qed.
