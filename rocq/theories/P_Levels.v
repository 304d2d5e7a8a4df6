(** The root chosen by the depth query, and points of an arc. *)
Require Import Reals ZArith Bool String List Lra Lia Psatz.
Require Import Verif.Base Verif.NumPy Verif.P_Trig Verif.Spec Verif.Spec_Lists Verif.M_Utils
  Verif.P_Utils Verif.P_Utils2 Verif.P_Utils3 Verif.M_Survey Verif.P_Survey Verif.P_Survey2
  Verif.P_Survey3 Verif.P_Survey4 Verif.P_Tvd.
Import ListNotations.
Open Scope R_scope.

(** an angle in [0, PI) is found by the half-angle formula with one of the signs *)
Lemma half_angle_found : forall a b c d, b + c <> 0 -> 0 <= d < PI -> a * sin d + b * cos d = c ->
  0 <= a * a + b * b - c * c /\
  let s := sqrt (a * a + b * b - c * c) in
  d = tidy_up_angle (2 * arctan2 (a + s) (b + c)) \/ d = tidy_up_angle (2 * arctan2 (a - s) (b + c)).
Proof.
  intros a b c d NZ D E.
  assert (CH : 0 < cos (d / 2)) by (apply cos_gt_0; lra).
  set (t := tan (d / 2)).
  assert (Q : (b + c) * t * t - 2 * a * t + (c - b) = 0).
  { assert (X : cos (d/2) * cos (d/2) * ((b + c) * t * t - 2 * a * t + (c - b)) = 0).
    { unfold t, tan.
      replace (cos (d/2) * cos (d/2) * ((b + c) * (sin (d/2) / cos (d/2)) * (sin (d/2) / cos (d/2))
        - 2 * a * (sin (d/2) / cos (d/2)) + (c - b)))
        with (c * (sin (d/2) * sin (d/2) + cos (d/2) * cos (d/2))
              - b * (cos (d/2) * cos (d/2) - sin (d/2) * sin (d/2)) - a * (2 * sin (d/2) * cos (d/2))) by (field; lra).
      pose proof (sin2_cos2 (d/2)) as SC. unfold Rsqr in SC. rewrite SC.
      rewrite <- sin_2a, <- cos_2a. replace (2 * (d/2)) with d by field. lra. }
    apply Rmult_integral in X. destruct X as [X|X]; [|exact X]. nra. }
  assert (S2 : a * a + b * b - c * c = ((b + c) * t - a) * ((b + c) * t - a)).
  { replace (((b + c) * t - a) * ((b + c) * t - a)) with
      ((b + c) * ((b + c) * t * t - 2 * a * t + (c - b)) + a * a + b * b - c * c) by ring. rewrite Q. ring. }
  split; [rewrite S2; apply Rle_0_sqr|]. intro s.
  assert (KEY : forall y, y = (b + c) * t -> d = tidy_up_angle (2 * arctan2 y (b + c))).
  { intros y ->. destruct (arctan2_cos_sin ((b + c) * t) (b + c)) as [C SI].
    set (phi := arctan2 ((b + c) * t) (b + c)) in *.
    set (r := sqrt ((b + c) * (b + c) + (b + c) * t * ((b + c) * t))) in *.
    assert (Hr : 0 < r) by (apply hyp_pos; left; exact NZ).
    pose proof (arctan2_bounds ((b + c) * t) (b + c)) as PR. fold phi in PR.
    assert (SZ : sin (phi - d / 2) = 0).
    { rewrite sin_minus. apply Rmult_eq_reg_l with r; [|lra]. rewrite Rmult_0_r.
      replace (r * (sin phi * cos (d/2) - cos phi * sin (d/2))) with ((r * sin phi) * cos (d/2) - (r * cos phi) * sin (d/2)) by ring.
      rewrite C, SI. unfold t, tan. field. lra. }
    pose proof PI_RGT_0 as PP.
    assert (CASES : phi = d / 2 \/ phi = d / 2 - PI \/ (d = 0 /\ phi = PI)).
    { destruct (Rtotal_order (phi - d / 2) 0) as [N|[N|N]].
      - right. left. destruct (Rtotal_order (phi - d/2) (- PI)) as [M|[M|M]]; [|lra|].
        + exfalso. assert (0 < sin (phi - d/2)); [|lra].
          replace (phi - d/2) with (- (- (phi - d / 2))) by ring. rewrite sin_neg.
          assert (sin (- (phi - d/2)) < 0); [|lra]. apply sin_lt_0; lra.
        + exfalso. assert (0 < sin (- (phi - d/2))) by (apply sin_gt_0; lra). rewrite sin_neg in H. lra.
      - left. lra.
      - destruct (Rtotal_order (phi - d/2) PI) as [M|[M|M]]; [|right; right; lra|lra].
        exfalso. assert (0 < sin (phi - d/2)) by (apply sin_gt_0; lra). lra. }
    unfold tidy_up_angle. destruct CASES as [-> | [-> | [D00 ->]]].
    - replace (2 * (d/2)) with d by field. rewrite Rabs_pos_eq by lra. destruct (Rlt_dec PI d); lra.
    - replace (2 * (d/2 - PI)) with (d - 2 * PI) by field.
      rewrite Rabs_left by lra. destruct (Rlt_dec PI (- (d - 2 * PI))); [|lra].
      symmetry. apply rmod_unique with (-1)%Z; [lra| |]; simpl; lra.
    - rewrite D00. rewrite Rabs_pos_eq by lra. destruct (Rlt_dec PI (2 * PI)); [|lra].
      symmetry. apply rmod_unique with 1%Z; [lra| |]; simpl; lra. }
  assert (SA : s = Rabs ((b + c) * t - a)).
  { unfold s. rewrite S2. apply sqrt_Rsqr_abs. }
  unfold Rabs in SA. destruct (Rcase_abs ((b + c) * t - a)).
  - right. apply KEY. lra.
  - left. apply KEY. lra.
Qed.
(** the query returns the first angle at which the equation holds *)
Lemma tvd_angle_first : forall k u v th dl z d0, (k = 1 \/ k = -1) ->
  let b := u * cos th - v in let c := z * th * sin th / dl + b in
  b + c <> 0 -> 0 <= d0 < PI -> u * sin th * sin d0 + b * cos d0 = c ->
  exists d, tvd_angle k u v th dl z = Some d /\ 0 <= d <= d0 /\
    u * sin th * sin d + b * cos d = c /\
    forall e, 0 <= e < d -> u * sin th * sin e + b * cos e <> c.
Proof.
  intros k u v th dl z d0 Hk b c NZ D0 E0. unfold tvd_angle.
  set (a1 := k * u * sin th). set (b1 := k * u * cos th - k * v). set (c1 := k * z * th * sin th / dl + b1).
  assert (B1 : b1 = k * b) by (unfold b1, b; ring).
  assert (C1 : c1 = k * c) by (unfold c1, c; rewrite B1; unfold Rdiv; ring).
  assert (NZ1 : b1 + c1 <> 0) by (rewrite B1, C1; destruct Hk as [-> | ->]; lra).
  assert (EQ : forall e, u * sin th * sin e + b * cos e = c <-> a1 * sin e + b1 * cos e = c1).
  { intro e. unfold a1. rewrite B1, C1. destruct Hk as [-> | ->]; lra. }
  replace (a1 ^ 2 + b1 ^ 2 - c1 ^ 2) with (a1 * a1 + b1 * b1 - c1 * c1) by ring.
  set (s := sqrt (a1 * a1 + b1 * b1 - c1 * c1)).
  assert (F : forall e, 0 <= e < PI -> a1 * sin e + b1 * cos e = c1 ->
     e = tidy_up_angle (2 * arctan2 (a1 + s) (b1 + c1)) \/ e = tidy_up_angle (2 * arctan2 (a1 - s) (b1 + c1))).
  { intros e He Ee. exact (proj2 (half_angle_found a1 b1 c1 e NZ1 He Ee)). }
  assert (DP : 0 <= a1 * a1 + b1 * b1 - c1 * c1).
  { exact (proj1 (half_angle_found a1 b1 c1 d0 NZ1 D0 (proj1 (EQ d0) E0))). }
  assert (SS : s * s = a1 * a1 + b1 * b1 - c1 * c1) by (apply sqrt_sqrt; auto).
  destruct (Rlt_dec _ 0) as [|_]; [lra|].
  set (d1 := tidy_up_angle (2 * arctan2 (a1 + s) (b1 + c1))) in *.
  set (d2 := tidy_up_angle (2 * arctan2 (a1 - s) (b1 + c1))) in *.
  assert (E1 : a1 * sin d1 + b1 * cos d1 = c1).
  { unfold d1. destruct (tidy_cos_sin (2 * arctan2 (a1 + s) (b1 + c1))) as [-> ->].
    apply half_angle_root; auto. }
  assert (E2 : a1 * sin d2 + b1 * cos d2 = c1).
  { unfold d2. destruct (tidy_cos_sin (2 * arctan2 (a1 - s) (b1 + c1))) as [-> ->].
    apply (half_angle_root a1 b1 c1 (- s)); auto. lra. }
  assert (R : exists d, (if Rlt_dec d1 0 then if Rlt_dec d2 0 then None else Some d2
      else if Rlt_dec d2 0 then Some d1 else Some (Rmin d1 d2)) = Some d /\ (d = d1 \/ d = d2) /\ 0 <= d /\
      (0 <= d1 -> d <= d1) /\ (0 <= d2 -> d <= d2)).
  { pose proof (F d0 D0 (proj1 (EQ d0) E0)) as F0.
    destruct (Rlt_dec d1 0); destruct (Rlt_dec d2 0).
    - exfalso. lra.
    - exists d2. split; [reflexivity|]. split; [auto|]. lra.
    - exists d1. split; [reflexivity|]. split; [auto|]. lra.
    - exists (Rmin d1 d2). split; [reflexivity|]. unfold Rmin. destruct (Rle_dec d1 d2); (split; [auto|lra]). }
  destruct R as (d & RE & W & P0 & L1 & L2). exists d. split; [exact RE|].
  split; [|split].
  - split; [exact P0|]. destruct (F d0 D0 (proj1 (EQ d0) E0)) as [X|X]; rewrite X; [apply L1|apply L2]; lra.
  - apply EQ. destruct W as [-> | ->]; auto.
  - intros e He Ee. apply EQ in Ee.
    assert (DD : d <= d0).
    { destruct (F d0 D0 (proj1 (EQ d0) E0)) as [X|X]; rewrite X; [apply L1|apply L2]; lra. }
    destruct (F e ltac:(lra) Ee) as [X|X]; [assert (d <= d1) by (apply L1; lra)|assert (d <= d2) by (apply L2; lra)]; lra.
Qed.

(** ** points of a leg in closed form *)
Definition leg_pos (p : V3) (a b : station) (x : R) : V3 := interpolate_pos_nev p a b x.
Definition leg_dir (a b : station) (x : R) : V3 := dir (interp_station a b x).
Lemma leg_dir_arc : forall a b x, 0 < pair_dogleg a b < PI ->
  leg_dir a b x = arc_tangent (dir a) (bend_normal (dir a) (dir b) (pair_dogleg a b))
      (x * (pair_dogleg a b / (st_md b - st_md a))).
Proof. intros. apply dir_interp. auto. Qed.
Lemma leg_pos_arc : forall p a b x, 0 < pair_dogleg a b < PI -> 0 < st_md b - st_md a ->
  0 <= x <= st_md b - st_md a ->
  let th := pair_dogleg a b in let dl := st_md b - st_md a in
  leg_pos p a b x = arc_point p (dir a) (bend_normal (dir a) (dir b) th) (dl / th) (x * (th / dl)).
Proof.
  intros p a b x Ht Hm Hx th dl. unfold leg_pos, arc_point. rewrite interpolate_pos_nev_step. f_equal.
  set (d := x * (th / dl)).
  rewrite step_between_disp, md_interp.
  destruct (interp_doglegs a b x Ht Hm Hx) as [E _]. rewrite E, (dir_interp a b x Ht).
  fold th dl. fold d.
  destruct (bend_normal_spec (dir a) (dir b) th) as [U [O _]]; try apply direction_unit; auto.
  { destruct (dogleg_angle (st_inc a) (st_azi a) (st_inc b) (st_azi b)) as [_ Q]. exact Q. }
  assert (th <> 0) by (unfold th; lra). assert (dl <> 0) by (unfold dl; lra).
  replace (st_md a + x - st_md a) with (dl / th * d) by (unfold d; field; split; auto).
  apply mc_disp_radial; auto. apply direction_unit.
  assert (0 < th / dl) by (apply Rdiv_lt_0_compat; unfold th, dl; lra).
  split. unfold d; nra.
  apply Rle_lt_trans with th; [|unfold th; lra].
  unfold d. replace th with (dl * (th/dl)) at 2 by (field; auto). apply Rmult_le_compat_r; unfold dl in *; lra.
Qed.
Lemma leg_dir_straight : forall a b x, pair_dogleg a b = 0 -> leg_dir a b x = dir a.
Proof.
  intros a b x H. unfold leg_dir, interp_station, interp_angles. destruct (Req_EM_T (pair_dogleg a b) 0); [reflexivity|contradiction].
Qed.
Lemma leg_pos_straight : forall p a b x, pair_dogleg a b = 0 -> leg_pos p a b x = vadd p (vscale x (dir a)).
Proof.
  intros p a b x H. unfold leg_pos, interpolate_pos_nev, interp_angles.
  destruct (Req_EM_T (pair_dogleg a b) 0); [|contradiction].
  rewrite step_straight. reflexivity. apply dogleg_0_iff. reflexivity.
Qed.
