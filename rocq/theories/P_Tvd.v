(** Proofs about interpolate_tvd. *)
Require Import Reals Lra Psatz ZArith String List.
Require Import Verif.Base Verif.NumPy Verif.P_Trig Verif.Spec Verif.Spec_Lists Verif.M_Utils
  Verif.P_Utils Verif.P_Utils2 Verif.P_Utils3 Verif.M_Survey Verif.P_Survey Verif.P_Survey2
  Verif.P_Survey3 Verif.P_Survey4.
Import ListNotations.
Open Scope R_scope.

Lemma tidy_cos_sin : forall d, cos (tidy_up_angle d) = cos d /\ sin (tidy_up_angle d) = sin d.
Proof.
  intro d. unfold tidy_up_angle. destruct (Rlt_dec PI (Rabs d)); auto.
  rewrite cos_rmod, sin_rmod. auto.
Qed.

(** 2*arctan2(num, den) solves a sin d + b cos d = c *)
Lemma half_angle_root : forall a b c s, s * s = a * a + b * b - c * c -> b + c <> 0 ->
  let d := 2 * arctan2 (a + s) (b + c) in a * sin d + b * cos d = c.
Proof.
  intros a b c s Hs Hn d.
  set (y := a + s). set (x := b + c).
  destruct (arctan2_cos_sin y x) as [C S].
  set (phi := arctan2 y x) in *. set (r := sqrt (x * x + y * y)) in *.
  assert (Hr : 0 < r) by (apply hyp_pos; left; exact Hn).
  assert (Rr : r * r = x * x + y * y) by (apply sqrt_sqrt; nra).
  unfold d. fold y x phi. rewrite sin_2a, cos_2a.
  assert (E : (a * (2 * (r * sin phi) * (r * cos phi)) + b * ((r * cos phi) * (r * cos phi) - (r * sin phi) * (r * sin phi))
     = c * (r * r))).
  { rewrite C, S, Rr. unfold x, y.
    replace (s * s) with (a * a + b * b - c * c) by auto.
    assert (Q : (a + s) * (a + s) = 2 * a * a + b * b - c * c + 2 * a * s) by (ring_simplify; replace (s^2) with (s*s) by ring; rewrite Hs; ring).
    rewrite Q. ring. }
  apply Rmult_eq_reg_r with (r * r); [|nra]. rewrite <- E. ring.
Qed.

Lemma tvd_angle_root : forall k u v th dl z d, (k = 1 \/ k = -1) ->
  let b := k * u * cos th - k * v in
  let c := k * z * th * sin th / dl + b in
  b + c <> 0 -> tvd_angle k u v th dl z = Some d ->
  0 <= d /\ u * sin th * sin d + (u * cos th - v) * cos d = z * th * sin th / dl + (u * cos th - v).
Proof.
  intros k u v th dl z d Hk b c Hn H. unfold tvd_angle in H. fold b in H. fold c in H.
  set (a := k * u * sin th) in *.
  destruct (Rlt_dec (a ^ 2 + b ^ 2 - c ^ 2) 0) as [|Hd]; [discriminate|].
  set (s := sqrt (a ^ 2 + b ^ 2 - c ^ 2)) in *.
  assert (Hs : s * s = a * a + b * b - c * c) by (unfold s; rewrite sqrt_sqrt; lra).
  set (d1 := tidy_up_angle (2 * arctan2 (a + s) (b + c))) in *.
  set (d2 := tidy_up_angle (2 * arctan2 (a - s) (b + c))) in *.
  assert (E1 : a * sin d1 + b * cos d1 = c).
  { unfold d1. destruct (tidy_cos_sin (2 * arctan2 (a + s) (b + c))) as [-> ->].
    apply half_angle_root; auto. }
  assert (E2 : a * sin d2 + b * cos d2 = c).
  { unfold d2. destruct (tidy_cos_sin (2 * arctan2 (a - s) (b + c))) as [-> ->].
    apply (half_angle_root a b c (- s)); auto. lra. }
  assert (F : 0 <= d /\ a * sin d + b * cos d = c).
  { destruct (Rlt_dec d1 0); [destruct (Rlt_dec d2 0); [discriminate|] | destruct (Rlt_dec d2 0)];
    injection H; intros; subst d; try (split; [lra|assumption]).
    unfold Rmin. destruct (Rle_dec d1 d2); split; auto; lra. }
  destruct F as [F1 F2]. split; auto. unfold c, b, a in F2. clear - F2 Hk.
  destruct Hk; subst k; unfold Rdiv in *; lra.
Qed.

(** height of the interpolated point on the arc *)
Lemma interp_height : forall p a b x, 0 < pair_dogleg a b < PI -> 0 < st_md b - st_md a ->
  0 <= x <= st_md b - st_md a ->
  let th := pair_dogleg a b in let dl := st_md b - st_md a in let d := x * (th / dl) in
  vz (interpolate_pos_nev p a b x) = vz p + dl / th * (sin d * vz (dir a) + (1 - cos d) * ((vz (dir b) - cos th * vz (dir a)) / sin th)).
Proof.
  intros p a b x Ht Hm Hx th dl d.
  rewrite interpolate_pos_nev_step.
  assert (D : step_between a (interp_station a b x) =
     vadd (vscale (dl/th * sin d) (dir a)) (vscale (dl/th * (1 - cos d)) (bend_normal (dir a) (dir b) th))).
  { rewrite step_between_disp, md_interp.
    destruct (interp_doglegs a b x Ht Hm Hx) as [E _]. rewrite E, (dir_interp a b x Ht).
    fold th dl. fold d.
    destruct (bend_normal_spec (dir a) (dir b) th) as [U [O _]]; try apply direction_unit; auto.
    { destruct (dogleg_angle (st_inc a) (st_azi a) (st_inc b) (st_azi b)) as [_ Q]. exact Q. }
    assert (th <> 0) by (unfold th; lra). assert (dl <> 0) by (unfold dl; lra).
    replace (st_md a + x - st_md a) with (dl / th * d) by (unfold d; field; split; auto).
    apply mc_disp_radial; auto. apply direction_unit.
    assert (0 < th / dl) by (apply Rdiv_lt_0_compat; unfold th, dl; lra).
    split. unfold d; nra.
    apply Rle_lt_trans with th; [|unfold th; lra].
    unfold d. replace th with (dl * (th/dl)) at 2 by (field; auto). apply Rmult_le_compat_r; unfold dl in *; lra. }
  rewrite D. unfold bend_normal. destruct (dir a), (dir b), p. unf. 
  assert (sin th <> 0) by (apply Rgt_not_eq, sin_gt_0; unfold th; lra). 
  field. split; auto. unfold th; lra.
Qed.

Lemma straight_height : forall p a b x, pair_dogleg a b = 0 ->
  vz (interpolate_pos_nev p a b x) = vz p + x * vz (dir a).
Proof.
  intros p a b x H. unfold interpolate_pos_nev, interp_angles.
  destruct (Req_EM_T (pair_dogleg a b) 0); [|contradiction].
  rewrite step_straight. destruct p; reflexivity. apply dogleg_0_iff. reflexivity.
Qed.

(** the interval used by the query and its far point: see tvd_query_spec *)
Lemma tvd_query_spec : forall h rows deg sx sn unit s tvd n h',
  Survey h rows deg sx sn unit = Some s ->
  strictly_increasing (map st_md (sv_rows s)) ->
  interpolate_tvd s tvd = TvdOk n h' ->
  exists k a b p, nth_error (sv_rows s) k = Some a /\ nth_error (sv_rows s) (S k) = Some b /\
    nth_error (sv_nev s) k = Some p /\
    let th := pair_dogleg a b in let dl := st_md b - st_md a in
    (th < PI ->
     ~ (0 < th /\ tvd = vz (arc_point p (dir a) (bend_normal (dir a) (dir b) th) (dl / th) PI)) ->
     vz (nd_pos n) = tvd /\ (0 < th -> st_md a <= nd_md n <= st_md b) /\
     nd_pos n = interpolate_pos_nev p a b (nd_md n - st_md a) /\
     nd_vec n = dir (interp_station a b (nd_md n - st_md a)) /\
     (nd_interp n = true <-> st_md a < nd_md n)).
Proof.
  intros h rows deg sx sn unit s tvd n h' HS Hi H.
  unfold interpolate_tvd in H.
  set (tvds := map vz (sv_nev s)) in *.
  destruct (if (np_searchsorted_right tvds tvd =? length tvds)%nat then (length tvds - 2, 1)%nat
            else match np_searchsorted_right tvds tvd with
                 | 0%nat => (length tvds - 2, 0)%nat | S i => (i, 1)%nat end) as [k co] eqn:EI.
  set (kf := match co with O => -1 | S _ => 1 end) in *.
  assert (Hk : kf = 1 \/ kf = -1) by (unfold kf; destruct co; auto).
  destruct (nth_error (sv_rows s) k) as [a|] eqn:A; [|discriminate].
  destruct (nth_error (sv_rows s) (S k)) as [b|] eqn:B; [|discriminate].
  destruct (nth_error (sv_nev s) k) as [p|] eqn:P; [|discriminate].
  destruct (nth_error (sv_nev s) (S k)) as [q|] eqn:Q; [|discriminate].
  exists k, a, b, p. split; auto. split; auto. split; auto. intros th dl Ht Hfar.
  assert (Hm : 0 < dl) by (unfold dl; eapply (md_step_pos s Hi); eauto).
  assert (Hz : vz q = vz p + vz (step_between a b)).
  { rewrite (Survey_nev_step _ _ _ _ _ _ _ _ _ _ _ _ HS A B P Q). destruct p; reflexivity. }
  destruct (dogleg_angle (st_inc a) (st_azi a) (st_inc b) (st_azi b)) as [[T0 _] _].
  change (0 <= th) in T0.
  assert (FIN : forall x, match interpolate_at s x k with
        | None => TvdError
        | Some (r, h) => match node_of r with
            | None => TvdError
            | Some n => TvdOk (mkNode (nd_md n) (nd_pos n) (nd_vec n) (if Rlt_dec 0 x then true else false)) h
            end end = TvdOk n h' ->
     nd_md n = st_md a + x /\ nd_pos n = interpolate_pos_nev p a b x /\
     nd_vec n = dir (interp_station a b x) /\ (nd_interp n = true <-> 0 < x)).
  { intros x F. destruct (Survey_xyz_len _ _ _ _ _ _ _ HS) as [LX LN].
    destruct (nth_error_some_lt _ (sv_xyz s) k) as [xyz X].
    { rewrite LX. apply nth_error_Some. congruence. }
    destruct (interpolate_at_node s x k a b xyz p A B X P (depth_unit_ok _ _ _ _ _ _ _ HS))
      as (r & h0 & n0 & E1 & E2 & _ & M & PP & V & _).
    rewrite E1, E2 in F. injection F; intros; subst n; simpl.
    repeat split; auto; destruct (Rlt_dec 0 x); intros; auto; try discriminate; contradiction. }
  destruct (Req_EM_T (pair_dogleg a b) 0) as [Z|NZ].
  - destruct (Req_EM_T (vz q) (vz p)); [discriminate|].
    apply FIN in H. destruct H as [M [PP [V F]]].
    assert (VZ : vz q - vz p = dl * vz (dir a)).
    { rewrite Hz, step_straight' by auto. unfold dl. generalize (dir a). intros []; simpl. ring. }
    split; [|split; [|split; [|split]]].
    + rewrite PP, straight_height by auto. rewrite VZ. fold dl.
      assert (vz (dir a) <> 0) by (intro E; rewrite E in VZ; lra). field. split; lra.
    + unfold th. rewrite Z. lra.
    + rewrite M. replace (st_md a + _ - st_md a) with ((tvd - vz p) / (vz q - vz p) * (st_md b - st_md a)) by ring. auto.
    + rewrite M. replace (st_md a + _ - st_md a) with ((tvd - vz p) / (vz q - vz p) * (st_md b - st_md a)) by ring. auto.
    + rewrite F, M. split; lra.
  - assert (Hp : 0 < th) by (unfold th in *; lra).
    rewrite !get_vec_spec in H by lra.
    change (direction_nev (st_inc a) (st_azi a)) with (dir a) in H.
    change (direction_nev (st_inc b) (st_azi b)) with (dir b) in H.
    fold th dl in H.
    destruct (tvd_angle kf (vz (dir a)) (vz (dir b)) th dl (tvd - vz p)) as [d|] eqn:E; [|discriminate].
    destruct (Rle_dec (d / th * dl) dl) as [Hle|]; [|discriminate].
    apply FIN in H. destruct H as [M [PP [V F]]].
    assert (Hs : 0 < sin th) by (apply sin_gt_0; lra).
    apply tvd_angle_root in E; auto.
    + destruct E as [D0 E].
      assert (Hx : 0 <= d / th * dl <= dl).
      { split; auto. apply Rmult_le_pos; [|lra]. apply Rle_mult_inv_pos; lra. }
      split; [|split; [|split; [|split]]].
      * rewrite PP. rewrite interp_height by (auto; fold th dl; lra). fold th dl.
        replace (d / th * dl * (th / dl)) with d by (field; split; lra).
        assert (G : sin th * (sin d * vz (dir a) + (1 - cos d) * ((vz (dir b) - cos th * vz (dir a)) / sin th))
            = (tvd - vz p) * th * sin th / dl).
        { transitivity (vz (dir a) * sin th * sin d + (1 - cos d) * (vz (dir b) - cos th * vz (dir a))).
          - field. lra.
          - lra. }
        assert (G2 : sin d * vz (dir a) + (1 - cos d) * ((vz (dir b) - cos th * vz (dir a)) / sin th)
           = (tvd - vz p) * th / dl).
        { apply Rmult_eq_reg_l with (sin th); [|lra]. rewrite G. unfold Rdiv. ring. }
        rewrite G2. field. split; lra.
      * intros _. rewrite M. unfold dl in *. lra.
      * rewrite M. replace (st_md a + d / th * dl - st_md a) with (d / th * dl) by ring. auto.
      * rewrite M. replace (st_md a + d / th * dl - st_md a) with (d / th * dl) by ring. auto.
      * rewrite F, M. split; lra.
    + intro Z. apply Hfar. split; auto.
      unfold arc_point, bend_normal. rewrite sin_PI, cos_PI.
      assert (G : (tvd - vz p) * th * sin th / dl = 2 * (vz (dir b) - cos th * vz (dir a))).
      { destruct Hk as [K|K]; rewrite K in Z; unfold Rdiv in *; lra. }
      assert (G2 : tvd - vz p = 2 * (vz (dir b) - cos th * vz (dir a)) * dl / (th * sin th)).
      { rewrite <- G. field. repeat split; lra. }
      replace tvd with (vz p + (tvd - vz p)) by ring. rewrite G2. clear.
      destruct p, (dir a), (dir b). unf. unfold Rdiv. rewrite Rinv_mult. ring.
Qed.

(** ** a depth query that returns the wrong depth *)
Definition bad_rows : list row := [(0, PI/4, 0); (100, PI/4, PI)].
Definition bad_header : header := mkHeader RefGrid 0 0 1 None "meters".
Lemma bad_dogleg : get_dogleg (PI/4) 0 (PI/4) PI = PI/2.
Proof.
  pose proof PI_RGT_0. apply dogleg_is. lra.
  rewrite direction_dot, Rminus_0_r, cos_PI, cos_PI2.
  pose proof (sin_cos_PI4) as E. rewrite E. ring.
Qed.
Definition bad_depth : R := 400 / PI * cos (PI/4).
Lemma bad_step : vz (min_curve_step 100 (PI/4) 0 (PI/4) PI) = bad_depth.
Proof.
  unfold min_curve_step. rewrite bad_dogleg. pose proof PI_RGT_0.
  unfold get_rf. destruct (Req_EM_T (PI/2) 0); [lra|].
  replace (PI/2/2) with (PI/4) by field. rewrite tan_PI4. unfold min_curve_step_rf, bad_depth. simpl. field. lra.
Qed.
Lemma bad_angle : tvd_angle 1 (cos (PI/4)) (cos (PI/4)) (PI/2) 100 bad_depth = Some 0.
Proof.
  pose proof PI_RGT_0. assert (C : 0 < cos (PI/4)) by (apply cos_gt_0; lra).
  unfold tvd_angle. rewrite sin_PI2, cos_PI2.
  replace (1 * cos (PI/4) * 0 - 1 * cos (PI/4)) with (- cos (PI/4)) by ring.
  replace (1 * bad_depth * (PI/2) * 1 / 100 + - cos (PI/4)) with (cos (PI/4)) by (unfold bad_depth; field; lra).
  replace (1 * cos (PI/4) * 1) with (cos (PI/4)) by ring.
  replace (cos (PI/4) ^ 2 + (- cos (PI/4)) ^ 2 - cos (PI/4) ^ 2) with (cos (PI/4) * cos (PI/4)) by ring.
  destruct (Rlt_dec _ 0) as [L|_]; [nra|].
  rewrite sqrt_square by lra.
  replace (- cos (PI/4) + cos (PI/4)) with 0 by ring.
  replace (cos (PI/4) - cos (PI/4)) with 0 by ring.
  assert (A1 : arctan2 (cos (PI/4) + cos (PI/4)) 0 = PI/2).
  { unfold arctan2. destruct (Rlt_dec 0 0); [lra|]. destruct (Rlt_dec 0 _); [auto|lra]. }
  assert (A2 : arctan2 0 0 = 0).
  { unfold arctan2. destruct (Rlt_dec 0 0); [lra|]. auto. }
  rewrite A1, A2. replace (2 * (PI/2)) with PI by field. rewrite Rmult_0_r.
  unfold tidy_up_angle. rewrite Rabs_R0, (Rabs_right PI) by lra.
  destruct (Rlt_dec PI PI); [lra|]. destruct (Rlt_dec PI 0); [lra|].
  destruct (Rlt_dec PI 0); [lra|]. destruct (Rlt_dec 0 0); [lra|].
  f_equal. apply Rmin_right. lra.
Qed.

Lemma tvd_wrong : exists s n h',
  Survey bad_header bad_rows false vzero vzero "meters" = Some s /\
  strictly_increasing (map st_md (sv_rows s)) /\
  (exists q, nth_error (sv_nev s) 1 = Some q /\ vz q = bad_depth) /\
  interpolate_tvd s bad_depth = TvdOk n h' /\ vz (nd_pos n) = 0 /\ nd_md n = 0 /\ bad_depth <> 0.
Proof.
  destruct (Survey_total bad_header bad_rows false vzero vzero) as [s HS]; [left; reflexivity | simpl; auto |].
  change (h_unit bad_header) with "meters"%string in HS.
  assert (ROWS : sv_rows s = [mkSt 0 (PI/4) 0; mkSt 100 (PI/4) PI]) by (rewrite (Survey_rows _ _ _ _ _ _ _ HS); reflexivity).
  assert (NEV : sv_nev s = [vzero; min_curve_step 100 (PI/4) 0 (PI/4) PI]).
  { destruct (Survey_inv _ _ _ _ _ _ _ HS) as (_ & _ & _ & _ & _ & _ & E & _).
    rewrite E, ROWS, mc_list_path. simpl. rewrite pair_delta_swap. unfold step_between; simpl.
    rewrite Rminus_0_r. generalize (min_curve_step 100 (PI/4) 0 (PI/4) PI). intros [x y z].
    unfold nev_of, get_nev, swap_xy; unf. f_equal; [|f_equal]; apply V3_eq; simpl; ring. }
  pose proof PI_RGT_0. assert (C : 0 < cos (PI/4)) by (apply cos_gt_0; lra).
  assert (BD : 0 < bad_depth).
  { unfold bad_depth. apply Rmult_lt_0_compat; auto. apply Rdiv_lt_0_compat; lra. }
  assert (XYZ : exists xyz, nth_error (sv_xyz s) 0 = Some xyz).
  { apply nth_error_some_lt. destruct (Survey_xyz_len _ _ _ _ _ _ _ HS) as [L _]. rewrite L, ROWS. simpl; lia. }
  destruct XYZ as [xyz X].
  assert (A : nth_error (sv_rows s) 0 = Some (mkSt 0 (PI/4) 0)) by (rewrite ROWS; reflexivity).
  assert (B : nth_error (sv_rows s) 1 = Some (mkSt 100 (PI/4) PI)) by (rewrite ROWS; reflexivity).
  assert (P : nth_error (sv_nev s) 0 = Some vzero) by (rewrite NEV; reflexivity).
  destruct (interpolate_at_node s 0 0 _ _ _ _ A B X P (depth_unit_ok _ _ _ _ _ _ _ HS))
      as (r & h0 & n0 & E1 & E2 & _ & M & PP & V & _).
  exists s, (mkNode (nd_md n0) (nd_pos n0) (nd_vec n0) false), h0.
  split; auto. split. rewrite ROWS; simpl; lra. split.
  exists (min_curve_step 100 (PI/4) 0 (PI/4) PI). split. rewrite NEV; reflexivity. apply bad_step.
  split; [|split; [|split]].
  - unfold interpolate_tvd. rewrite NEV. cbn [map]. rewrite bad_step.
    unfold vzero at 1 2 3 4. cbn [vz].
    assert (SS : np_searchsorted_right [0; bad_depth] bad_depth = 2%nat).
    { unfold np_searchsorted_right. simpl. destruct (Rle_dec bad_depth bad_depth); [auto|lra]. }
    rewrite SS. cbn [length Nat.eqb Nat.sub]. rewrite A, B.
    cbn [nth_error].
    unfold pair_dogleg. cbn [st_inc st_azi st_md]. rewrite bad_dogleg.
    destruct (Req_EM_T (PI/2) 0); [lra|].
    rewrite !get_vec_spec by lra. unfold direction_nev. cbn [vz].
    unfold vzero; cbn [vz]. replace (bad_depth - 0) with bad_depth by ring. replace (100 - 0) with 100 by ring.
    rewrite bad_angle.
    replace (0 / (PI/2) * 100) with 0 by (field; lra).
    destruct (Rle_dec 0 100); [|lra].
    rewrite E1, E2. destruct (Rlt_dec 0 0); [lra|]. reflexivity.
  - simpl. rewrite PP. destruct (interp_at_start (mkSt 0 (PI/4) 0) (mkSt 100 (PI/4) PI) vzero) as [_ Q].
    + unfold pair_dogleg; simpl. rewrite bad_dogleg. lra.
    + simpl; lra.
    + rewrite Q. reflexivity.
  - simpl. rewrite M. simpl. ring.
  - lra.
Qed.

(** example for the positive theorem: vertical then building, asked inside *)
Lemma tvd_ok_case : exists s n h',
  Survey bad_header [(0, 0, 0); (100, 0, 0)] false vzero vzero "meters" = Some s /\
  strictly_increasing (map st_md (sv_rows s)) /\
  interpolate_tvd s 40 = TvdOk n h'.
Proof.
  destruct (Survey_total bad_header [(0, 0, 0); (100, 0, 0)] false vzero vzero) as [s HS]; [left; reflexivity | simpl; auto |].
  change (h_unit bad_header) with "meters"%string in HS.
  assert (ROWS : sv_rows s = [mkSt 0 0 0; mkSt 100 0 0]) by (rewrite (Survey_rows _ _ _ _ _ _ _ HS); reflexivity).
  assert (DL : get_dogleg 0 0 0 0 = 0) by (apply dogleg_0_iff; reflexivity).
  assert (NEV : sv_nev s = [vzero; mkV 0 0 100]).
  { destruct (Survey_inv _ _ _ _ _ _ _ HS) as (_ & _ & _ & _ & _ & _ & E & _).
    rewrite E, ROWS, mc_list_path. simpl. rewrite pair_delta_swap. unfold step_between; simpl.
    rewrite step_straight by auto. unfold direction_nev. rewrite sin_0, cos_0.
    unfold nev_of, get_nev, swap_xy; unf. f_equal; [|f_equal]; apply V3_eq; simpl; ring. }
  assert (XYZ : exists xyz, nth_error (sv_xyz s) 0 = Some xyz).
  { apply nth_error_some_lt. destruct (Survey_xyz_len _ _ _ _ _ _ _ HS) as [L _]. rewrite L, ROWS. simpl; lia. }
  destruct XYZ as [xyz X].
  assert (A : nth_error (sv_rows s) 0 = Some (mkSt 0 0 0)) by (rewrite ROWS; reflexivity).
  assert (B : nth_error (sv_rows s) 1 = Some (mkSt 100 0 0)) by (rewrite ROWS; reflexivity).
  assert (P : nth_error (sv_nev s) 0 = Some vzero) by (rewrite NEV; reflexivity).
  destruct (interpolate_at_node s 40 0 _ _ _ _ A B X P (depth_unit_ok _ _ _ _ _ _ _ HS))
      as (r & h0 & n0 & E1 & E2 & _ & M & PP & V & _).
  eexists s, _, _. split; auto. split. rewrite ROWS; simpl; lra.
  unfold interpolate_tvd. rewrite NEV. cbn [map]. unfold vzero; cbn [vz].
  assert (SS : np_searchsorted_right [0; 100] 40 = 1%nat).
  { unfold np_searchsorted_right. simpl. destruct (Rle_dec 100 40); [lra|]. simpl. destruct (Rle_dec 0 40); [auto|lra]. }
  rewrite SS. cbn [length Nat.eqb Nat.sub]. rewrite A, B. cbn [nth_error].
  unfold pair_dogleg. cbn [st_inc st_azi st_md]. rewrite DL. destruct (Req_EM_T 0 0); [|lra].
  cbn [vz]. destruct (Req_EM_T 100 0); [lra|].
  replace ((40 - 0) / (100 - 0) * (100 - 0)) with 40 by field.
  rewrite E1, E2. reflexivity.
Qed.
