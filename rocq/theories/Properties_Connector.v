(** Property theorems C17, C32-C35, C70-C73 (welleng/connector.py, Connector). *)
Require Import Reals ZArith Bool String List Sorted Lra Lia.
Require Import Verif.Base Verif.NumPy Verif.Spec Verif.Spec_Lists Verif.M_Utils Verif.P_Utils Verif.M_Survey Verif.M_Torque Verif.M_Connector
  Verif.Spec_Connector Verif.Spec_Connector2 Verif.P_Connector Verif.P_Connector2 Verif.P_Connector3
  Verif.P_Connector4 Verif.P_Connector5 Verif.P_Connector6 Verif.P_Connector7 Verif.P_Connector8.
Import ListNotations.
Open Scope R_scope.

(** * C32 *)
Theorem C32_accepted : forall a, check_args a = None <->
  ((a_vec1 a <> None /\ a_inc1 a = None /\ a_azi1 a = None) \/
   (a_vec1 a = None /\ a_inc1 a <> None /\ a_azi1 a <> None)) /\
  ~ (a_md2 a = None /\ a_pos2 a = None /\ a_vec2 a = None /\ a_inc2 a = None /\ a_azi2 a = None) /\
  (a_vec2 a <> None -> a_inc2 a = None /\ a_azi2 a = None) /\
  (a_md2 a = None \/ a_pos2 a = None) /\
  (forall m, a_md2 a = Some m -> a_md1 a <= m) /\
  (forall d, a_dls a = Some d -> 0 < d) /\
  a_min_error a < 1.
Proof. exact acceptance. Qed.
Print Assumptions C32_accepted.
Theorem C32_method : forall a, check_args a = None -> is_unit (start_vec a) ->
  (straight a -> ~ never_hold a -> get_method a = inl "hold"%string) /\
  (~ straight a \/ never_hold a -> get_method a = inl (base_method a)).
Proof. exact dispatch. Qed.
Print Assumptions C32_method.
Theorem C32_outcomes : forall bump a, check_args a = None -> is_unit (start_vec a) ->
  (connector bump a = inr TypeError_hold <->
     straight a /\ a_pos2 a = None /\ a_md2 a = None) /\
  (connector bump a = inr ValueError_dls <->
     ~ straight a /\ base_method a = "min_curve"%string /\ a_md2 a = None /\ a_dls a = None) /\
  (forall e, connector bump a = inr e ->
     e = TypeError_hold \/ e = ValueError_dls \/
     (e = SolverOutcome /\ base_method a = "curve_hold_curve"%string) \/ e = NaNResult).
Proof. exact outcomes. Qed.
Print Assumptions C32_outcomes.
Theorem C32_presence_only_refuted : exists a b, same_fields a b /\
  check_args a = None /\ check_args b = None /\ is_unit (start_vec a) /\ is_unit (start_vec b) /\
  get_method a = inl "hold"%string /\ get_method b = inl "curve_hold"%string.
Proof. exact presence_only_refuted. Qed.
Print Assumptions C32_presence_only_refuted.
Example C32_case : check_args (plain (mkV 40 0 80) 1) = None /\ is_unit (start_vec (plain (mkV 40 0 80) 1)) /\
  ~ straight (plain (mkV 40 0 80) 1) /\ base_method (plain (mkV 40 0 80) 1) = "curve_hold"%string.
Proof.
  pose proof (plain_only (mkV 40 0 80) 1 ltac:(lra)) as P.
  destruct (only_position_method _ _ _ _ P) as (C & _). split; [exact C|]. split; [apply down_unit|].
  split; [|reflexivity]. intros (_ & S). destruct (S _ eq_refl) as [_ Z]. revert Z. apply not_allclose_dir; lra.
Qed.

(** * C33 *)
Theorem C33_reaches : forall bump a c r, 0 <= a_min_error a -> is_unit (start_vec a) ->
  connector bump a = inl c -> k_method c = MinDistToTarget -> radius_design a = Some r ->
  off_axis (a_pos1 a) (start_vec a) (k_pos_target c) <> 2 * r ->
  exists pos2,
    k_pos2 c = Some pos2 /\
    turn_then_straight (a_pos1 a) (start_vec a) r (k_dogleg c) (k_tangent c)
      pos2 (k_pos_target c) (k_vec_target c) /\
    0 < k_dogleg c < 2 * PI /\ 0 <= k_tangent c /\
    k_dist_curve c = r * k_dogleg c /\
    k_md2 c = Some (a_md1 a + r * k_dogleg c) /\
    k_md_target c = a_md1 a + r * k_dogleg c + k_tangent c.
Proof. exact curve_hold_reaches. Qed.
Print Assumptions C33_reaches.
Theorem C33_solves : forall bump a u q r, only_position a u q r -> is_unit u ->
  ~ allclose u (vunit (vsub q (a_pos1 a))) -> ~ allclose (a_pos1 a) q ->
  0 < off_axis (a_pos1 a) u q -> off_axis (a_pos1 a) u q <> 2 * r ->
  r <= tangent_circle_radius (a_pos1 a) u q * (1 - a_min_error a) ->
  exists c, connector bump a = inl c /\ k_method c = MinDistToTarget /\ k_pos_target c = q.
Proof. exact curve_hold_solves. Qed.
Print Assumptions C33_solves.
Theorem C33_twice_radius : forall bump a c r, 0 <= a_min_error a -> is_unit (start_vec a) ->
  connector bump a = inl c -> k_method c = MinDistToTarget -> radius_design a = Some r ->
  off_axis (a_pos1 a) (start_vec a) (k_pos_target c) = 2 * r ->
  0 <= ahead (a_pos1 a) (start_vec a) (k_pos_target c) ->
  k_dogleg c = 0 /\ k_vec_target c = start_vec a /\
  k_tangent c = ahead (a_pos1 a) (start_vec a) (k_pos_target c) /\
  k_pos2 c = Some (vsub (k_pos_target c) (vscale (k_tangent c) (start_vec a))) /\
  k_md2 c = Some (a_md1 a) /\
  forall pos2, ~ turn_then_straight (a_pos1 a) (start_vec a) r (k_dogleg c) (k_tangent c)
      pos2 (k_pos_target c) (k_vec_target c).
Proof. exact twice_radius. Qed.
Print Assumptions C33_twice_radius.
Theorem C33_every_radius_refuted : exists bump a c r,
  0 <= a_min_error a /\ is_unit (start_vec a) /\ connector bump a = inl c /\
  k_method c = MinDistToTarget /\ radius_design a = Some r /\
  r <= tangent_circle_radius (a_pos1 a) (start_vec a) (k_pos_target c) /\
  forall pos2, ~ turn_then_straight (a_pos1 a) (start_vec a) r (k_dogleg c) (k_tangent c)
      pos2 (k_pos_target c) (k_vec_target c).
Proof. exact twice_radius_refuted. Qed.
Print Assumptions C33_every_radius_refuted.
Example C33_case : exists c, connector vzero (plain (mkV 40 0 80) 1) = inl c /\
  k_method c = MinDistToTarget /\ k_pos_target c = mkV 40 0 80 /\
  radius_design (plain (mkV 40 0 80) 1) = Some (30 / 1) /\ off_axis vzero (mkV 0 0 1) (mkV 40 0 80) <> 2 * (30 / 1).
Proof.
  destruct reach_example as (c & H & M & T). exists c. repeat split; auto.
  rewrite off_down; lra.
Qed.

(** * C34 *)
Theorem C34_reaches : forall bump a c, is_unit (start_vec a) ->
  connector bump a = inl c -> k_method c = MinCurveToTarget ->
  ~ allclose (a_pos1 a) (k_pos_target c) ->
  0 < off_axis (a_pos1 a) (start_vec a) (k_pos_target c) ->
  ahead (a_pos1 a) (start_vec a) (k_pos_target c) <> 0 ->
  let rc := tangent_circle_radius (a_pos1 a) (start_vec a) (k_pos_target c) in
  (forall r, radius_design a = Some r -> rc <= r) ->
  turn_then_straight (a_pos1 a) (start_vec a) rc (k_dogleg c) 0
    (k_pos_target c) (k_pos_target c) (k_vec_target c) /\
  0 < rc /\ 0 < k_dogleg c < 2 * PI /\ k_tangent c = 0 /\
  k_dist_curve c = rc * k_dogleg c /\ k_md_target c = a_md1 a + rc * k_dogleg c.
Proof. exact single_arc_reaches. Qed.
Print Assumptions C34_reaches.
Theorem C34_solves : forall bump a u q r, only_position a u q r -> is_unit u ->
  ~ allclose u (vunit (vsub q (a_pos1 a))) -> ~ allclose (a_pos1 a) q ->
  0 < off_axis (a_pos1 a) u q -> ahead (a_pos1 a) u q <> 0 ->
  tangent_circle_radius (a_pos1 a) u q < r ->
  exists c, connector bump a = inl c /\ k_method c = MinCurveToTarget /\ k_pos_target c = q.
Proof. exact single_arc_solves. Qed.
Print Assumptions C34_solves.
Theorem C34_largest_radius : forall p u q r, is_unit u -> 0 < r -> 0 < off_axis p u q ->
  ((exists t len m v, 0 <= t /\ 0 <= len /\ turn_then_straight p u r t len m q v) <->
   r <= tangent_circle_radius p u q).
Proof. exact largest_radius. Qed.
Print Assumptions C34_largest_radius.
Theorem C34_tolerance_band : forall bump a c r, is_unit (start_vec a) ->
  connector bump a = inl c -> k_method c = MinCurveToTarget ->
  ~ allclose (a_pos1 a) (k_pos_target c) ->
  0 < off_axis (a_pos1 a) (start_vec a) (k_pos_target c) ->
  ahead (a_pos1 a) (start_vec a) (k_pos_target c) <> 0 ->
  let rc := tangent_circle_radius (a_pos1 a) (start_vec a) (k_pos_target c) in
  radius_design a = Some r -> r <= rc ->
  exists n, is_unit n /\ orthogonal (start_vec a) n /\
    k_dist_curve c = r * k_dogleg c /\
    dist (k_pos_target c) (arc_point (a_pos1 a) (start_vec a) n r (k_dogleg c))
      = (1 - r / rc) * dist (k_pos_target c) (a_pos1 a) /\
    (1 - r / rc) < a_min_error a.
Proof. exact band_miss. Qed.
Print Assumptions C34_tolerance_band.
Example C34_case : exists c, connector vzero (plain (mkV 40 0 80) (1 / 10)) = inl c /\
  k_method c = MinCurveToTarget /\ k_pos_target c = mkV 40 0 80 /\
  ~ allclose vzero (mkV 40 0 80) /\
  0 < off_axis vzero (mkV 0 0 1) (mkV 40 0 80) /\ ahead vzero (mkV 0 0 1) (mkV 40 0 80) <> 0 /\
  tangent_circle_radius vzero (mkV 0 0 1) (mkV 40 0 80) = 100 /\ radius_design (plain (mkV 40 0 80) (1 / 10)) = Some 300.
Proof. exact arc_example. Qed.
Example C34_band_case : exists c r, connector vzero (plain (mkV 40 0 80) (3 / 10 + 1 / 10000000)) = inl c /\
  k_method c = MinCurveToTarget /\ k_pos_target c = mkV 40 0 80 /\
  radius_design (plain (mkV 40 0 80) (3 / 10 + 1 / 10000000)) = Some r /\ r < 100.
Proof. exact band_example. Qed.

(** * C70 *)
Theorem C70_within_tolerance : forall bump a u q r, only_position a u q r -> is_unit u ->
  ~ allclose u (vunit (vsub q (a_pos1 a))) -> allclose (a_pos1 a) q ->
  exists c, connector bump a = inl c /\ k_pos_target c = q /\ k_vec_target c = u /\
    k_md_target c = a_md1 a /\ k_dist_curve c = 0 /\ k_tangent c = 0.
Proof. exact coincident_within_tolerance. Qed.
Print Assumptions C70_within_tolerance.
Theorem C70_distinct_points_refuted : exists bump a c q,
  is_unit (start_vec a) /\ a_pos2 a = Some q /\ connector bump a = inl c /\
  dist q (a_pos1 a) = 5 /\ k_pos_target c = q /\ k_md_target c = a_md1 a.
Proof. exact close_target_refuted. Qed.
Print Assumptions C70_distinct_points_refuted.
Example C70_case : only_position (plain (mkV 0 0 0) 1) (mkV 0 0 1) (mkV 0 0 0) (30 / 1) /\ allclose vzero (mkV 0 0 0).
Proof.
  split; [apply plain_only; lra|]. unfold allclose, close, rtol, atol. cbn.
  rewrite Rminus_0_r, Rabs_R0. lra.
Qed.

(** * C71 *)
Theorem C71_min_curve : forall bump a c t, is_unit (start_vec a) -> is_unit (target_vec a) ->
  connector bump a = inl c -> k_method c = MinCurve ->
  angle_between (start_vec a) (target_vec a) t -> 0 < t < PI ->
  exists r pos2 len, 0 <= r /\ 0 <= len /\ k_dogleg c = t /\
    k_vec_target c = target_vec a /\
    circular_arc (a_pos1 a) (start_vec a) (r * t) t pos2 (target_vec a) /\
    k_pos_target c = vadd pos2 (vscale len (target_vec a)) /\
    k_md_target c = a_md1 a + r * t + len /\
    (forall m, a_md2 a = Some m -> k_md_target c = m) /\
    (forall rd, radius_design a = Some rd -> r <= rd) /\
    (a_md2 a = None -> len = 0 /\ radius_design a = Some r).
Proof. exact min_curve_connection. Qed.
Print Assumptions C71_min_curve.
Example C71_case : exists a c, is_unit (start_vec a) /\ is_unit (target_vec a) /\ connector vzero a = inl c /\
  k_method c = MinCurve /\ angle_between (start_vec a) (target_vec a) (PI / 2).
Proof. exact quarter_turn. Qed.

(** * C72 *)
Theorem C72_kept : forall bump a c q, is_unit (start_vec a) -> a_force a = false ->
  connector bump a = inl c -> a_pos2 a = Some q ->
  q <> a_pos1 a -> start_vec a <> vunit (vsub q (a_pos1 a)) \/ ~ never_hold a /\ target_vec a = start_vec a ->
  k_pos_target c = q.
Proof. exact target_kept. Qed.
Print Assumptions C72_kept.
Theorem C72_ahead_refuted : exists bump a c q,
  is_unit (start_vec a) /\ a_force a = false /\ a_pos2 a = Some q /\
  (0 <= vx bump < 1 /\ 0 <= vy bump < 1 /\ 0 <= vz bump < 1) /\
  connector bump a = inl c /\ dist (k_pos_target c) q = 1 / 2.
Proof. exact target_moved_refuted. Qed.
Print Assumptions C72_ahead_refuted.
Theorem C72_forced_refuted : exists bump a c q,
  is_unit (start_vec a) /\ a_force a = true /\ a_pos2 a = Some q /\
  connector bump a = inl c /\ k_pos_target c <> q.
Proof. exact forced_refuted. Qed.
Print Assumptions C72_forced_refuted.
Example C72_case : a_force (plain (mkV 40 0 80) 1) = false /\ a_pos2 (plain (mkV 40 0 80) 1) = Some (mkV 40 0 80) /\
  mkV 40 0 80 <> a_pos1 (plain (mkV 40 0 80) 1) /\
  start_vec (plain (mkV 40 0 80) 1) <> vunit (vsub (mkV 40 0 80) (a_pos1 (plain (mkV 40 0 80) 1))) /\
  exists c, connector vzero (plain (mkV 40 0 80) 1) = inl c.
Proof.
  split; [reflexivity|]. split; [reflexivity|]. split; [|split].
  - intro Z. injection Z. lra.
  - intro Z. apply (not_allclose_dir 40 80); [lra|lra|]. cbn [start_vec plain a_inc1 a_vec1 a_pos1] in Z. rewrite <- Z.
    unfold allclose, close, rtol, atol. cbn. rewrite Rminus_0_r, Rabs_R0, Rminus_diag_eq, Rabs_R0, Rabs_R1 by reflexivity. lra.
  - destruct reach_example as (c & H & _). exists c. exact H.
Qed.

(** * C73 *)
Theorem C73_hold : forall bump a c, is_unit (start_vec a) -> connector bump a = inl c ->
  k_method c = Hold ->
  k_vec_target c = start_vec a /\
  (forall m, a_md2 a = Some m -> k_md_target c = m /\
     k_pos_target c = vadd (a_pos1 a) (vscale (m - a_md1 a) (start_vec a))) /\
  (forall q, a_pos2 a = Some q ->
     k_pos_target c = q /\ k_md_target c = a_md1 a + dist q (a_pos1 a) /\
     let e := vsub (vadd (a_pos1 a) (vscale (dist q (a_pos1 a)) (start_vec a))) q in
     let tol := (1 / 100000 + 1 / 100000000) * dist q (a_pos1 a) in
     Rabs (vx e) <= tol /\ Rabs (vy e) <= tol /\ Rabs (vz e) <= tol).
Proof. exact hold_position. Qed.
Print Assumptions C73_hold.
Example C73_case : exists c, connector vzero (plain (mkV 0 0 100) 1) = inl c /\ k_method c = Hold.
Proof. exact hold_example. Qed.

(** * C35 *)
Theorem C35_curve : forall md1 v1 v2 dc dl s, 0 < s -> 0 < dc ->
  let l := map fst (interpolate_curve md1 v1 v2 dc dl (Some s) true) in
  step_grid s md1 (md1 + dc) [md1; md1 + dc] l /\ no_gap_over s (md1 + dc) l /\
  step_grid s md1 (md1 + dc) [md1] (map fst (interpolate_curve md1 v1 v2 dc dl (Some s) false)).
Proof. exact curve_grid. Qed.
Print Assumptions C35_curve.
Theorem C35_hold : forall md1 v1 md2 s, 0 < s -> md1 < md2 ->
  let l := map fst (interpolate_hold md1 v1 md2 (Some s) true) in
  step_grid s md1 md2 [md1; md2] l /\ no_gap_over s md2 l /\
  step_grid s md1 md2 [md1] (map fst (interpolate_hold md1 v1 md2 (Some s) false)) /\
  (forall x v, In (x, v) (interpolate_hold md1 v1 md2 (Some s) true) -> v = v1).
Proof. exact hold_grid. Qed.
Print Assumptions C35_hold.
Theorem C35_no_step : forall md1 v1 v2 dc dl md2, 0 < dc ->
  map fst (interpolate_curve md1 v1 v2 dc dl None true) = [md1; md1 + dc] /\
  map fst (interpolate_hold md1 v1 md2 None true) = [md1; md2].
Proof. exact no_step. Qed.
Print Assumptions C35_no_step.
Theorem C35_connection : forall bump a c s, is_unit (start_vec a) -> connector bump a = inl c -> 0 < s ->
  let l := map fst (interpolate_section c (Some s)) in
  exists m, k_md1 c <= m <= k_md_target c /\
    (forall x, In x l <-> x = k_md1 c \/ x = m \/ x = k_md_target c \/
                          (k_md1 c < x < k_md_target c /\ multiple s x)) /\
    StronglySorted Rle l /\ no_gap_over s (k_md_target c) l /\
    (forall m2, k_md2 c = Some m2 -> m = m2).
Proof. exact connection_depths. Qed.
Print Assumptions C35_connection.
Theorem C35_zero_length : forall md1 v1 v2 dl s, 0 < s ->
  map fst (interpolate_curve md1 v1 v2 0 dl (Some s) true) = [md1] /\
  map fst (interpolate_hold md1 v1 md1 (Some s) true) = [md1; md1].
Proof. exact zero_sections. Qed.
Print Assumptions C35_zero_length.
Example C35_case : step_grid 30 10 100 [10; 100] [10; 30; 60; 90; 100].
Proof.
  split.
  - repeat constructor; lra.
  - intro x. cbn. split.
    + intros [<-|[<-|[<-|[<-|[<-|[]]]]]]; auto; right; (split; [lra|]); [exists 1%Z|exists 2%Z|exists 3%Z]; ring.
    + intros [[<-|[<-|[]]]|(B & k & ->)]; [tauto|tauto|].
      assert (K : (1 <= k <= 3)%Z).
      { split; [assert (0 < k)%Z by (apply lt_IZR; lra)|assert (k < 4)%Z by (apply lt_IZR; lra)]; lia. }
      assert (k = 1 \/ k = 2 \/ k = 3)%Z as [->|[->| ->]] by lia; [right; left|right; right; left|right; right; right; left]; ring.
Qed.

(** * C17 *)
Theorem C17_rows : forall dls s p svy, 0 < dls -> 0 < s -> (2 <= length svy)%nat ->
  strictly_increasing (map depth_of svy) -> no_reversal svy ->
  exists rows, interpolate_survey dls p svy s = Some rows /\
    let depths := map (fun r : R * V3 * bool => fst (fst r)) rows in
    StronglySorted Rlt depths /\
    (forall x, In x depths -> grid_depth dls s svy x) /\
    (forall x, is_station svy x \/ inner_multiple s svy x ->
       exists y, In y depths /\ Rabs (x - y) <= 1 / 10000) /\
    (forall x d f, In (x, d, f) rows -> (f = false <-> is_station svy x)) /\
    (forall x d f, In (x, d, f) rows -> exists a b, consecutive svy a b /\
       depth_of a <= x <= depth_of b /\ (on_path a b x d \/ irregular_leg dls a b)) /\
    (forall st d f, In st svy -> In (depth_of st, d, f) rows ->
       d = heading_of st \/ exists a t, consecutive svy a st /\ d = heading_of a /\
         angle_between (heading_of a) (heading_of st) t /\ 0 < t < PI /\ sin t < 1 / 10000000000).
Proof. exact interpolated_survey. Qed.
Print Assumptions C17_rows.
Theorem C17_exact : forall dls s p svy rows, 0 < dls -> 0 < s -> (2 <= length svy)%nat ->
  strictly_increasing (map depth_of svy) -> no_reversal svy ->
  (forall x y, grid_depth dls s svy x -> grid_depth dls s svy y -> x < y -> 1 / 10000 < y - x) ->
  interpolate_survey dls p svy s = Some rows ->
  let depths := map (fun r : R * V3 * bool => fst (fst r)) rows in
  (forall x, is_station svy x \/ inner_multiple s svy x -> In x depths) /\
  no_gap_over s (last (map depth_of svy) 0) depths.
Proof. exact interpolated_survey_exact. Qed.
Print Assumptions C17_exact.
Theorem C17_short : forall dls s p svy, (length svy < 2)%nat -> interpolate_survey dls p svy s = None.
Proof. exact interpolated_survey_short. Qed.
Print Assumptions C17_short.
Theorem C17_every_station_refuted : exists dls s p svy rows st, 0 < dls /\ 0 < s /\
  strictly_increasing (map depth_of svy) /\ no_reversal svy /\ In st svy /\
  interpolate_survey dls p svy s = Some rows /\
  ~ In (depth_of st) (map (fun r : R * V3 * bool => fst (fst r)) rows).
Proof. exact station_dropped_refuted. Qed.
Print Assumptions C17_every_station_refuted.
Example C17_case : (2 <= length bend_svy)%nat /\ strictly_increasing (map depth_of bend_svy) /\ no_reversal bend_svy /\
  (forall x y, grid_depth (1 / 100000000) 30 bend_svy x -> grid_depth (1 / 100000000) 30 bend_svy y ->
    x < y -> 1 / 10000 < y - x).
Proof.
  split; [cbn; lia|]. split; [exact bend_ordered|]. split; [exact bend_no_reversal|exact bend_separated].
Qed.
