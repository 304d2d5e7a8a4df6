(** C156: the option closest_approach of a connection. *)
Require Import Reals ZArith Bool String List Lra Lia.
Require Import Verif.Base Verif.Spec Verif.NumPy Verif.M_Utils Verif.M_Connector Verif.Spec_Connector Verif.Spec_Connector2 Verif.P_Connector2 Verif.P_Connector5.
Require Import Verif.M_Approach Verif.Spec_Approach Verif.P_Approach Verif.P_Approach2.
Import ListNotations.
Open Scope R_scope.

(** * C156 *)
Theorem C156_off : forall bump bump' a, approach_connector false bump bump' a = connector bump a.
Proof. exact approach_off. Qed.
Print Assumptions C156_off.
Theorem C156_reachable : forall bump bump' a c, connector bump a = inl c -> k_method c <> MinCurveToTarget ->
  approach_connector true bump bump' a = inl c.
Proof. exact approach_reachable. Qed.
Print Assumptions C156_reachable.
Example C156_reachable_case : forall t, only_position (plain t 1) (mkV 0 0 1) t (30 / 1).
Proof. intro t. apply plain_only. lra. Qed.
Theorem C156_rejected : forall bump bump' a e, connector bump a = inr e -> e <> NaNResult ->
  approach_connector true bump bump' a = inr e.
Proof. exact approach_rejected. Qed.
Print Assumptions C156_rejected.
Theorem C156_point : forall p v t r q, approach_target p v t r = Some q <->
  approachable p v t r /\ q = vadd (pivot p v t r) (vscale r (vunit (vsub t (pivot p v t r)))).
Proof. exact target_point. Qed.
Print Assumptions C156_point.
Example C156_point_case : approachable vzero tilt far_target 30 /\ approach_target vzero tilt far_target 30 = Some far_point.
Proof. split; [exact far_approachable|exact far_new]. Qed.
Theorem C156_nan : forall p v t r, approach_target p v t r = None <-> ~ approachable p v t r.
Proof. exact target_none. Qed.
Print Assumptions C156_nan.
Example C156_nan_case : approach_target vzero (mkV 0 0 1) far_target 30 = None.
Proof. apply target_none, flat_start; reflexivity. Qed.
Theorem C156_place : forall p v t r q, 0 < r -> approach_target p v t r = Some q ->
  dist (pivot p v t r) p = r /\ nearest_on_sphere (pivot p v t r) t r q.
Proof. exact target_place. Qed.
Print Assumptions C156_place.
Theorem C156_planes : forall p v t r,
  (vx v = 0 /\ vx t = vx p) \/ (vy v = 0 /\ vy t = vy p) \/ (vz v = 0 /\ vz t = vz p) -> ~ approachable p v t r.
Proof. exact plane_start. Qed.
Print Assumptions C156_planes.
Theorem C156_vertical_refuted : forall bump bump' a c, connector bump a = inl c -> k_method c = MinCurveToTarget ->
  vx (start_vec a) = 0 -> vy (start_vec a) = 0 ->
  approach_connector true bump bump' a = inr NaNResult.
Proof. exact approach_axis. Qed.
Print Assumptions C156_vertical_refuted.
Example C156_vertical_case : exists c, connector vzero (plain (mkV 40 0 80) (1 / 10)) = inl c /\ k_method c = MinCurveToTarget /\
  start_vec (plain (mkV 40 0 80) (1 / 10)) = mkV 0 0 1.
Proof. destruct arc_example as (c & H & M & _). exists c. repeat split; assumption. Qed.
Theorem C156_fails : forall bump bump' a c t r, connector bump a = inl c -> k_method c = MinCurveToTarget ->
  a_pos2 a = Some t -> 0 < off_axis (a_pos1 a) (start_vec a) t -> radius_design a = Some r ->
  ~ approachable (a_pos1 a) (start_vec a) t r -> approach_connector true bump bump' a = inr NaNResult.
Proof. exact approach_fails. Qed.
Print Assumptions C156_fails.
Theorem C156_end : forall bump bump' a c0 c t r, connector bump a = inl c0 -> k_method c0 = MinCurveToTarget ->
  a_pos2 a = Some t -> 0 < off_axis (a_pos1 a) (start_vec a) t -> radius_design a = Some r ->
  approach_connector true bump bump' a = inl c ->
  approachable (a_pos1 a) (start_vec a) t r /\ k_method c = MinCurveToTarget /\
  dist (pivot (a_pos1 a) (start_vec a) t r) (a_pos1 a) = r /\
  exists q, nearest_on_sphere (pivot (a_pos1 a) (start_vec a) t r) t r q /\
    (k_pos_target c = q \/ (off_axis (a_pos1 a) (start_vec a) q = 0 /\ k_pos_target c = vadd q bump')).
Proof. exact approach_end. Qed.
Print Assumptions C156_end.
Theorem C156_succeeds : forall bump bump' a c0 t r q, is_unit (start_vec a) -> connector bump a = inl c0 -> k_method c0 = MinCurveToTarget ->
  a_pos2 a = Some t -> 0 < off_axis (a_pos1 a) (start_vec a) t -> radius_design a = Some r ->
  approachable (a_pos1 a) (start_vec a) t r -> nearest_on_sphere (pivot (a_pos1 a) (start_vec a) t r) t r q ->
  ~ allclose (a_pos1 a) q -> 0 < off_axis (a_pos1 a) (start_vec a) q -> ahead (a_pos1 a) (start_vec a) q <> 0 ->
  exists c, approach_connector true bump bump' a = inl c /\ k_pos_target c = q.
Proof. exact approach_succeeds. Qed.
Print Assumptions C156_succeeds.
Theorem C156_turn : forall bump bump' a c0 c t r, is_unit (start_vec a) -> connector bump a = inl c0 -> k_method c0 = MinCurveToTarget ->
  a_pos2 a = Some t -> 0 < off_axis (a_pos1 a) (start_vec a) t -> radius_design a = Some r ->
  approach_connector true bump bump' a = inl c ->
  ~ allclose (a_pos1 a) (k_pos_target c) ->
  0 < off_axis (a_pos1 a) (start_vec a) (k_pos_target c) ->
  ahead (a_pos1 a) (start_vec a) (k_pos_target c) <> 0 ->
  let rc := tangent_circle_radius (a_pos1 a) (start_vec a) (k_pos_target c) in
  (rc <= r -> turn_then_straight (a_pos1 a) (start_vec a) rc (k_dogleg c) 0 (k_pos_target c) (k_pos_target c) (k_vec_target c) /\
     k_md_target c = a_md1 a + rc * k_dogleg c) /\
  (r <= rc -> exists n, is_unit n /\ orthogonal (start_vec a) n /\ k_md_target c = a_md1 a + r * k_dogleg c /\
     dist (k_pos_target c) (arc_point (a_pos1 a) (start_vec a) n r (k_dogleg c)) = (1 - r / rc) * dist (k_pos_target c) (a_pos1 a)).
Proof. exact approach_turn. Qed.
Print Assumptions C156_turn.
Example C156_turn_case : forall bump bump', exists c0 c,
  connector bump (tilted far_target) = inl c0 /\ k_method c0 = MinCurveToTarget /\
  approach_connector true bump bump' (tilted far_target) = inl c /\ k_pos_target c = far_point /\ ~ allclose vzero far_point /\
  0 < off_axis vzero tilt far_point /\ ahead vzero tilt far_point <> 0 /\ 30 < tangent_circle_radius vzero tilt far_point.
Proof. intros bump bump'. destruct (far_case bump bump') as (c0 & c & H1 & H2 & H3 & H4 & H5 & H6 & H7 & H8 & _). exists c0, c. tauto. Qed.
Theorem C156_same : forall bump bump' a t r, a_pos2 a = Some t -> radius_design a = Some r -> 0 < r ->
  0 < off_axis (a_pos1 a) (start_vec a) t -> approachable (a_pos1 a) (start_vec a) t r ->
  dist t (pivot (a_pos1 a) (start_vec a) t r) = r ->
  approach_connector true bump bump' a = connector bump a.
Proof. exact approach_same. Qed.
Print Assumptions C156_same.
Example C156_same_case : approachable vzero tilt on_sphere_target 30 /\ dist on_sphere_target (pivot vzero tilt on_sphere_target 30) = 30.
Proof. split; [exact sphere_approachable|exact sphere_dist]. Qed.
Theorem C156_closest_refuted : forall bump bump', exists a t c,
  is_unit (start_vec a) /\ a_pos2 a = Some t /\ radius_design a = Some 30 /\
  connector bump a = inl c /\ approach_connector true bump bump' a = inl c /\ k_pos_target c = t /\
  turn_then_straight (a_pos1 a) (start_vec a) (320 / 27) (k_dogleg c) 0 t t (k_vec_target c).
Proof. exact closest_refuted. Qed.
Print Assumptions C156_closest_refuted.
Theorem C156_short_refuted : forall bump bump', exists a c n,
  is_unit (start_vec a) /\ radius_design a = Some 30 /\ approach_connector true bump bump' a = inl c /\
  is_unit n /\ orthogonal (start_vec a) n /\ k_md_target c = a_md1 a + 30 * k_dogleg c /\
  0 < dist (k_pos_target c) (arc_point (a_pos1 a) (start_vec a) n 30 (k_dogleg c)).
Proof. exact short_refuted. Qed.
Print Assumptions C156_short_refuted.
