(** Property theorems C36, C37, C74-C77 (welleng/connector.py: curve-hold-curve, batch solver). *)
Require Import Reals ZArith Bool String List Sorted Lra Lia.
Require Import Verif.Base Verif.NumPy Verif.Spec Verif.Spec_Lists Verif.M_Utils Verif.P_Utils Verif.M_Survey Verif.M_Torque Verif.M_Connector
  Verif.M_Connector2 Verif.Spec_Connector Verif.Spec_Connector2 Verif.Spec_Connector3 Verif.P_Connector Verif.P_Connector2
  Verif.P_Connector3 Verif.P_Connector4 Verif.P_Connector5 Verif.P_Connector6 Verif.P_Connector9 Verif.P_Connector10.
Import ListNotations.
Open Scope R_scope.

(** * C36 *)
Theorem C36_depths : forall solve k s s', keeps_start_depth solve -> is_unit (p_vec1 (s_prob s)) -> is_unit (s_vtarget s) ->
  0 <= p_min_error (s_prob s) -> finish_curve_hold_curve solve k s = Some s' ->
  depths_ordered (p_md1 (s_prob s)) (s_geo s').
Proof. exact chc_depths. Qed.
Print Assumptions C36_depths.
Example C36_case : is_unit (p_vec1 (s_prob (bend_state 5))) /\ is_unit (s_vtarget (bend_state 5)) /\
  0 <= p_min_error (s_prob (bend_state 5)) /\ keeps_start_depth still /\
  exists s', finish_curve_hold_curve still 0 (bend_state 5) = Some s'.
Proof.
  destruct bend_hypotheses as (A & B & C & _ & g & s' & _ & _ & H). split; [exact A|]. split; [exact B|]. split; [exact C|].
  split; [intros k r1 r2 seed s; reflexivity|exists s'; exact H].
Qed.

(** * C37 *)
Theorem C37_rescue : forall solve k s, keeps_inputs solve ->
  error_of (endpoint_rescue solve k s) <= error_of s.
Proof. exact endpoint_rescue_err. Qed.
Print Assumptions C37_rescue.
Theorem C37_planarity : forall s, error_of (enforce_planarity s) <= error_of s.
Proof. exact planarity_err. Qed.
Print Assumptions C37_planarity.
Theorem C37_final : forall solve k s s' g, keeps_inputs solve -> is_unit (p_vec1 (s_prob s)) -> is_unit (s_vtarget s) ->
  0 <= p_min_error (s_prob s) -> happy_finish s = Some g -> finish_curve_hold_curve solve k s = Some s' ->
  error_of s' <= error_of (set_geo s g).
Proof. exact chc_error. Qed.
Print Assumptions C37_final.
Theorem C37_first_rescue : forall solve k s g, is_unit (p_vec1 (s_prob s)) -> is_unit (s_vtarget s) ->
  0 <= p_min_error (s_prob s) -> happy_finish s = Some g ->
  project_tangent (delta_pos3_rescue solve k (set_geo s g)) = set_geo s g.
Proof. exact delta_noop. Qed.
Print Assumptions C37_first_rescue.
Theorem C37_moving_target_refuted : exists solve s,
  (forall k r1 r2 seed t, s_prob (solve k r1 r2 seed t) = s_prob t /\ s_vtarget (solve k r1 r2 seed t) = s_vtarget t) /\
  error_of s < error_of (endpoint_rescue solve 0 s).
Proof. exact moving_target_refuted. Qed.
Print Assumptions C37_moving_target_refuted.
(** a first solution 5 m off, so that every pass runs *)
Example C37_case : keeps_inputs still /\ is_unit (p_vec1 (s_prob (bend_state 5))) /\ is_unit (s_vtarget (bend_state 5)) /\
  0 <= p_min_error (s_prob (bend_state 5)) /\
  exists g s', happy_finish (bend_state 5) = Some g /\ error_of (set_geo (bend_state 5) g) = 5 /\
    finish_curve_hold_curve still 0 (bend_state 5) = Some s'.
Proof. destruct bend_hypotheses as (A & B & C & D & E). auto. Qed.

(** * C74 *)
Theorem C74_path : forall solve k s s', keeps_inputs solve -> is_unit (p_vec1 (s_prob s)) -> is_unit (s_vtarget s) ->
  0 <= p_min_error (s_prob s) -> finish_curve_hold_curve solve k s = Some s' ->
  s_target s' = s_target s /\
  curve_hold_curve_path (p_pos1 (s_prob s)) (p_vec1 (s_prob s)) (p_md1 (s_prob s)) (s_target s) (s_vtarget s)
    (s_geo s') (error_of s').
Proof. exact chc_path. Qed.
Print Assumptions C74_path.
Theorem C74_missed : forall s g, is_unit (p_vec1 (s_prob s)) -> is_unit (s_vtarget s) -> happy_finish s = Some g ->
  let miss := vsub (s_target s) (get_pos (g_pos3 g) (g_vec3 g) (s_vtarget s) (g_dist_curve2 g) (g_func2 g)) in
  let delta := vsub (s_target s) (g_pos2 g) in
  let c := dot (g_vec3 g) (s_vtarget s) in
  error_of (set_geo s g) = norm miss /\
  (norm miss <= 1 / 1000 \/
   (dot miss (g_vec3 g) = 0 /\ dot miss (s_vtarget s) = 0) \/
   g_md3 g = g_md2 g \/
   1 - 1 / 1000000 <= c * c \/
   dot delta (s_vtarget s) < c * dot delta (g_vec3 g)).
Proof. exact endpoint_missed. Qed.
Print Assumptions C74_missed.
Example C74_case : is_unit (p_vec1 (s_prob (bend_state 0))) /\ is_unit (s_vtarget (bend_state 0)) /\
  exists g, happy_finish (bend_state 0) = Some g /\ error_of (set_geo (bend_state 0) g) = 0 /\
    g_md3 g - g_md2 g = 100 /\ g_dist_curve2 g = 50 * PI.
Proof.
  split; [unfold is_unit, dot; cbn; ring|]. split; [unfold is_unit, dot; cbn; ring|].
  destruct (bend_finish 0) as (g & H). exists g. rewrite Rabs_R0 in H. exact H.
Qed.

(** * C75 *)
Theorem C75_grid : forall solve k s s' step, keeps_inputs solve ->
  is_unit (p_vec1 (s_prob s)) -> is_unit (s_vtarget s) -> 0 <= p_min_error (s_prob s) ->
  finish_curve_hold_curve solve k s = Some s' -> 0 < step ->
  let g := s_geo s' in
  let l := map fst (interpolate_chc (p_md1 (s_prob s)) (p_vec1 (s_prob s)) (s_vtarget s) g (Some step)) in
  (forall x, In x l <-> In x [p_md1 (s_prob s); g_md2 g; g_md3 g; g_md_target g] \/
     (p_md1 (s_prob s) < x < g_md_target g /\ multiple step x)) /\
  StronglySorted Rle l /\ no_gap_over step (g_md_target g) l.
Proof. exact chc_interpolation. Qed.
Print Assumptions C75_grid.
Example C75_case : keeps_inputs still /\ is_unit (p_vec1 (s_prob (bend_state 5))) /\ is_unit (s_vtarget (bend_state 5)) /\
  0 <= p_min_error (s_prob (bend_state 5)) /\ exists s', finish_curve_hold_curve still 0 (bend_state 5) = Some s'.
Proof. destruct bend_hypotheses as (A & B & C & D & g & s2 & _ & _ & H). split; [exact D|]. split; [exact A|]. split; [exact B|]. split; [exact C|exists s2; exact H]. Qed.

(** * C76 *)
Theorem C76_moved : forall b1 b2 pos1 v1 tg vt, is_unit v1 -> is_unit vt ->
  let '(pos1', tg') := first_lookups b1 b2 pos1 v1 tg vt in
  tg' = (if v3_eq_dec (vsub tg pos1) (vscale (norm (vsub tg pos1)) v1) then
           if v3_eq_dec tg pos1 then tg else vadd tg b1
         else tg) /\
  pos1' = (if v3_eq_dec (vsub tg' pos1) (vscale (norm (vsub tg' pos1)) vt) then
             if v3_eq_dec tg' pos1 then pos1 else vadd pos1 b2
           else pos1).
Proof. exact ends_moved. Qed.
Print Assumptions C76_moved.
Theorem C76_start_kept_refuted : exists b1 b2 pos1 v1 tg vt, is_unit v1 /\ is_unit vt /\ v1 <> vt /\
  vx b2 <> 0 /\ fst (first_lookups b1 b2 pos1 v1 tg vt) <> pos1 /\ snd (first_lookups b1 b2 pos1 v1 tg vt) = tg.
Proof. exact start_moved_refuted. Qed.
Print Assumptions C76_start_kept_refuted.
Example C76_case : is_unit (mkV 0 0 1) /\ is_unit (mkV 1 0 0).
Proof. split; unfold is_unit, dot; cbn; ring. Qed.

(** * C77 *)
Theorem C77_reaches : forall p u q r, is_unit u -> 0 < r -> 0 < off_axis p u q -> off_axis p u q <> 2 * r ->
  r <= tangent_circle_radius p u q ->
  exists b, solve_curve_hold p u q r = Some b /\
    turn_then_straight p u r (b_dogleg b) (b_tangent b) (b_pos2 b) q (b_vec_target b) /\
    0 < b_dogleg b < 2 * PI /\ 0 <= b_tangent b /\ b_dist_curve b = r * b_dogleg b /\
    b_md b = b_dist_curve b + b_tangent b.
Proof. exact batch_reaches. Qed.
Print Assumptions C77_reaches.
Theorem C77_unreachable : forall p u q r, is_unit u -> 0 < off_axis p u q ->
  tangent_circle_radius p u q < r -> solve_curve_hold p u q r = None.
Proof. exact batch_unreachable. Qed.
Print Assumptions C77_unreachable.
Theorem C77_straight : forall p u d r, is_unit u -> 0 < r -> 0 <= d ->
  solve_curve_hold p u (vadd p (vscale d u)) r = Some (mkBatch p u d 0 0 d).
Proof. exact batch_straight. Qed.
Print Assumptions C77_straight.
Theorem C77_behind : forall p u d r, is_unit u -> 0 < r -> 0 < d ->
  solve_curve_hold p u (vsub p (vscale d u)) r = None.
Proof. exact batch_behind. Qed.
Print Assumptions C77_behind.
Theorem C77_agrees : forall bump a c r, 0 <= a_min_error a -> is_unit (start_vec a) ->
  connector bump a = inl c -> k_method c = MinDistToTarget -> radius_design a = Some r ->
  exists b, solve_curve_hold (a_pos1 a) (start_vec a) (k_pos_target c) r = Some b /\
    k_pos2 c = Some (b_pos2 b) /\ k_vec_target c = b_vec_target b /\ k_tangent c = b_tangent b /\
    k_dogleg c = b_dogleg b /\ k_dist_curve c = b_dist_curve b /\
    k_md_target c = a_md1 a + Rabs (b_dist_curve b) + b_tangent b.
Proof. exact batch_agrees. Qed.
Print Assumptions C77_agrees.
Example C77_case : is_unit (mkV 0 0 1) /\ 0 < off_axis vzero (mkV 0 0 1) (mkV 40 0 80) /\
  off_axis vzero (mkV 0 0 1) (mkV 40 0 80) <> 2 * 30 /\ 30 <= tangent_circle_radius vzero (mkV 0 0 1) (mkV 40 0 80).
Proof. exact batch_example. Qed.
Example C77_connector_case : exists c, is_unit (start_vec (plain (mkV 40 0 80) 1)) /\
  connector vzero (plain (mkV 40 0 80) 1) = inl c /\ k_method c = MinDistToTarget /\
  radius_design (plain (mkV 40 0 80) 1) = Some (30 / 1).
Proof. destruct reach_example as (c & H & M & _). exists c. split; [apply down_unit|]. repeat split; auto. Qed.
