(** Connections found by the Connector fit together (are [sound]); which turns
    are longer than half a circle. *)
Require Import Reals ZArith Bool String List Lra Lia Psatz Sorted.
Require Import Verif.Base Verif.NumPy Verif.P_Trig Verif.Spec Verif.Spec_Lists Verif.M_Utils
  Verif.P_Utils Verif.P_Utils2 Verif.P_Utils3 Verif.M_Connector Verif.Spec_Connector Verif.Spec_Connector2
  Verif.P_Connector Verif.P_Connector2 Verif.P_Connector3 Verif.P_Connector4 Verif.P_Connector5 Verif.P_Connector6 Verif.P_Connector7 Verif.P_Connector8
  Verif.M_Survey Verif.P_Survey Verif.P_Survey2
  Verif.P_Survey3 Verif.P_Survey4 Verif.P_Tvd Verif.M_Levels Verif.P_Levels Verif.P_Levels2 Verif.P_Levels3 Verif.M_Draw Verif.Spec_Draw
  Verif.P_Draw Verif.P_Draw2 Verif.P_Draw3.
Import ListNotations.
Open Scope R_scope.

Lemma connector_start : forall bump a c, connector bump a = inl c ->
  k_pos1 c = a_pos1 a /\ k_vec1 c = start_vec a /\ k_md1 c = a_md1 a.
Proof.
  intros bump a c H. destruct (connector_cases bump a c H) as (_ & [D|[D|(q & Q & D)]]).
  - unfold do_hold in D. destruct (a_pos2 a), (a_md2 a); try discriminate; injection D as <-; auto.
  - unfold do_min_curve in D. cbv zeta in D. destruct (start_angles a) as [i1 z1], (target_angles' a) as [i2 z2].
    destruct (a_md2 a) as [md|].
    + destruct (orb _ _).
      * destruct (rmin_inf _ _); [|discriminate]. destruct (get_curve_hold_data _ _). injection D as <-. auto.
      * destruct (Req_EM_T _ _); [discriminate|]. destruct (get_curve_hold_data _ _). injection D as <-. auto.
    + destruct (radius_design a); [|discriminate]. destruct (get_curve_hold_data _ _). injection D as <-. auto.
  - unfold do_curve_hold in D. destruct (get_distances _ _ _ _) as [q' ds].
    assert (A1 : forall r, do_min_dist r ds (a_pos1 a) (start_vec a) (a_md1 a) q' = Some c ->
       k_pos1 c = a_pos1 a /\ k_vec1 c = start_vec a /\ k_md1 c = a_md1 a).
    { intros r E. unfold do_min_dist in E. destruct (min_dist_to_target r ds) as [[t dl]|]; [|discriminate].
      cbv zeta in E. destruct (get_curve_hold_data _ _). destruct (get_vec_target _ _ _ _ _ _); [|discriminate].
      injection E as <-. auto. }
    assert (A2 : forall r, do_min_curve_to_target r ds (a_pos1 a) (start_vec a) (a_md1 a) q' = Some c ->
       k_pos1 c = a_pos1 a /\ k_vec1 c = start_vec a /\ k_md1 c = a_md1 a).
    { intros r E. unfold do_min_curve_to_target in E. destruct (min_curve_to_target ds) as [[t rc] dl].
      cbv zeta in E. destruct (rmin_inf _ _); [|discriminate]. destruct (get_curve_hold_data _ _).
      destruct (get_vec_target _ _ _ _ _ _); [|discriminate]. injection E as <-. auto. }
    destruct (radius_design a); [destruct (Rle_dec _ _)|]; eauto.
Qed.

(** position across and along after turning through [t] and going straight *)
Lemma turn_lateral : forall p u r t len m q v, is_unit u -> turn_then_straight p u r t len m q v ->
  off_axis p u q = r * (1 - cos t) + len * sin t /\ ahead p u q = r * sin t + len * cos t.
Proof.
  intros p u r t len m q v U (n & N & O & Q & M & V & E).
  assert (D : vsub q p = vadd (vscale (r * sin t + len * cos t) u) (vscale (r * (1 - cos t) + len * sin t) n)).
  { rewrite E, M, V. unfold arc_point, arc_tangent. destruct p, u, n. unf. apply V3_eq; simpl; ring. }
  set (A := r * sin t + len * cos t) in *. set (L := r * (1 - cos t) + len * sin t) in *. clearbody A L.
  unfold off_axis, ahead. rewrite D in *. clear - U N O Q.
  assert (Q' : dot n (vadd (vscale A u) (vscale L n)) = L).
  { unfold is_unit, orthogonal in *. destruct u as [a b c], n as [x y z]. revert N O. unf. simpl. intros N O.
    transitivity (A * (a * x + b * y + c * z) + L * (x * x + y * y + z * z)); [ring|]. rewrite N, O. ring. }
  rewrite Q' in Q. split.
  - unfold norm. apply sqrt_lem_1; auto; [|].
    + apply dot_self_ge0.
    + unfold is_unit, orthogonal in *. clear Q Q'. destruct u as [a b c], n as [x y z]. revert U N O. unf. simpl. intros U N O.
      symmetry. transitivity (L * L * ((x * x + y * y + z * z) * (a * a + b * b + c * c) - (a * x + b * y + c * z) * (a * x + b * y + c * z))); [ring|].
      rewrite U, N, O. ring.
  - unfold is_unit, orthogonal in *. clear Q Q'. destruct u as [a b c], n as [x y z]. revert U N O. unf. simpl. intros U N O.
    transitivity (A * (a * a + b * b + c * c) + L * (a * x + b * y + c * z)); [ring|]. rewrite U, O. ring.
Qed.
(** A turn then a straight takes more than half a circle exactly when the target
    is not ahead and within twice the radius of the line. *)
Lemma half_circle : forall p u r t len m q v, is_unit u -> 0 < r -> 0 <= len -> 0 < t < 2 * PI ->
  turn_then_straight p u r t len m q v -> off_axis p u q <> 2 * r ->
  (t < PI <-> 2 * r < off_axis p u q \/ 0 < ahead p u q) /\ t <> PI.
Proof.
  intros p u r t len m q v U Hr Hl Ht T B.
  destruct (turn_lateral _ _ _ _ _ _ _ _ U T) as (EO & EA).
  assert (Q : 0 <= off_axis p u q) by apply norm_ge0. rewrite EO in *. rewrite EA. clear EO EA.
  assert (TP : t <> PI).
  { intros ->. rewrite cos_PI, sin_PI in B. apply B. ring. }
  split; auto. pose proof (sin2_cos2 t) as S2. unfold Rsqr in S2. pose proof (COS_bound t) as CB.
  split.
  - intro L. assert (SP : 0 < sin t) by (apply sin_gt_0; lra).
    destruct (Rlt_dec 0 (r * sin t + len * cos t)) as [|NA]; [auto|left].
    assert (CN : cos t < 0) by nra.
    assert (C1 : -1 < cos t) by (destruct (Req_dec (cos t) (-1)) as [E|E]; [rewrite E in S2; nra|lra]).
    assert (exists c, cos t = - c) as [c EC] by (exists (- cos t); ring). rewrite EC in *.
    assert (K : r * sin t <= len * c) by lra.
    assert (K2 : r * sin t * sin t <= len * c * sin t) by nra.
    assert (0 < c < 1) by lra.
    assert (c * (r * (1 - - c) + len * sin t) > c * (2 * r)); [|nra].
    assert (sin t * sin t = 1 - c * c) by nra. nra.
  - intros D. destruct (Rlt_dec t PI) as [|NL]; auto. exfalso.
    assert (SN : sin t < 0) by (apply sin_lt_0; lra).
    destruct D as [D|D]; [nra|].
    destruct (Rle_dec (cos t) 0) as [C|C]; [nra|].
    assert (exists s, sin t = - s) as [s ES] by (exists (- sin t); ring). rewrite ES in *.
    assert (0 < s) by lra.
    assert (C1 : cos t < 1) by (destruct (Req_dec (cos t) 1) as [E|E]; [rewrite E in S2; nra|lra]).
    assert (K : len * s <= r * (1 - cos t)) by lra.
    assert (K2 : r * s * s < len * cos t * s) by nra.
    assert (K3 : len * s * cos t <= r * (1 - cos t) * cos t) by nra.
    assert (s * s = 1 - cos t * cos t) by nra.
    assert (r * (1 - cos t * cos t) < r * (1 - cos t) * cos t) by nra. nra.
Qed.

(** ** connections of the Connector are sound *)
Lemma min_dist_sound : forall bump a c r, 0 <= a_min_error a -> is_unit (start_vec a) ->
  connector bump a = inl c -> k_method c = MinDistToTarget -> radius_design a = Some r ->
  off_axis (a_pos1 a) (start_vec a) (k_pos_target c) <> 2 * r ->
  2 * r < off_axis (a_pos1 a) (start_vec a) (k_pos_target c) \/ 0 < ahead (a_pos1 a) (start_vec a) (k_pos_target c) ->
  1 / 10000000000 <= sin (k_dogleg c) -> sound c.
Proof.
  intros bump a c r He U H M R B F SN.
  destruct (connector_start bump a c H) as (E1 & E2 & E3).
  destruct (connector_cases bump a c H) as (CA & _).
  assert (Hr : 0 < r) by (eapply radius_pos; eauto).
  destruct (curve_hold_reaches bump a c r He U H M R B) as (pos2 & P2 & T & Bd & Tn & DC & M2 & MT).
  pose proof (half_circle _ _ _ _ _ _ _ _ U Hr Tn Bd T B) as (HC & _).
  assert (D : k_dogleg c < PI) by (apply HC; auto).
  assert (UV : is_unit (k_vec_target c)).
  { destruct T as (n & N & O & _ & _ & -> & _). apply arc_unit; auto. }
  unfold sound. rewrite M, E1, E2, E3, M2. split; auto. split; auto. exists r, pos2.
  split; auto. split; [lra|]. split; auto. split; [|rewrite DC; repeat split; lra].
  replace (k_md_target c - (a_md1 a + k_dist_curve c)) with (k_tangent c) by (rewrite MT, DC; ring). auto.
Qed.
Lemma single_arc_sound : forall bump a c, is_unit (start_vec a) ->
  connector bump a = inl c -> k_method c = MinCurveToTarget ->
  ~ allclose (a_pos1 a) (k_pos_target c) ->
  0 < off_axis (a_pos1 a) (start_vec a) (k_pos_target c) ->
  (forall r, radius_design a = Some r -> tangent_circle_radius (a_pos1 a) (start_vec a) (k_pos_target c) <= r) ->
  0 < ahead (a_pos1 a) (start_vec a) (k_pos_target c) ->
  1 / 10000000000 <= sin (k_dogleg c) -> sound c.
Proof.
  intros bump a c U H M NC N L A SN.
  destruct (connector_start bump a c H) as (E1 & E2 & E3).
  destruct (single_arc_reaches bump a c U H M NC N ltac:(lra) L) as (T & Rc & Bd & Tn & DC & MT).
  set (rc := tangent_circle_radius _ _ _) in *.
  destruct (turn_lateral _ _ _ _ _ _ _ _ U T) as (_ & EA).
  assert (D : k_dogleg c < PI).
  { destruct (Rlt_dec (k_dogleg c) PI); auto. exfalso.
    assert (sin (k_dogleg c) <= 0) by (apply sin_le_0; lra). nra. }
  assert (UV : is_unit (k_vec_target c)).
  { destruct T as (n & Nn & O & _ & _ & -> & _). apply arc_unit; auto. }
  assert (M2 : k_md2 c = None).
  { destruct (min_curve_to_branch bump a c U H M) as (q & q' & ds & Q & G & Rr & DD & _).
    unfold do_min_curve_to_target in DD. destruct (min_curve_to_target ds) as [[t rr] dl].
    cbv zeta in DD. destruct (rmin_inf _ _); [|discriminate]. destruct (get_curve_hold_data _ _).
    destruct (get_vec_target _ _ _ _ _ _); [|discriminate]. injection DD as <-. reflexivity. }
  unfold sound. rewrite M, E1, E2, E3, M2. split; auto. split; auto. exists rc, (k_pos_target c).
  split; auto. split; [lra|]. split; auto. split; [|rewrite DC; repeat split; lra].
  replace (k_md_target c - (a_md1 a + k_dist_curve c)) with 0 by (rewrite MT, DC; ring). auto.
Qed.
Lemma min_curve_parts : forall bump a c t, is_unit (start_vec a) -> is_unit (target_vec a) ->
  connector bump a = inl c -> k_method c = MinCurve ->
  angle_between (start_vec a) (target_vec a) t -> 0 < t < PI ->
  exists r len, 0 <= r /\ 0 <= len /\ k_dogleg c = t /\ k_vec_target c = target_vec a /\ k_dist_curve c = r * t /\
    k_pos_target c = vadd (get_pos (a_pos1 a) (start_vec a) (target_vec a) (r * t) (get_rf t)) (vscale len (target_vec a)) /\
    k_md_target c = a_md1 a + r * t + len /\
    (forall m, k_md2 c = Some m -> m = a_md1 a + r * t) /\ (k_md2 c = None -> len = 0) /\
    (a_md2 a = None -> 0 < r) /\ (forall m, a_md2 a = Some m -> a_md1 a < m -> 0 < r) /\
    (forall m rd, a_md2 a = Some m -> radius_design a = Some rd -> r = Rmin rd ((m - a_md1 a) / t)).
Proof.
  intros bump a c t U UT H M A Ht. destruct (connector_cases bump a c H) as (C & [D|[D|(q & Q & D)]]).
  - rewrite (hold_method a c D) in M. discriminate.
  - clear H M. unfold do_min_curve in D. cbv zeta in D.
    pose proof (start_angles_dir a C U) as SD. pose proof (target_angles_dir a C U UT) as TD.
    destruct (start_angles a) as [i1 z1], (target_angles' a) as [i2 z2]. cbn [fst snd] in SD, TD.
    assert (E : check_dogleg (get_dogleg i1 z1 i2 z2) = t).
    { pose proof (dogleg_angle i1 z1 i2 z2) as DA. rewrite SD, TD in DA.
      pose proof (angle_between_unique _ _ _ _ A DA) as E. rewrite <- E.
      unfold check_dogleg. destruct (Rlt_dec t 0); lra. }
    rewrite E in D. clear E SD TD i1 z1 i2 z2.
    assert (RP : forall rd, radius_design a = Some rd -> 0 < rd) by (intros rd; apply radius_pos; auto).
    pose proof (proj1 (acceptance a) C) as (_ & _ & _ & _ & ML & _).
    destruct (a_md2 a) as [m|].
    + specialize (ML m eq_refl). destruct (Req_EM_T t 0); [lra|].
      assert (RC : Rabs ((m - a_md1 a) / t) = (m - a_md1 a) / t).
      { apply Rabs_pos_eq. apply Rmult_le_pos; [lra|]. left. apply Rinv_0_lt_compat. lra. }
      rewrite RC in D. set (rc := (m - a_md1 a) / t) in *.
      assert (RCt : rc * t = m - a_md1 a) by (unfold rc; field; lra).
      assert (rc0 : 0 <= rc) by (rewrite <- RC; apply Rabs_pos).
      assert (rc1 : a_md1 a < m -> 0 < rc) by (intro; apply Rdiv_lt_0_compat; lra).
      destruct ((match radius_design a with
                 | Some r => if Rlt_dec r rc then true else false
                 | None => false
                 end || Z.eqb (around 5 t) (around 5 PI))%bool) eqn:SP.
      * destruct (radius_design a) as [rd|].
        -- cbn [rmin_inf get_curve_hold_data] in D. injection D as <-.
           cbn [k_dogleg k_vec_target k_pos_target k_md_target k_dist_curve k_md2].
           pose proof (RP rd eq_refl). pose proof (Rmin_l rd rc). pose proof (Rmin_r rd rc).
           assert (0 <= Rmin rd rc) by (apply Rmin_glb; lra).
           exists (Rmin rd rc), (m - (a_md1 a + Rmin rd rc * t)).
           repeat split; auto; try nra; try discriminate.
           ++ intros y X. injection X as <-. reflexivity.
           ++ intros y X L. injection X as <-. apply Rmin_glb_lt; auto.
           ++ intros y z X Y. injection X as <-. injection Y as <-. reflexivity.
        -- cbn [rmin_inf get_curve_hold_data] in D. injection D as <-.
           cbn [k_dogleg k_vec_target k_pos_target k_md_target k_dist_curve k_md2].
           exists rc, (m - (a_md1 a + rc * t)).
           repeat split; auto; try nra; try discriminate.
           ++ intros y X. injection X as <-. reflexivity.
           ++ intros y X L. injection X as <-. auto.
      * injection D as <-. cbn [k_dogleg k_vec_target k_pos_target k_md_target k_dist_curve k_md2].
        exists rc, 0.
        repeat split; auto; try nra; try discriminate.
        -- rewrite vscale_0, vadd_0_r. reflexivity.
        -- intros y X L. injection X as <-. auto.
        -- intros y z X Y. injection X as <-. fold rc. rewrite Y in SP. apply orb_false_iff in SP. destruct SP as [SP _].
           destruct (Rlt_dec z rc); [discriminate|]. rewrite Rmin_right by lra. reflexivity.
    + destruct (radius_design a) as [rd|]; [|discriminate].
      cbn [get_curve_hold_data] in D. injection D as <-.
      cbn [k_dogleg k_vec_target k_pos_target k_md_target k_dist_curve k_md2].
      pose proof (RP rd eq_refl).
      exists rd, 0.
      repeat split; auto; try lra; try discriminate.
      * rewrite vscale_0, vadd_0_r. reflexivity.
      * rewrite Rabs_pos_eq by nra. ring.
  - exfalso. unfold do_curve_hold in D. destruct (get_distances _ _ _ _) as [q' ds].
    assert (A1 : forall r, do_min_dist r ds (a_pos1 a) (start_vec a) (a_md1 a) q' = Some c -> k_method c = MinDistToTarget).
    { intros r E. unfold do_min_dist in E. destruct (min_dist_to_target r ds) as [[t' dl]|]; [|discriminate].
      cbv zeta in E. destruct (get_curve_hold_data _ _). destruct (get_vec_target _ _ _ _ _ _); [|discriminate].
      injection E as <-. auto. }
    assert (A2 : forall r, do_min_curve_to_target r ds (a_pos1 a) (start_vec a) (a_md1 a) q' = Some c -> k_method c = MinCurveToTarget).
    { intros r E. unfold do_min_curve_to_target in E. destruct (min_curve_to_target ds) as [[t' rc] dl].
      cbv zeta in E. destruct (rmin_inf _ _); [|discriminate]. destruct (get_curve_hold_data _ _).
      destruct (get_vec_target _ _ _ _ _ _); [|discriminate]. injection E as <-. auto. }
    destruct (radius_design a); [destruct (Rle_dec _ _)|];
      first [apply A1 in D | apply A2 in D]; congruence.
Qed.
Lemma min_curve_sound : forall bump a c t, is_unit (start_vec a) -> is_unit (target_vec a) ->
  connector bump a = inl c -> k_method c = MinCurve ->
  angle_between (start_vec a) (target_vec a) t -> 0 < t < PI -> 1 / 10000000000 <= sin t ->
  (forall m, a_md2 a = Some m -> a_md1 a < m) -> sound c.
Proof.
  intros bump a c t U UT H M A Ht SN LT.
  destruct (connector_start bump a c H) as (E1 & E2 & E3).
  destruct (min_curve_parts bump a c t U UT H M A Ht) as (r & len & R0 & L0 & D & V & DC & P & MT & MS & MN & RN & RS & _).
  assert (RP : 0 < r) by (destruct (a_md2 a) as [m|]; [apply (RS m); auto|auto]).
  assert (Arc : circular_arc (a_pos1 a) (start_vec a) (r * t) t
               (get_pos (a_pos1 a) (start_vec a) (target_vec a) (r * t) (get_rf t)) (target_vec a)).
  { apply mc_disp_arc; auto. apply A. }
  set (p2 := get_pos _ _ _ _ _) in *. destruct Arc as (n & r' & N & O & RE & PE & VE).
  assert (r' = r) by nra. subst r'.
  unfold sound. rewrite M, E1, E2, E3, V, D. split; auto. split; auto. exists r, p2.
  split; auto. split; [lra|]. split; auto. split.
  - replace (k_md_target c - (a_md1 a + k_dist_curve c)) with len by (rewrite MT, DC; ring).
    exists n. split; auto. split; auto. split; [|auto].
    rewrite P, PE, VE. pose proof (COS_bound t). assert (0 < sin t) by (apply sin_gt_0; lra).
    assert (X : dot n (vsub (vadd (arc_point (a_pos1 a) (start_vec a) n r t) (vscale len (arc_tangent (start_vec a) n t))) (a_pos1 a))
      = r * (1 - cos t) + len * sin t).
    { clear - N O. unfold is_unit, orthogonal, arc_point, arc_tangent in *. destruct (a_pos1 a), (start_vec a) as [x y z], n as [e f g].
      revert N O. unf. simpl. intros N O.
      transitivity ((r * sin t + len * cos t) * (x * e + y * f + z * g) + (r * (1 - cos t) + len * sin t) * (e * e + f * f + g * g)); [ring|].
      rewrite N, O. ring. }
    rewrite X. nra.
  - split; auto. split; [rewrite MT, DC; lra|]. destruct (k_md2 c) as [m|].
    + rewrite (MS m eq_refl), DC. auto.
    + rewrite MT, DC, (MN eq_refl). ring.
Qed.
(** a hold to a depth, or to a point exactly straight ahead *)
Lemma hold_sound : forall bump a c, is_unit (start_vec a) -> connector bump a = inl c -> k_method c = Hold ->
  (forall m, a_md2 a = Some m -> a_md1 a < m) ->
  (forall q, a_pos2 a = Some q -> exists x, 0 < x /\ q = vadd (a_pos1 a) (vscale x (start_vec a))) -> sound c.
Proof.
  intros bump a c U H M LT AH.
  destruct (connector_start bump a c H) as (E1 & E2 & E3).
  destruct (hold_position bump a c U H M) as (V & HM & HQ).
  assert (M2 : k_md2 c = None).
  { destruct (connector_cases bump a c H) as (C & [D|[D|(q & Q & D)]]).
    - unfold do_hold in D. destruct (a_pos2 a), (a_md2 a); try discriminate; injection D as <-; reflexivity.
    - apply min_curve_method in D. congruence.
    - exfalso. unfold do_curve_hold in D. destruct (get_distances _ _ _ _) as [q' ds].
      assert (A1 : forall r, do_min_dist r ds (a_pos1 a) (start_vec a) (a_md1 a) q' = Some c -> k_method c = MinDistToTarget).
      { intros r E. unfold do_min_dist in E. destruct (min_dist_to_target r ds) as [[t' dl]|]; [|discriminate].
        cbv zeta in E. destruct (get_curve_hold_data _ _). destruct (get_vec_target _ _ _ _ _ _); [|discriminate].
        injection E as <-. auto. }
      assert (A2 : forall r, do_min_curve_to_target r ds (a_pos1 a) (start_vec a) (a_md1 a) q' = Some c -> k_method c = MinCurveToTarget).
      { intros r E. unfold do_min_curve_to_target in E. destruct (min_curve_to_target ds) as [[t' rc] dl].
        cbv zeta in E. destruct (rmin_inf _ _); [|discriminate]. destruct (get_curve_hold_data _ _).
        destruct (get_vec_target _ _ _ _ _ _); [|discriminate]. injection E as <-. auto. }
      destruct (radius_design a); [destruct (Rle_dec _ _)|]; first [apply A1 in D | apply A2 in D]; congruence. }
  unfold sound. rewrite M, E1, E2, E3, V, M2. split; auto. split; auto.
  destruct (a_pos2 a) as [q|] eqn:Q.
  - destruct (HQ q eq_refl) as (P & MT & _). destruct (AH q eq_refl) as (x & X0 & X).
    assert (DX : dist q (a_pos1 a) = x).
    { unfold dist. rewrite X. replace (vsub (vadd (a_pos1 a) (vscale x (start_vec a))) (a_pos1 a)) with (vscale x (start_vec a))
        by (destruct (a_pos1 a), (start_vec a); unf; apply V3_eq; simpl; ring).
      rewrite norm_vscale, (norm_1 _ U), Rabs_pos_eq by lra. ring. }
    rewrite MT, P, DX. repeat split; auto; try lra. rewrite X. f_equal. f_equal. ring.
  - destruct (a_md2 a) as [m|] eqn:MD.
    + destruct (HM m eq_refl) as (MT & P). rewrite MT, P. repeat split; auto.
    + exfalso. destruct (connector_cases bump a c H) as (C & _).
      pose proof (proj1 (acceptance a) C) as ACC. unfold connector in H. rewrite C in H.
      destruct (get_method a) as [m|]; [|discriminate].
      destruct (String.eqb m "hold"); [unfold do_hold in H; rewrite Q, MD in H; discriminate|].
      destruct (String.eqb m "min_curve"); [apply min_curve_method in H; congruence|].
      destruct (String.eqb m "curve_hold_curve"); [discriminate|]. rewrite Q in H. discriminate.
Qed.
