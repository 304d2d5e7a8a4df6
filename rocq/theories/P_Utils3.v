(** Glue lemmas: the property statements of Properties_Utils.v. *)
Require Import Reals Lra Psatz ZArith String List.
Require Import Verif.Base Verif.NumPy Verif.P_Trig Verif.Spec Verif.Spec_Lists Verif.M_Utils
  Verif.P_Utils Verif.P_Utils2 Verif.P_Survey.
Import ListNotations.
Open Scope R_scope.

Lemma along_nonzero : forall v u, points_along v u -> v <> vzero.
Proof.
  intros v u [Hu [k [Hk ->]]] E.
  assert (D : dot (vscale k u) (vscale k u) = 0) by (rewrite E; unf; ring).
  assert (dot (vscale k u) (vscale k u) = k * k * dot u u) by (destruct u; unf; ring).
  unfold is_unit in Hu. rewrite Hu in H. nra.
Qed.
Lemma along_vunit : forall v u, points_along v u -> vunit v = u.
Proof.
  intros v u [Hu [k [Hk ->]]]. rewrite vunit_scale; auto. apply vunit_unit; auto. apply unit_nonzero; auto.
Qed.
Lemma vunit_along : forall v, v <> vzero -> points_along v (vunit v).
Proof.
  intros v H. split. apply vunit_is_unit; auto.
  assert (0 < norm v).
  { destruct (Rle_lt_or_eq_dec 0 (norm v)) as [|E]; auto. apply sqrt_pos.
    exfalso. apply H. apply norm_eq0. auto. }
  exists (norm v). split; auto. unfold vunit. destruct v. unf. apply V3_eq; simpl; field; lra.
Qed.

(** C01 *)
Lemma angles_then_vec : forall nev v u, points_along v u ->
  let '(inc, azi) := get_angles nev v in
  0 <= inc <= PI /\ 0 <= azi < 2 * PI /\ get_vec nev 1 inc azi = u.
Proof.
  intros nev v u H. pose proof (get_angles_range nev v) as [A B].
  pose proof (get_angles_get_vec_unit nev v (along_nonzero _ _ H)) as C.
  destruct (get_angles nev v) as [i a]. simpl in *. rewrite (along_vunit _ _ H) in C. auto.
Qed.
Lemma vec_components : forall nev r inc azi, 0 < r ->
  is_unit (get_vec nev r inc azi) /\
  get_vec nev r inc azi =
    (if nev then mkV (sin inc * cos azi) (sin inc * sin azi) (cos inc)
     else mkV (sin inc * sin azi) (sin inc * cos azi) (cos inc)).
Proof.
  intros nev r i a H. rewrite (get_vec_spec nev r i a H). split.
  - destruct nev. apply direction_unit. apply swap_unit, direction_unit.
  - destruct nev; reflexivity.
Qed.

(** C04 *)
Lemma step_is_arc : forall p d i1 a1 i2 a2, 0 < get_dogleg i1 a1 i2 a2 < PI ->
  circular_arc p (direction_nev i1 a1) d (get_dogleg i1 a1 i2 a2)
    (vadd p (min_curve_step d i1 a1 i2 a2)) (direction_nev i2 a2).
Proof.
  intros. rewrite min_curve_step_disp. destruct (dogleg_angle i1 a1 i2 a2) as [_ E].
  apply mc_disp_arc; auto using direction_unit.
Qed.
Lemma step_equal_angles : forall d i1 a1 i2 a2,
  dot (min_curve_step d i1 a1 i2 a2) (direction_nev i1 a1)
  = dot (min_curve_step d i1 a1 i2 a2) (direction_nev i2 a2).
Proof. intros. rewrite min_curve_step_disp. apply mc_disp_equal_angles; apply direction_unit. Qed.

Lemma dogleg_is : forall i1 a1 i2 a2 t, 0 <= t <= PI ->
  cos t = dot (direction_nev i1 a1) (direction_nev i2 a2) -> get_dogleg i1 a1 i2 a2 = t.
Proof.
  intros. eapply angle_between_unique. apply dogleg_angle. split; auto.
Qed.

(** C06 *)
Lemma MinCurve_positions : forall svy start unit mc, MinCurve svy start unit = Some mc ->
  length (mc_poss mc) = length svy /\
  nth_error (mc_poss mc) 0 = Some start /\
  forall k a b p q,
    nth_error svy k = Some a -> nth_error svy (S k) = Some b ->
    nth_error (mc_poss mc) k = Some p -> nth_error (mc_poss mc) (S k) = Some q ->
    let d := min_curve_step (st_md b - st_md a) (st_inc a) (st_azi a) (st_inc b) (st_azi b) in
    q = vadd p (mkV (vy d) (vx d) (vz d)).
Proof.
  intros svy start unit mc H.
  assert (L : (2 <= length svy)%nat) by (apply (MinCurve_some svy start unit); eauto).
  rewrite (MinCurve_poss _ _ _ _ H). repeat split.
  - apply mc_list_length. lia.
  - apply mc_list_first.
  - intros k a b p q A B P Q d. rewrite (mc_list_step _ _ _ _ _ _ _ A B P Q), pair_delta_step. reflexivity.
Qed.
Lemma MinCurve_prefix : forall svy start unit mc m mc', MinCurve svy start unit = Some mc ->
  MinCurve (firstn m svy) start unit = Some mc' -> mc_poss mc' = firstn m (mc_poss mc).
Proof.
  intros svy start unit mc m mc' H H'.
  rewrite (MinCurve_poss _ _ _ _ H), (MinCurve_poss _ _ _ _ H'). apply mc_list_prefix.
  assert (L : (2 <= length (firstn m svy))%nat) by (apply (MinCurve_some (firstn m svy) start unit); eauto).
  destruct m; simpl in L; lia.
Qed.
Lemma MinCurve_translate : forall svy start shift unit mc mc', MinCurve svy start unit = Some mc ->
  MinCurve svy (vadd start shift) unit = Some mc' ->
  mc_poss mc' = map (fun p => vadd p shift) (mc_poss mc).
Proof.
  intros svy start shift unit mc mc' H H'.
  rewrite (MinCurve_poss _ _ _ _ H), (MinCurve_poss _ _ _ _ H'). apply mc_list_translate.
Qed.

(** C07 *)
Lemma MinCurve_dls_spec : forall svy start unit mc k a b,
  MinCurve svy start unit = Some mc ->
  nth_error svy k = Some a -> nth_error svy (S k) = Some b ->
  let dl := get_dogleg (st_inc a) (st_azi a) (st_inc b) (st_azi b) in
  let per := if String.eqb unit "meters" then 30 else 100 in
  nth_error (mc_dls mc) 0 = Some (Fin 0) /\
  nth_error (mc_dogleg mc) (S k) = Some dl /\
  (st_md a <> st_md b ->
     nth_error (mc_dls mc) (S k) = Some (Fin (dl * (180 / PI) * per / (st_md b - st_md a)))) /\
  (st_md a = st_md b -> dl = 0 -> nth_error (mc_dls mc) (S k) = Some (Fin 0)) /\
  (st_md a = st_md b -> dl <> 0 -> nth_error (mc_dls mc) (S k) = Some PInf).
Proof.
  intros svy start unit mc k a b H A B dl per.
  destruct (MinCurve_dls _ _ _ _ _ _ _ H A B) as [c [C [D0 D]]].
  destruct (MinCurve_dogleg _ _ _ _ _ _ _ H A B) as [E _].
  assert (Hc : c = per).
  { unfold unit_coeff in C. unfold per. destruct (String.eqb unit "meters"). congruence.
    destruct (String.eqb unit "feet"); congruence. }
  split; auto. split; auto. rewrite D. split; [|split].
  - intro N. rewrite pair_dls_distinct; auto. subst c. do 2 f_equal.
    unfold degrees, pair_dogleg. fold dl. assert (st_md b - st_md a <> 0) by (intro; apply N; lra).
    field. split; auto. apply PI_neq0'.
  - intros M Z. rewrite pair_dls_repeat_same; auto.
  - intros M Z. rewrite pair_dls_repeat_turn; auto.
    destruct (dogleg_angle (st_inc a) (st_azi a) (st_inc b) (st_azi b)) as [[P _] _].
    unfold pair_dogleg. fold dl in P. fold dl. destruct (Rle_lt_or_eq_dec _ _ P); [auto | exfalso; apply Z; auto].
Qed.

(** C08 *)
Lemma transform_rotation : forall i a, rotation (get_transform i a).
Proof. intros; split; [apply transform_orth | apply transform_det]. Qed.

(** C12 *)
Lemma toolface_spec : forall p1 v u p2, points_along v u -> (vx v <> 0 \/ vy v <> 0) ->
  exists l, right_of u l /\
    bearing_from (cross l u) l (vsub p2 p1) (get_toolface p1 v p2).
Proof.
  intros p1 v u p2 Hv Hh.
  pose proof (toolface_bearing p1 v p2) as T.
  pose proof (get_angles_direction v (along_nonzero _ _ Hv)) as D.
  pose proof (get_angles_range true v) as [R1 _].
  destruct (get_angles true v) as [i a]. simpl in R1.
  rewrite (along_vunit _ _ Hv) in D.
  assert (Hi : 0 < i < PI).
  { destruct Hv as [_ [k [Hk E]]].
    assert (sin i <> 0).
    { intro Z. rewrite E, <- D in Hh. unfold direction_nev in Hh; simpl in Hh. rewrite Z in Hh. destruct Hh as [Q|Q]; apply Q; ring. }
    split. destruct (Rle_lt_or_eq_dec 0 i) as [|Q]; [lra|auto|]. subst i. rewrite sin_0 in H. lra.
    destruct (Rle_lt_or_eq_dec i PI) as [|Q]; [lra|auto|]. subst i. rewrite sin_PI in H. lra. }
  destruct (hla_right_of i a Hi) as [P Q]. rewrite D in P, Q. rewrite Q in T.
  exists (HLA_to_NEV_vec i a (mkV 0 1 0)). split; auto.
Qed.

Lemma rmod_arctan2_polar : forall k t, 0 < k ->
  rmod (arctan2 (k * sin t) (k * cos t)) (2 * PI) = rmod t (2 * PI).
Proof.
  intros k t Hk. pose proof PI_RGT_0.
  rewrite arctan2_scale by auto.
  assert (B := rmod_bounds (arctan2 (sin t) (cos t)) (2*PI) ltac:(lra)).
  assert (B' := rmod_bounds t (2*PI) ltac:(lra)).
  apply angle_unique.
  - lra.
  - rewrite !cos_rmod. destruct (arctan2_cos_sin (sin t) (cos t)) as [C _].
    replace (cos t * cos t + sin t * sin t) with 1 in C by (pose proof (sin2_cos2' t); lra).
    rewrite sqrt_1 in C. lra.
  - rewrite !sin_rmod. destruct (arctan2_cos_sin (sin t) (cos t)) as [_ S].
    replace (cos t * cos t + sin t * sin t) with 1 in S by (pose proof (sin2_cos2' t); lra).
    rewrite sqrt_1 in S. lra.
Qed.

Lemma arc_has_toolface : forall d r tf pos vec u p v len vec', points_along vec u ->
  0 < r -> 0 < d < 2 * PI -> get_arc d r tf pos vec false = (p, v, len, vec') ->
  get_toolface pos vec p = rmod tf (2 * PI).
Proof.
  intros d r tf pos vec u p v len vec' Hu Hr Hd H.
  pose proof (toolface_hla pos vec p) as T.
  pose proof (arc_transform_fwd d r tf pos vec (along_nonzero _ _ Hu)) as A.
  unfold get_arc in H.
  pose proof (get_angles_direction vec (along_nonzero _ _ Hu)) as D.
  destruct (get_angles true vec) as [i a].
  rewrite A in H. injection H; intros _ _ _ Hp. clear H A.
  rewrite T. destruct (hla_components i a (vsub p pos)) as [X [Y _]]. rewrite X, Y. clear X Y T.
  assert (N : vsub p pos = vadd (vscale (r * sin d) (direction_nev i a))
                 (vscale (r * (1 - cos d)) (bend_direction i a tf))).
  { rewrite <- Hp, <- D. unfold arc_point. generalize (bend_direction i a tf) (direction_nev i a). intros. vring. }
  rewrite N. clear N Hp.
  assert (K : 0 < r * (1 - cos d)).
  { apply Rmult_lt_0_compat; auto. pose proof (sin_half_sqr d) as Q.
    assert (0 < sin (d/2)) by (apply sin_gt_0; lra). nra. }
  rewrite <- (rmod_arctan2_polar _ tf K). f_equal.
  pose proof (sin2_cos2' i) as Ei. pose proof (sin2_cos2' a) as Ea.
  assert (Si : sin i * sin i = 1 - cos i * cos i) by lra.
  assert (Sa : sin a * sin a = 1 - cos a * cos a) by lra.
  generalize (r * sin d). generalize (r * (1 - cos d)). intros k1 k2.
  unfold bend_direction, HLA_to_NEV_vec, direction_nev, get_transform; unf.
  f_equal; ring [Si Sa].
Qed.

(** C13 *)
Lemma get_arc_spec : forall d r tf pos vec u p v len vec', points_along vec u ->
  get_arc d r tf pos vec false = (p, v, len, vec') ->
  circular_arc pos u len d p v /\ len = d * r /\ is_unit v /\ vec' = vec.
Proof.
  intros d r tf pos vec u p v len vec' Hu H.
  destruct (get_arc_circular _ _ _ _ _ _ _ _ _ (along_nonzero _ _ Hu) H) as [A [B C]].
  rewrite (along_vunit _ _ Hu) in A. repeat split; auto.
  eapply circular_arc_tangent_unit; eauto. apply Hu.
Qed.
Lemma get_arc_target_spec : forall d r tf pos vec u p v len vec', points_along vec u ->
  get_arc d r tf pos vec true = (p, v, len, vec') ->
  circular_arc p v len d pos u /\ len = d * r /\ vec' = vneg vec.
Proof.
  intros d r tf pos vec u p v len vec' Hu H.
  destruct (get_arc_target _ _ _ _ _ _ _ _ _ (along_nonzero _ _ Hu) H) as [A [B C]].
  rewrite (along_vunit _ _ Hu) in A. auto.
Qed.
Lemma get_arc_min_curve : forall d r tf pos vec p v len vec' i1 a1 i2 a2,
  points_along vec (direction_nev i1 a1) -> 0 < d < PI ->
  get_arc d r tf pos vec false = (p, v, len, vec') -> v = direction_nev i2 a2 ->
  p = vadd pos (min_curve_step len i1 a1 i2 a2).
Proof.
  intros d r tf pos vec p v len vec' i1 a1 i2 a2 Hu Hd H Hv.
  destruct (get_arc_spec _ _ _ _ _ _ _ _ _ _ Hu H) as [A _].
  pose proof (circular_arc_dot _ _ _ _ _ _ (proj1 Hu) A) as E.
  rewrite (circular_arc_disp _ _ _ _ _ _ (proj1 Hu) Hd A), min_curve_step_disp.
  rewrite (dogleg_is i1 a1 i2 a2 d). rewrite Hv; auto. lra. rewrite <- E, Hv; auto.
Qed.
Lemma clc_spec : forall tf1 d1 dist tf2 d2 pos0 vec0 u0 r, points_along vec0 u0 ->
  let c := make_clc_path tf1 d1 dist tf2 d2 pos0 vec0 r in
  circular_arc pos0 u0 (clc_dist1 c) d1 (clc_pos1 c) (clc_vec1 c) /\
  clc_pos2 c = vadd (clc_pos1 c) (vscale dist (clc_vec1 c)) /\
  clc_vec2 c = clc_vec1 c /\
  circular_arc (clc_pos2 c) (clc_vec2 c) (clc_dist2 c) d2 (clc_pos3 c) (clc_vec3 c) /\
  clc_dist1 c = d1 * r /\ clc_dist2 c = d2 * r.
Proof.
  intros tf1 d1 dist tf2 d2 pos0 vec0 u0 r Hu.
  pose proof (clc_joined tf1 d1 dist tf2 d2 pos0 vec0 r (along_nonzero _ _ Hu)) as J.
  rewrite (along_vunit _ _ Hu) in J. exact J.
Qed.

(** C10 *)
Lemma dls_radius_specials :
  radius_from_dls_scalar (Fin 0) = PInf /\ radius_from_dls_array (Fin 0) = PInf /\
  dls_from_radius_scalar PInf = Fin 0 /\ dls_from_radius_array PInf = Fin 0 /\
  dls_from_radius_scalar (Fin 0) = PInf /\ dls_from_radius_array (Fin 0) = Fin 0.
Proof.
  unfold radius_from_dls_scalar, radius_from_dls_array, dls_from_radius_scalar, dls_from_radius_array.
  destruct (Req_EM_T 0 0); [|lra]. simpl. repeat split; f_equal; ring.
Qed.
Lemma dls_forms_agree : forall x, dls_from_radius_array x = dls_from_radius_scalar x <-> x <> Fin 0.
Proof.
  intro x. split.
  - intros E H. subst x. destruct dls_radius_specials as [_ [_ [_ [_ [A B]]]]]. congruence.
  - intro H. destruct x; try reflexivity.
    destruct (Req_EM_T r 0) as [->|N]. congruence.
    destruct (dls_of_radius_finite r N) as [-> ->]. reflexivity.
Qed.
Lemma radius_forms_agree : forall x, radius_from_dls_array x = radius_from_dls_scalar x.
Proof.
  intros []; try reflexivity. destruct (Req_EM_T r 0) as [->|N].
  - destruct dls_radius_specials as [-> [-> _]]. reflexivity.
  - destruct (radius_of_dls_finite r N) as [-> ->]. reflexivity.
Qed.

(** C11 *)
Lemma dms_roundtrip_iff : forall x,
  (dms2decimal (decimal2dms x) = x <-> ~ (-1 < x < 0)) /\
  (-1 < x < 0 -> dms2decimal (decimal2dms x) = - x).
Proof.
  intro x. split; [split|].
  - intros E H. rewrite (dms_roundtrip_bad x H) in E. lra.
  - intro H. destruct (Rle_lt_dec 0 x). apply dms_roundtrip_pos; auto.
    apply dms_roundtrip_neg. lra.
  - apply dms_roundtrip_bad.
Qed.

(** concrete instances *)
Lemma along_down : points_along (mkV 0 0 1) (mkV 0 0 1).
Proof. split. unfold is_unit; unf; ring. exists 1. split. lra. unf. f_equal; ring. Qed.
Lemma along_345 : points_along (mkV 3 0 4) (mkV (3/5) 0 (4/5)).
Proof. split. unfold is_unit; unf; field. exists 5. split. lra. unf. f_equal; field. Qed.
Lemma dogleg_quarter : get_dogleg 0 0 (PI/2) 0 = PI/2.
Proof.
  pose proof PI_RGT_0. apply dogleg_is. lra.
  rewrite direction_dot, cos_PI2, sin_0, cos_0. ring.
Qed.
Lemma PI_ineq : 3 < PI <= 4.
Proof. pose proof PI_4. pose proof (PI2_3_2). lra. Qed.

Lemma cov_from_vec_spec : forall v,
  symmetric (cov_from_vec v) /\ psd (cov_from_vec v) /\ rank_le_1 (cov_from_vec v) /\
  (forall w, qform (cov_from_vec v) w = dot v w * dot v w).
Proof.
  intro v. split. apply outer_sym. split. apply outer_psd. split. exists v, v; reflexivity.
  intros w. unfold cov_from_vec. destruct v, w. unf. ring.
Qed.
Lemma dls_value : forall r, r <> 0 -> dls_from_radius_scalar (Fin r) = Fin (30 / r * (180 / PI)).
Proof.
  intros r H. destruct (dls_of_radius_finite r H) as [-> _]. f_equal. field.
  split; auto. apply PI_neq0'.
Qed.
Lemma toolface_range : forall p1 v p2, 0 <= get_toolface p1 v p2 < 2 * PI.
Proof.
  intros. unfold get_toolface. destruct (get_angles true v). apply rmod_bounds. pose proof PI_RGT_0; lra.
Qed.
Lemma angles_vertical : forall s, s = 1 \/ s = -1 ->
  exists i, get_angles true (mkV 0 0 s) = (i, 0) /\ cos i = s /\ sin i = 0.
Proof.
  intros s Hs.
  assert (Hu : is_unit (mkV 0 0 s)) by (unfold is_unit; unf; destruct Hs; subst; ring).
  pose proof (get_angles_direction _ (unit_nonzero _ Hu)) as D.
  unfold get_angles in *. rewrite (vunit_unit _ Hu) in *. unfold get_angles_xyz in *. simpl in *.
  eexists. split.
  - f_equal. unfold arctan2. destruct (Rlt_dec 0 0); [lra|]. destruct (Req_EM_T 0 0); [|lra].
    assert (forall x, rmod (x + 2 * PI) (2 * PI) = rmod x (2*PI)).
    { intro x. replace (x + 2 * PI) with (x + 2 * PI * IZR 1) by ring. apply rmod_shift. pose proof PI_RGT_0; lra. }
    rewrite H. apply rmod_small. pose proof PI_RGT_0; lra.
  - injection D. intros C _ _. split; auto.
    pose proof (sin2_cos2' (arctan2 (sqrt (0 * (0 * 1) + 0 * (0 * 1))) s)) as Q.
    rewrite C in Q. destruct Hs; subst; nra.
Qed.
Lemma toolface_vertical : forall p1 p2 s, s = 1 \/ s = -1 ->
  bearing_from (mkV s 0 0) (mkV 0 1 0) (vsub p2 p1) (get_toolface p1 (mkV 0 0 s) p2).
Proof.
  intros p1 p2 s Hs. pose proof (toolface_bearing p1 (mkV 0 0 s) p2) as T.
  destruct (angles_vertical s Hs) as [i [E [C S]]]. rewrite E in T.
  replace (HLA_to_NEV_vec i 0 (mkV 1 0 0)) with (mkV s 0 0) in T.
  replace (HLA_to_NEV_vec i 0 (mkV 0 1 0)) with (mkV 0 1 0) in T. exact T.
  - unfold HLA_to_NEV_vec, get_transform; unf. rewrite sin_0, cos_0. f_equal; ring.
  - unfold HLA_to_NEV_vec, get_transform; unf. rewrite sin_0, cos_0, C, S. f_equal; ring.
Qed.

Lemma flip_unit : forall w, is_unit w -> is_unit (vscale (-1) w).
Proof. intros [a b c] H. unfold is_unit, dot, vscale in *. simpl in *. lra. Qed.
Lemma target_arc_repeat : exists dogleg radius toolface pos vec p v len vec' p2 v2 len2 vec2,
  get_arc dogleg radius toolface pos vec true = (p, v, len, vec') /\
  get_arc dogleg radius toolface pos vec' true = (p2, v2, len2, vec2) /\ p <> p2.
Proof.
  exists (PI/2), 1, 0, vzero, (mkV 0 0 1).
  destruct (get_arc (PI/2) 1 0 vzero (mkV 0 0 1) true) as [[[p v] len] vec'] eqn:E.
  destruct (get_arc (PI/2) 1 0 vzero vec' true) as [[[p2 v2] len2] vec2] eqn:E2.
  exists p, v, len, vec', p2, v2, len2, vec2. split; auto. split; auto.
  assert (A1 : points_along (mkV 0 0 1) (mkV 0 0 1)) by apply along_down.
  destruct (get_arc_target_spec _ _ _ _ _ _ _ _ _ _ A1 E) as [C1 [L1 V1]].
  assert (A2 : points_along vec' (mkV 0 0 (-1))).
  { subst vec'. split. unfold is_unit; unf; ring. exists 1. split. lra. unf. f_equal; ring. }
  destruct (get_arc_target_spec _ _ _ _ _ _ _ _ _ _ A2 E2) as [C2 [L2 V2]].
  assert (U1 : is_unit v).
  { unfold get_arc, arc_transform in E. destruct (get_angles true _). injection E; intros _ _ Hv _. subst v.
    simpl. set (w := mv _ _).
    assert (is_unit w).
    { unfold w. replace (arc_local_vec (PI/2)) with (mkV 1 0 0) by (unfold arc_local_vec; rewrite sin_PI2, cos_PI2; reflexivity).
      destruct (rot_axes r r0 0) as [_ Q]. rewrite Q. apply bend_direction_spec. }
    rewrite vunit_unit by auto. apply flip_unit; auto. }
  assert (U2 : is_unit v2).
  { unfold get_arc, arc_transform in E2. destruct (get_angles true _). injection E2; intros _ _ Hv _. subst v2.
    simpl. set (w := mv _ _).
    assert (is_unit w).
    { unfold w. replace (arc_local_vec (PI/2)) with (mkV 1 0 0) by (unfold arc_local_vec; rewrite sin_PI2, cos_PI2; reflexivity).
      destruct (rot_axes r r0 0) as [_ Q]. rewrite Q. apply bend_direction_spec. }
    rewrite vunit_unit by auto. apply flip_unit; auto. }
  (* reversed arcs start at the origin: their end is at depth -+1 *)
  apply circular_arc_reverse in C1; auto. apply circular_arc_reverse in C2; auto.
  destruct C1 as [n1 [r1 [N1 [O1 [R1 [P1 _]]]]]]. destruct C2 as [n2 [r2 [N2 [O2 [R2 [P2 _]]]]]].
  pose proof PI_RGT_0.
  assert (r1 = 1) by nra. assert (r2 = 1) by nra. subst r1 r2.
  intro Q. rewrite P1, P2 in Q. unfold arc_point in Q. rewrite sin_PI2, cos_PI2 in Q.
  destruct n1, n2. unfold orthogonal in *. unf. unfold dot in O1, O2; simpl in O1, O2.
  injection Q; intros. lra.
Qed.
