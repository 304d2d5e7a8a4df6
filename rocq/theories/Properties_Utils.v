(** Property theorems C01-C13 (welleng/utils.py).  Proofs are in P_*.v; the
    vocabulary of the statements is Spec.v / Spec_Lists.v and the modelled API. *)
Require Import Reals Lra ZArith String List.
Require Import Verif.Base Verif.NumPy Verif.Spec Verif.Spec_Lists Verif.M_Utils.
Require Import Verif.P_Trig Verif.P_Utils Verif.P_Utils2 Verif.P_Utils3.
Import ListNotations.
Open Scope R_scope.

(** * C01 *)
Theorem C01_vec_components : forall nev r inc azi, 0 < r ->
  is_unit (get_vec nev r inc azi) /\
  get_vec nev r inc azi =
    (if nev then mkV (sin inc * cos azi) (sin inc * sin azi) (cos inc)
     else mkV (sin inc * sin azi) (sin inc * cos azi) (cos inc)).
Proof. exact vec_components. Qed.
Print Assumptions C01_vec_components.

Theorem C01_angles_then_vec : forall nev v u, points_along v u ->
  let '(inc, azi) := get_angles nev v in
  0 <= inc <= PI /\ 0 <= azi < 2 * PI /\ get_vec nev 1 inc azi = u.
Proof. exact angles_then_vec. Qed.
Print Assumptions C01_angles_then_vec.
Example C01_angles_then_vec_case : points_along (mkV 3 0 4) (mkV (3/5) 0 (4/5)).
Proof. exact along_345. Qed.

Theorem C01_vec_then_angles : forall nev r inc azi, 0 < r -> 0 < inc < PI -> 0 <= azi < 2 * PI ->
  get_angles nev (get_vec nev r inc azi) = (inc, azi).
Proof. exact get_angles_of_vec. Qed.
Print Assumptions C01_vec_then_angles.
Example C01_vec_then_angles_case : 0 < 2 /\ 0 < 1 < PI /\ 0 <= 3 < 2 * PI.
Proof. pose proof PI_ineq. lra. Qed.

(** * C02 *)
Theorem C02_xyz_nev : forall p start_xyz start_nev,
  get_xyz (get_nev p start_xyz start_nev) start_xyz start_nev = p /\
  get_nev (get_xyz p start_xyz start_nev) start_xyz start_nev = p.
Proof. exact (fun p sx sn => conj (xyz_nev p sx sn) (nev_xyz p sx sn)). Qed.
Print Assumptions C02_xyz_nev.
Theorem C02_rigid : forall p q start_xyz start_nev,
  dist (get_nev p start_xyz start_nev) (get_nev q start_xyz start_nev) = dist p q /\
  get_nev start_xyz start_xyz start_nev = start_nev.
Proof. exact (fun p q sx sn => conj (nev_dist p q sx sn) (nev_datum sx sn)). Qed.
Print Assumptions C02_rigid.

(** * C03 *)
Theorem C03_dogleg_is_angle : forall inc1 azi1 inc2 azi2,
  angle_between (direction_nev inc1 azi1) (direction_nev inc2 azi2)
                (get_dogleg inc1 azi1 inc2 azi2).
Proof. exact dogleg_angle. Qed.
Print Assumptions C03_dogleg_is_angle.
Theorem C03_dogleg_symmetric : forall inc1 azi1 inc2 azi2,
  get_dogleg inc1 azi1 inc2 azi2 = get_dogleg inc2 azi2 inc1 azi1.
Proof. exact dogleg_sym. Qed.
Print Assumptions C03_dogleg_symmetric.
Theorem C03_dogleg_azimuth_offset : forall inc1 azi1 inc2 azi2 d,
  get_dogleg inc1 (azi1 + d) inc2 (azi2 + d) = get_dogleg inc1 azi1 inc2 azi2.
Proof. exact dogleg_azi_offset. Qed.
Print Assumptions C03_dogleg_azimuth_offset.
Theorem C03_dogleg_azimuth_period : forall inc1 azi1 inc2 azi2 (k1 k2 : Z),
  get_dogleg inc1 (azi1 + 2 * PI * IZR k1) inc2 (azi2 + 2 * PI * IZR k2)
  = get_dogleg inc1 azi1 inc2 azi2.
Proof. exact dogleg_azi_period. Qed.
Print Assumptions C03_dogleg_azimuth_period.
Theorem C03_dogleg_zero : forall inc1 azi1 inc2 azi2,
  get_dogleg inc1 azi1 inc2 azi2 = 0 <-> direction_nev inc1 azi1 = direction_nev inc2 azi2.
Proof. exact dogleg_0_iff. Qed.
Print Assumptions C03_dogleg_zero.
(** the argument of arcsin(sqrt(.)) in get_dogleg is in the domain *)
Theorem C03_arcsin_domain : forall inc1 azi1 inc2 azi2,
  0 <= sin ((inc2 - inc1) / 2) ^ 2 + sin inc1 * sin inc2 * sin ((azi2 - azi1) / 2) ^ 2 <= 1.
Proof. exact haversine_bounds. Qed.
Print Assumptions C03_arcsin_domain.

(** * C04 *)
Theorem C04_step_is_arc : forall p delta_md inc1 azi1 inc2 azi2,
  0 < get_dogleg inc1 azi1 inc2 azi2 < PI ->
  circular_arc p (direction_nev inc1 azi1) delta_md (get_dogleg inc1 azi1 inc2 azi2)
    (vadd p (min_curve_step delta_md inc1 azi1 inc2 azi2)) (direction_nev inc2 azi2).
Proof. exact step_is_arc. Qed.
Print Assumptions C04_step_is_arc.
Example C04_case : 0 < get_dogleg 0 0 (PI/2) 0 < PI.
Proof. rewrite dogleg_quarter. pose proof PI_RGT_0. lra. Qed.
Theorem C04_chord_length : forall delta_md inc1 azi1 inc2 azi2, 0 <= delta_md ->
  let dl := get_dogleg inc1 azi1 inc2 azi2 in 0 < dl < PI ->
  norm (min_curve_step delta_md inc1 azi1 inc2 azi2) = delta_md * (sin (dl / 2) / (dl / 2)).
Proof. exact step_chord. Qed.
Print Assumptions C04_chord_length.
Theorem C04_straight : forall delta_md inc1 azi1 inc2 azi2,
  get_dogleg inc1 azi1 inc2 azi2 = 0 ->
  min_curve_step delta_md inc1 azi1 inc2 azi2 = vscale delta_md (direction_nev inc1 azi1).
Proof. exact step_straight. Qed.
Print Assumptions C04_straight.
Example C04_straight_case : get_dogleg 1 2 1 2 = 0.
Proof. apply dogleg_0_iff. reflexivity. Qed.
Theorem C04_chord_not_longer : forall delta_md inc1 azi1 inc2 azi2, 0 <= delta_md ->
  get_dogleg inc1 azi1 inc2 azi2 < PI ->
  norm (min_curve_step delta_md inc1 azi1 inc2 azi2) <= delta_md.
Proof. exact step_le_delta. Qed.
Print Assumptions C04_chord_not_longer.
Theorem C04_equal_angles : forall delta_md inc1 azi1 inc2 azi2,
  dot (min_curve_step delta_md inc1 azi1 inc2 azi2) (direction_nev inc1 azi1)
  = dot (min_curve_step delta_md inc1 azi1 inc2 azi2) (direction_nev inc2 azi2).
Proof. exact step_equal_angles. Qed.
Print Assumptions C04_equal_angles.
(** [PI - inc, azi + PI] is the opposite direction: the step back *)
Theorem C04_reverse : forall delta_md inc1 azi1 inc2 azi2,
  min_curve_step delta_md (PI - inc2) (azi2 + PI) (PI - inc1) (azi1 + PI)
  = vneg (min_curve_step delta_md inc1 azi1 inc2 azi2).
Proof. exact step_reverse. Qed.
Print Assumptions C04_reverse.

(** * C06 *)
Theorem C06_positions : forall svy start unit mc, MinCurve svy start unit = Some mc ->
  length (mc_poss mc) = length svy /\
  nth_error (mc_poss mc) 0 = Some start /\
  forall k a b p q,
    nth_error svy k = Some a -> nth_error svy (S k) = Some b ->
    nth_error (mc_poss mc) k = Some p -> nth_error (mc_poss mc) (S k) = Some q ->
    let d := min_curve_step (st_md b - st_md a) (st_inc a) (st_azi a) (st_inc b) (st_azi b) in
    q = vadd p (mkV (vy d) (vx d) (vz d)).
Proof. exact MinCurve_positions. Qed.
Print Assumptions C06_positions.
Theorem C06_accepts : forall svy start unit,
  (exists mc, MinCurve svy start unit = Some mc)
  <-> ((unit = "meters" \/ unit = "feet")%string /\ (2 <= length svy)%nat).
Proof. exact MinCurve_some. Qed.
Print Assumptions C06_accepts.
Example C06_case : exists mc, MinCurve [mkSt 0 0 0; mkSt 100 1 2; mkSt 250 2 3] (mkV 5 6 7) "feet" = Some mc.
Proof. apply C06_accepts. split; [right; reflexivity | simpl; auto]. Qed.
Theorem C06_prefix : forall svy start unit mc m mc', MinCurve svy start unit = Some mc ->
  MinCurve (firstn m svy) start unit = Some mc' -> mc_poss mc' = firstn m (mc_poss mc).
Proof. exact MinCurve_prefix. Qed.
Print Assumptions C06_prefix.
Theorem C06_translation : forall svy start shift unit mc mc', MinCurve svy start unit = Some mc ->
  MinCurve svy (vadd start shift) unit = Some mc' ->
  mc_poss mc' = map (fun p => vadd p shift) (mc_poss mc).
Proof. exact MinCurve_translate. Qed.
Print Assumptions C06_translation.

(** * C07 *)
Theorem C07_dls : forall svy start unit mc k a b,
  MinCurve svy start unit = Some mc ->
  nth_error svy k = Some a -> nth_error svy (S k) = Some b ->
  let dl := get_dogleg (st_inc a) (st_azi a) (st_inc b) (st_azi b) in
  let per := if String.eqb unit "meters" then 30 else 100 in
  nth_error (mc_dls mc) 0 = Some (Fin 0) /\
  nth_error (mc_dogleg mc) (S k) = Some dl /\
  (st_md a <> st_md b ->
     nth_error (mc_dls mc) (S k) = Some (Fin (dl * (180 / PI) * per / (st_md b - st_md a)))) /\
  (st_md a = st_md b -> dl = 0 -> nth_error (mc_dls mc) (S k) = Some (Fin 0)) /\
  (st_md a = st_md b -> dl <> 0 -> nth_error (mc_dls mc) (S k) = Some PInf).
Proof. exact MinCurve_dls_spec. Qed.
Print Assumptions C07_dls.
Example C07_case_repeat_turn :
  let a := mkSt 100 0 0 in let b := mkSt 100 (PI/2) 0 in
  (exists mc, MinCurve [a; b] vzero "meters" = Some mc) /\
  st_md a = st_md b /\ get_dogleg (st_inc a) (st_azi a) (st_inc b) (st_azi b) <> 0.
Proof.
  split. apply C06_accepts. split; [left; reflexivity | simpl; auto].
  split. reflexivity. simpl. rewrite dogleg_quarter. pose proof PI_RGT_0. lra.
Qed.

(** * C08 *)
Theorem C08_rotation : forall inc azi, rotation (get_transform inc azi).
Proof. exact transform_rotation. Qed.
Print Assumptions C08_rotation.
Theorem C08_vector_roundtrip : forall inc azi v,
  HLA_to_NEV_vec inc azi (NEV_to_HLA_vec inc azi v) = v /\
  NEV_to_HLA_vec inc azi (HLA_to_NEV_vec inc azi v) = v.
Proof. exact (fun i a v => conj (hla_vec_roundtrip i a v) (nev_vec_roundtrip i a v)). Qed.
Print Assumptions C08_vector_roundtrip.
Theorem C08_cov_roundtrip : forall inc azi c,
  HLA_to_NEV_cov inc azi (NEV_to_HLA_cov inc azi c) = c /\
  NEV_to_HLA_cov inc azi (HLA_to_NEV_cov inc azi c) = c.
Proof. exact (fun i a c => conj (hla_cov_roundtrip i a c) (nev_cov_roundtrip i a c)). Qed.
Print Assumptions C08_cov_roundtrip.
Theorem C08_tangent_axis : forall inc azi, NEV_to_HLA_vec inc azi (direction_nev inc azi) = mkV 0 0 1.
Proof. exact hla_tangent. Qed.
Print Assumptions C08_tangent_axis.
Theorem C08_lateral_axis : forall inc azi, 0 < inc < PI ->
  right_of (direction_nev inc azi) (HLA_to_NEV_vec inc azi (mkV 0 1 0))
  /\ HLA_to_NEV_vec inc azi (mkV 1 0 0)
     = cross (HLA_to_NEV_vec inc azi (mkV 0 1 0)) (direction_nev inc azi).
Proof. exact hla_right_of. Qed.
Print Assumptions C08_lateral_axis.
Example C08_lateral_axis_case : 0 < 1 < PI.
Proof. pose proof PI_ineq. lra. Qed.
Theorem C08_variance : forall inc azi c v,
  qform (NEV_to_HLA_cov inc azi c) (NEV_to_HLA_vec inc azi v) = qform c v.
Proof. exact hla_cov_variance. Qed.
Print Assumptions C08_variance.
Theorem C08_cov_structure : forall inc azi c,
  (symmetric c -> symmetric (NEV_to_HLA_cov inc azi c)) /\
  (psd c <-> psd (NEV_to_HLA_cov inc azi c)) /\
  trace (NEV_to_HLA_cov inc azi c) = trace c.
Proof. exact (fun i a c => conj (hla_cov_sym i a c) (conj (hla_cov_psd i a c) (hla_cov_trace i a c))). Qed.
Print Assumptions C08_cov_structure.

(** * C09 *)
Theorem C09_unpack_pack : forall row, errors_from_cov (make_long_cov row) = row.
Proof. exact pack_unpack. Qed.
Print Assumptions C09_unpack_pack.
Theorem C09_pack_symmetric : forall row, symmetric (make_long_cov row).
Proof. exact long_cov_sym. Qed.
Print Assumptions C09_pack_symmetric.
Theorem C09_pack_unpack : forall c, symmetric c -> make_long_cov (errors_from_cov c) = c.
Proof. exact unpack_pack. Qed.
Print Assumptions C09_pack_unpack.
Example C09_pack_unpack_case : symmetric (mkM (mkV 1 2 3) (mkV 2 4 5) (mkV 3 5 6)).
Proof. reflexivity. Qed.
Theorem C09_sigmas : forall row, get_sigmas_long (make_long_cov row)
  = (s_aa row, s_bb row, s_cc row, s_ab row, s_ac row, s_bc row).
Proof. exact sigmas_long_pack. Qed.
Print Assumptions C09_sigmas.
Theorem C09_cov_from_vec : forall v,
  symmetric (cov_from_vec v) /\ psd (cov_from_vec v) /\ rank_le_1 (cov_from_vec v) /\
  (forall w, qform (cov_from_vec v) w = dot v w * dot v w).
Proof. exact cov_from_vec_spec. Qed.
Print Assumptions C09_cov_from_vec.
Theorem C09_make_cov : forall a b c, make_cov a b c true = cov_from_vec (mkV a b c).
Proof. exact make_cov_outer. Qed.
Print Assumptions C09_make_cov.
Theorem C09_make_cov_diagonal : forall a b c, 0 <= a -> 0 <= b -> 0 <= c ->
  symmetric (make_cov a b c false) /\ psd (make_cov a b c false)
  /\ get_sigmas (make_cov a b c false) = (a, b, c).
Proof. exact make_cov_diag. Qed.
Print Assumptions C09_make_cov_diagonal.

(** * C10 *)
Theorem C10_inverse : forall x, x <> 0 ->
  dls_from_radius_scalar (radius_from_dls_scalar (Fin x)) = Fin x /\
  radius_from_dls_scalar (dls_from_radius_scalar (Fin x)) = Fin x /\
  dls_from_radius_array (radius_from_dls_array (Fin x)) = Fin x /\
  radius_from_dls_array (dls_from_radius_array (Fin x)) = Fin x.
Proof. exact dls_radius_inverse. Qed.
Print Assumptions C10_inverse.
(** the value itself: the arc of that radius turns dls degrees in 30 units of length *)
Theorem C10_value : forall r, r <> 0 ->
  dls_from_radius_scalar (Fin r) = Fin (30 / r * (180 / PI)).
Proof. exact dls_value. Qed.
Print Assumptions C10_value.
Theorem C10_specials :
  radius_from_dls_scalar (Fin 0) = PInf /\ radius_from_dls_array (Fin 0) = PInf /\
  dls_from_radius_scalar PInf = Fin 0 /\ dls_from_radius_array PInf = Fin 0 /\
  dls_from_radius_scalar (Fin 0) = PInf /\ dls_from_radius_array (Fin 0) = Fin 0.
Proof. exact dls_radius_specials. Qed.
Print Assumptions C10_specials.
Theorem C10_forms_agree_except_at_zero : forall x,
  (dls_from_radius_array x = dls_from_radius_scalar x <-> x <> Fin 0) /\
  radius_from_dls_array x = radius_from_dls_scalar x.
Proof. exact (fun x => conj (dls_forms_agree x) (radius_forms_agree x)). Qed.
Print Assumptions C10_forms_agree_except_at_zero.

(** * C11 *)
Theorem C11_roundtrip : forall x,
  (dms2decimal (decimal2dms x) = x <-> ~ (-1 < x < 0)) /\
  (-1 < x < 0 -> dms2decimal (decimal2dms x) = - x).
Proof. exact dms_roundtrip_iff. Qed.
Print Assumptions C11_roundtrip.
Theorem C11_fields : forall x,
  let '(d, m, s) := decimal2dms x in (0 <= m <= 59)%Z /\ 0 <= s < 60.
Proof. exact dms_fields. Qed.
Print Assumptions C11_fields.

(** * C12 *)
Theorem C12_implementations_agree : forall pos1 vec1 pos2, vec1 <> vzero ->
  get_toolface_fast pos1 vec1 pos2 = get_toolface pos1 vec1 pos2.
Proof. exact toolface_fast_eq. Qed.
Print Assumptions C12_implementations_agree.
Theorem C12_bearing : forall pos1 vec1 u pos2, points_along vec1 u ->
  (vx vec1 <> 0 \/ vy vec1 <> 0) ->
  exists l, right_of u l /\
    bearing_from (cross l u) l (vsub pos2 pos1) (get_toolface pos1 vec1 pos2).
Proof. exact toolface_spec. Qed.
Print Assumptions C12_bearing.
Example C12_bearing_case : points_along (mkV 3 0 4) (mkV (3/5) 0 (4/5)) /\ (3 <> 0 \/ 0 <> 0).
Proof. split. exact along_345. left; lra. Qed.
Theorem C12_range : forall pos1 vec1 pos2, 0 <= get_toolface pos1 vec1 pos2 < 2 * PI.
Proof. exact toolface_range. Qed.
Print Assumptions C12_range.
(** straight down (or up): high side is taken as north (or south), right as east *)
Theorem C12_vertical : forall pos1 pos2 s, s = 1 \/ s = -1 ->
  bearing_from (mkV s 0 0) (mkV 0 1 0) (vsub pos2 pos1) (get_toolface pos1 (mkV 0 0 s) pos2).
Proof. exact toolface_vertical. Qed.
Print Assumptions C12_vertical.
Theorem C12_along : forall pos1 vec1 pos2 k, vec1 <> vzero ->
  get_toolface pos1 vec1 (vadd pos2 (vscale k vec1)) = get_toolface pos1 vec1 pos2.
Proof. exact toolface_along. Qed.
Print Assumptions C12_along.
Theorem C12_translate : forall pos1 vec1 pos2 d,
  get_toolface (vadd pos1 d) vec1 (vadd pos2 d) = get_toolface pos1 vec1 pos2.
Proof. exact toolface_translate. Qed.
Print Assumptions C12_translate.

(** * C13 *)
Theorem C13_arc : forall dogleg radius toolface pos vec u p v len vec', points_along vec u ->
  get_arc dogleg radius toolface pos vec false = (p, v, len, vec') ->
  circular_arc pos u len dogleg p v /\ len = dogleg * radius /\ is_unit v /\ vec' = vec.
Proof. exact get_arc_spec. Qed.
Print Assumptions C13_arc.
Example C13_arc_case : points_along (mkV 3 0 4) (mkV (3/5) 0 (4/5)).
Proof. exact along_345. Qed.
Theorem C13_arc_is_min_curve : forall dogleg radius toolface pos vec p v len vec' i1 a1 i2 a2,
  points_along vec (direction_nev i1 a1) -> 0 < dogleg < PI ->
  get_arc dogleg radius toolface pos vec false = (p, v, len, vec') -> v = direction_nev i2 a2 ->
  p = vadd pos (min_curve_step len i1 a1 i2 a2).
Proof. exact get_arc_min_curve. Qed.
Print Assumptions C13_arc_is_min_curve.
Theorem C13_arc_leaves_at_toolface : forall dogleg radius toolface pos vec u p v len vec',
  points_along vec u -> 0 < radius -> 0 < dogleg < 2 * PI ->
  get_arc dogleg radius toolface pos vec false = (p, v, len, vec') ->
  get_toolface pos vec p = rmod toolface (2 * PI).
Proof. exact arc_has_toolface. Qed.
Print Assumptions C13_arc_leaves_at_toolface.
Theorem C13_clc_joined : forall tf1 d1 dist tf2 d2 pos0 vec0 u0 r, points_along vec0 u0 ->
  let c := make_clc_path tf1 d1 dist tf2 d2 pos0 vec0 r in
  circular_arc pos0 u0 (clc_dist1 c) d1 (clc_pos1 c) (clc_vec1 c) /\
  clc_pos2 c = vadd (clc_pos1 c) (vscale dist (clc_vec1 c)) /\
  clc_vec2 c = clc_vec1 c /\
  circular_arc (clc_pos2 c) (clc_vec2 c) (clc_dist2 c) d2 (clc_pos3 c) (clc_vec3 c) /\
  clc_dist1 c = d1 * r /\ clc_dist2 c = d2 * r.
Proof. exact clc_spec. Qed.
Print Assumptions C13_clc_joined.

(** * C47: get_arc(target=True) ends at the given point, and flips the caller's vec *)
Theorem C47_target_arc : forall dogleg radius toolface pos vec u p v len vec', points_along vec u ->
  get_arc dogleg radius toolface pos vec true = (p, v, len, vec') ->
  circular_arc p v len dogleg pos u /\ len = dogleg * radius /\ vec' = vneg vec.
Proof. exact get_arc_target_spec. Qed.
Print Assumptions C47_target_arc.
(** so the same call repeated with the same variable does not give the same arc *)
Theorem C47_repeat_differs_refuted : exists dogleg radius toolface pos vec p v len vec' p2 v2 len2 vec2,
  get_arc dogleg radius toolface pos vec true = (p, v, len, vec') /\
  get_arc dogleg radius toolface pos vec' true = (p2, v2, len2, vec2) /\ p <> p2.
Proof. exact target_arc_repeat. Qed.
Print Assumptions C47_repeat_differs_refuted.
