(** Model of /repo/welleng/utils.py (minimum curvature, vectors, covariances,
    arcs, toolface, conversions).  Arithmetic is over R: rounding is not
    modelled.  Arrays of n rows are lists of rows; a function that numpy
    broadcasts is modelled on one row. *)
Require Import Reals ZArith Bool String List.
Require Import Verif.Base Verif.NumPy.
Import ListNotations.
Open Scope R_scope.

(** welleng/utils.py:9-28 get_dogleg *)
Definition get_dogleg (inc1 azi1 inc2 azi2 : R) : R :=
  2 * asin (sqrt (sin ((inc2 - inc1) / 2) ^ 2
                  + sin inc1 * sin inc2 * sin ((azi2 - azi1) / 2) ^ 2)).

(** welleng/utils.py:31-48 get_rf (np.where guards the division) *)
Definition get_rf (dogleg : R) : R :=
  if Req_EM_T dogleg 0 then 1 else 2 / dogleg * tan (dogleg / 2).

(** welleng/utils.py:51-80 min_curve_step with rf supplied; [N,E,V] order *)
Definition min_curve_step_rf (delta_md inc1 azi1 inc2 azi2 rf : R) : V3 :=
  let si1 := sin inc1 in let ci1 := cos inc1 in
  let si2 := sin inc2 in let ci2 := cos inc2 in
  let ca1 := cos azi1 in let sa1 := sin azi1 in
  let ca2 := cos azi2 in let sa2 := sin azi2 in
  let scale := delta_md * rf / 2 in
  mkV (scale * (si1 * ca1 + si2 * ca2))
      (scale * (si1 * sa1 + si2 * sa2))
      (scale * (ci1 + ci2)).

(** welleng/utils.py:51-80 min_curve_step with rf=None (lines 69-70) *)
Definition min_curve_step (delta_md inc1 azi1 inc2 azi2 : R) : V3 :=
  min_curve_step_rf delta_md inc1 azi1 inc2 azi2
    (get_rf (get_dogleg inc1 azi1 inc2 azi2)).

(** one survey row: md, inc, azi (radians) *)
Record station := mkSt { st_md : R; st_inc : R; st_azi : R }.

(** result of MinCurve.__init__ (the attributes it sets) *)
Record mincurve := mkMC {
  mc_delta_md : list R;
  mc_dogleg : list R;
  mc_rf : list R;
  mc_dls : list ext;
  mc_poss : list V3
}.

(** welleng/utils.py:111-113, 143: the two accepted units and the dls coefficient *)
Definition unit_coeff (unit : string) : option R :=
  if String.eqb unit "meters" then Some 30
  else if String.eqb unit "feet" then Some 100 else None.

(** welleng/utils.py:130-131 dogleg of a consecutive pair *)
Definition pair_dogleg (a b : station) : R :=
  get_dogleg (st_inc a) (st_azi a) (st_inc b) (st_azi b).

(** welleng/utils.py:136-141: row of (delta_x, delta_y, delta_z) = (E, N, V);
    the rf passed is get_rf(dogleg) (lines 133-134) *)
Definition pair_delta (a b : station) : V3 :=
  let d := min_curve_step_rf (st_md b - st_md a) (st_inc a) (st_azi a)
             (st_inc b) (st_azi b) (get_rf (pair_dogleg a b)) in
  mkV (vy d) (vx d) (vz d).

(** welleng/utils.py:144-149: raw = degrees(dogleg)/delta_md, NaN -> 0, * coeff *)
Definition ext_scale (k : R) (e : ext) : ext :=
  match e with
  | Fin r => Fin (k * r)
  | other => other   (* the coefficients 30 and 100 are positive *)
  end.
Definition pair_dls (coeff : R) (a b : station) : ext :=
  match ediv (degrees (pair_dogleg a b)) (st_md b - st_md a) with
  | NaN => Fin 0
  | e => ext_scale coeff e
  end.

(** welleng/utils.py:83-157 MinCurve.__init__; None = AssertionError.
    The code takes three parallel arrays; here they are one list of rows. *)
Definition MinCurve (svy : list station) (start_xyz : V3) (unit : string)
  : option mincurve :=
  match unit_coeff unit with
  | None => None
  | Some coeff =>
      if (length svy <=? 1)%nat then None
      else
        let doglegs := pairwise pair_dogleg svy in
        Some (mkMC
          (diff_from 0 (map st_md svy))
          (0 :: doglegs)
          (1 :: map get_rf doglegs)
          (Fin 0 :: pairwise (pair_dls coeff) svy)
          (map (fun p => vadd p start_xyz)
               (vcumsum (vzero :: pairwise pair_delta svy))))
  end.

(** division of a vector by its norm (np.linalg.norm); meaningful for non-zero
    vectors only, numpy gives nan otherwise *)
Definition vunit (v : V3) : V3 := vscale (/ norm v) v.

(** welleng/utils.py:160-192 get_vec, deg=False *)
Definition get_vec (nev : bool) (r inc azi : R) : V3 :=
  let y := r * sin inc * cos azi in
  let x := r * sin inc * sin azi in
  let z := r * cos inc in
  vunit (if nev then mkV y x z else mkV x y z).

(** welleng/utils.py:195-221 get_nev *)
Definition get_nev (pos start_xyz start_nev : V3) : V3 :=
  let d := vsub pos start_xyz in
  vadd (mkV (vy d) (vx d) (vz d)) start_nev.

(** welleng/utils.py:224-229 get_xyz *)
Definition get_xyz (pos start_xyz start_nev : V3) : V3 :=
  let d := vsub pos start_nev in
  vadd (mkV (vy d) (vx d) (vz d)) start_xyz.

(** welleng/utils.py:232-237 _get_angles on one (x,y,z) row: (inc, azi) *)
Definition get_angles_xyz (v : V3) : R * R :=
  let xy := vx v ^ 2 + vy v ^ 2 in
  (arctan2 (sqrt xy) (vz v),
   rmod (arctan2 (vx v) (vy v) + 2 * PI) (2 * PI)).

(** welleng/utils.py:240-267 get_angles *)
Definition get_angles (nev : bool) (v : V3) : R * R :=
  let u := vunit v in
  get_angles_xyz (if nev then mkV (vy u) (vx u) (vz u) else u).

(** welleng/utils.py:270-280 _get_transform *)
Definition get_transform (inc azi : R) : M3 :=
  let ci := cos inc in let si := sin inc in
  let ca := cos azi in let sa := sin azi in
  mkM (mkV (ci * ca) (ci * sa) (- si))
      (mkV (- sa) ca 0)
      (mkV (si * ca) (si * sa) ci).

(** welleng/utils.py:306-345 NEV_to_HLA, cov=True and cov=False
    (einsum('...k,...jk', NEV, trans) is trans @ NEV) *)
Definition NEV_to_HLA_cov (inc azi : R) (c : M3) : M3 :=
  let t := get_transform inc azi in mm (mm t c) (mtrans t).
Definition NEV_to_HLA_vec (inc azi : R) (v : V3) : V3 :=
  let t := get_transform inc azi in
  mkV (dot v (r1 t)) (dot v (r2 t)) (dot v (r3 t)).

(** welleng/utils.py:348-358 HLA_to_NEV, cov=True and cov=False (row @ trans) *)
Definition HLA_to_NEV_cov (inc azi : R) (c : M3) : M3 :=
  let t := get_transform inc azi in mm (mm (mtrans t) c) t.
Definition HLA_to_NEV_vec (inc azi : R) (v : V3) : V3 :=
  vrow_m v (get_transform inc azi).

(** the six numbers aa ab ac bb bc cc *)
Record six := mkSix { s_aa : R; s_ab : R; s_ac : R; s_bb : R; s_bc : R; s_cc : R }.

(** welleng/utils.py:361-385 get_sigmas(long=True): (aa,bb,cc,ab,ac,bc); each
    [cov[:, :, j].T] is column j, later assignments overwrite earlier ones:
    ab is row 0 of column 1, ac row 0 of column 2, bc row 1 of column 2 *)
Definition get_sigmas_long (c : M3) : R * R * R * R * R * R :=
  (vx (r1 c), vy (r2 c), vz (r3 c), vy (r1 c), vz (r1 c), vz (r2 c)).
(** welleng/utils.py:361-385 get_sigmas(long=False) *)
Definition get_sigmas (c : M3) : R * R * R :=
  (sqrt (vx (r1 c)), sqrt (vy (r2 c)), sqrt (vz (r3 c))).

(** welleng/utils.py:394-403 linear_convert on a list; None entries stay None *)
Definition linear_convert (data : list (option R)) (factor : R) : list (option R) :=
  map (fun d => match d with Some x => Some (x * factor) | None => None end) data.

(** welleng/utils.py:406-422 make_cov on scalars (the final .T transposes) *)
Definition make_cov (a b c : R) (long : bool) : M3 :=
  mtrans (if long then
    mkM (mkV (a * a) (a * b) (a * c))
        (mkV (a * b) (b * b) (b * c))
        (mkV (a * c) (b * c) (c * c))
  else
    mkM (mkV (a * a) 0 0) (mkV 0 (b * b) 0) (mkV 0 0 (c * c))).

(** welleng/utils.py:425-443 make_long_cov on one row *)
Definition make_long_cov (x : six) : M3 :=
  mkM (mkV (s_aa x) (s_ab x) (s_ac x))
      (mkV (s_ab x) (s_bb x) (s_bc x))
      (mkV (s_ac x) (s_bc x) (s_cc x)).

(** welleng/utils.py:503-526 errors_from_cov(data=False) on one matrix *)
Definition errors_from_cov (c : M3) : six :=
  mkSix (vx (r1 c)) (vy (r1 c)) (vz (r1 c)) (vy (r2 c)) (vz (r2 c)) (vz (r3 c)).

(** welleng/utils.py:486-500 cov_from_vec on one row *)
Definition cov_from_vec (v : V3) : M3 := outer v v.

(** IEEE operations needed by the dls/radius conversions, on [ext] values *)
Definition ext_mul_pos (k : R) (e : ext) : ext := ext_scale k e.   (* k > 0 *)
(** k / e for k > 0 (numpy array division: x/0 = inf) *)
Definition pos_div_ext (k : R) (e : ext) : ext :=
  match e with
  | Fin r => ediv k r
  | PInf | NInf => Fin 0
  | NaN => NaN
  end.
Definition ext_div_pos (e : ext) (k : R) : ext := ext_scale (/ k) e. (* k > 0 *)

(** welleng/utils.py:446-463 dls_from_radius, array branch (one element) *)
Definition dls_from_radius_array (radius : ext) : ext :=
  let circumference :=
    match radius with
    | Fin r => if Req_EM_T r 0 then PInf else Fin (2 * PI * r)
    | e => ext_mul_pos (2 * PI) e
    end in
  ext_mul_pos 30 (pos_div_ext 360 circumference).
(** welleng/utils.py:446-463 dls_from_radius, scalar branch *)
Definition dls_from_radius_scalar (radius : ext) : ext :=
  match radius with
  | Fin r => if Req_EM_T r 0 then PInf
             else ext_mul_pos 30 (pos_div_ext 360 (Fin (2 * PI * r)))
  | e => ext_mul_pos 30 (pos_div_ext 360 (ext_mul_pos (2 * PI) e))
  end.

(** welleng/utils.py:466-483 radius_from_dls, array branch *)
Definition radius_from_dls_array (dls : ext) : ext :=
  let circumference :=
    match dls with
    | Fin d => if Req_EM_T d 0 then PInf else ext_mul_pos 360 (pos_div_ext 30 (Fin d))
    | e => ext_mul_pos 360 (pos_div_ext 30 e)
    end in
  ext_div_pos circumference (2 * PI).
(** welleng/utils.py:466-483 radius_from_dls, scalar branch *)
Definition radius_from_dls_scalar (dls : ext) : ext :=
  match dls with
  | Fin d => if Req_EM_T d 0 then PInf
             else ext_div_pos (ext_mul_pos 360 (pos_div_ext 30 (Fin d))) (2 * PI)
  | e => ext_div_pos (ext_mul_pos 360 (pos_div_ext 30 e)) (2 * PI)
  end.

(** rotation matrices of scipy's Rotation.from_euler (lower case = extrinsic) *)
Definition rotz (t : R) : M3 :=
  mkM (mkV (cos t) (- sin t) 0) (mkV (sin t) (cos t) 0) (mkV 0 0 1).
Definition roty (t : R) : M3 :=
  mkM (mkV (cos t) 0 (sin t)) (mkV 0 1 0) (mkV (- sin t) 0 (cos t)).

(** welleng/utils.py:529-543 _get_arc_pos_and_vec *)
Definition arc_local_pos (dogleg radius : R) : V3 :=
  mkV (radius - cos dogleg * radius) (0 * radius) (sin dogleg * radius).
Definition arc_local_vec (dogleg : R) : V3 := mkV (sin dogleg) 0 (cos dogleg).

(** welleng/utils.py:569-614 Arc.transform.  [vec *= -1] (line 593) writes into
    the caller's array, so the third result is the caller's vec afterwards. *)
Definition arc_transform (dogleg radius toolface : R) (pos vec : V3) (target : bool)
  : V3 * V3 * V3 :=
  let vec' := if target then vscale (-1) vec else vec in
  let '(inc, azi) := get_angles true vec' in
  let r := mm (rotz azi) (mm (roty inc) (rotz toolface)) in
  let pos_new := mv r (arc_local_pos dogleg radius) in
  let vec_new := vunit (mv r (arc_local_vec dogleg)) in
  let pos_new := vadd pos_new pos in
  let vec_new := if target then vscale (-1) vec_new else vec_new in
  (pos_new, vec_new, vec').

(** welleng/utils.py:617-652 get_arc (pos and vec given): (pos, vec, delta_md)
    and the caller's vec after the call *)
Definition get_arc (dogleg radius toolface : R) (pos vec : V3) (target : bool)
  : V3 * V3 * R * V3 :=
  let '(p, v, vec') := arc_transform dogleg radius toolface pos vec target in
  (p, v, dogleg * radius, vec').

(** welleng/utils.py:655-700 annular_volume *)
Definition annular_volume (od : R) (id length : option R) : R :=
  let length := match length with None => 1 | Some l => l end in
  let id := match id with None => 0 | Some i => i end in
  let annular_unit_volume := (PI * (od ^ 2 - id ^ 2)) / 4 in
  annular_unit_volume * length.

(** welleng/utils.py:703-722 _decimal2dms for a bare number, ndigits=None:
    degrees, minutes (integers), seconds.  divmod(a,60) = (floor(a/60), a mod 60) *)
Definition decimal2dms (x : R) : Z * Z * R :=
  let total := Rabs x * 3600 in
  let minutes := rfloor (total / 60) in
  let seconds := rmod total 60 in
  (rtrunc x, (minutes mod 60)%Z, seconds).

(** welleng/utils.py:769-789 _dms2decimal, ndigits=None; np.copysign takes the
    sign of degrees (an integer zero is +0) *)
Definition copysign (x s : R) : R := if Rlt_dec s 0 then - Rabs x else Rabs x.
Definition dms2decimal (dms : Z * Z * R) : R :=
  let '(degrees, minutes, seconds) := dms in
  copysign (Rabs (IZR degrees) + IZR minutes / 60 + seconds / 3600) (IZR degrees).

(** welleng/utils.py:887-937 make_clc_path *)
Record clc := mkClc {
  clc_pos1 : V3; clc_vec1 : V3; clc_dist1 : R;
  clc_pos2 : V3; clc_vec2 : V3;
  clc_pos3 : V3; clc_vec3 : V3; clc_dist2 : R
}.
Definition make_clc_path (toolface1 dogleg1 distance toolface2 dogleg2 : R)
  (pos0 vec0 : V3) (radius : R) : clc :=
  let '(pos1, vec1, d1, _) := get_arc dogleg1 radius toolface1 pos0 vec0 false in
  let pos2 := vadd pos1 (vscale distance vec1) in
  let vec2 := vec1 in
  let '(pos3, vec3, d2, _) := get_arc dogleg2 radius toolface2 pos2 vec2 false in
  mkClc pos1 vec1 d1 pos2 vec2 pos3 vec3 d2.

(** welleng/utils.py:940-968 get_toolface on one row *)
Definition get_toolface (pos1 vec1 pos2 : V3) : R :=
  let '(inc, azi) := get_angles true vec1 in
  let r := mm (roty (inc * -1)) (rotz (azi * -1)) in
  let pos := mv r (vsub pos2 pos1) in
  rmod (arctan2 (vy pos) (vx pos)) (2 * PI).

(** welleng/utils.py:971-1009 get_toolface_fast *)
Definition get_toolface_fast (pos1 vec1 pos2 : V3) : R :=
  let n1 := vx pos1 in let e1 := vy pos1 in let v1 := vz pos1 in
  let n2 := vx pos2 in let e2 := vy pos2 in let v2 := vz pos2 in
  let vn1 := vx vec1 in let ve1 := vy vec1 in let vv1 := vz vec1 in
  let azimuth_vec1 := rmod (arctan2 ve1 vn1) (2 * PI) in
  let cos_azi := cos azimuth_vec1 in
  let sin_azi := sin azimuth_vec1 in
  let numerator := (e2 - e1) * cos_azi + (n1 - n2) * sin_azi in
  let horiz_mag := sqrt (ve1 ^ 2 + vn1 ^ 2) in
  let denominator :=
    (vv1 * (e2 - e1) * sin_azi
     + vv1 * (n2 - n1) * cos_azi
     + (v1 - v2) * horiz_mag) / sqrt (ve1 ^ 2 + vn1 ^ 2 + vv1 ^ 2) in
  rmod (arctan2 numerator denominator) (2 * PI).
