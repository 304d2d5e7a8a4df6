(** Model of the curve attributes of /repo/welleng/survey.py: toolfaces, build
    and turn rates, radii of curvature, plane normals and radius vectors
    (_get_toolface_and_rates), the circle centres of get_circle_radius and
    Survey.project_to_bit.  The survey is one built from md, inc and azi: the
    vectors are those of get_vec (lines 879-883).  A row whose components are
    nan (a zero vector divided by its norm) is None. *)
Require Import Reals ZArith Bool String List.
Require Import Verif.Base Verif.NumPy Verif.M_Utils Verif.M_Survey.
Import ListNotations.
Open Scope R_scope.

(** IEEE multiplication on [ext], as numpy's [*] *)
Definition sign_inf (positive : bool) : ext := if positive then PInf else NInf.
Definition emul (a b : ext) : ext :=
  match a, b with
  | NaN, _ | _, NaN => NaN
  | Fin x, Fin y => Fin (x * y)
  | Fin x, PInf | PInf, Fin x =>
      if Rlt_dec 0 x then PInf else if Rlt_dec x 0 then NInf else NaN
  | Fin x, NInf | NInf, Fin x =>
      if Rlt_dec 0 x then NInf else if Rlt_dec x 0 then PInf else NaN
  | PInf, PInf | NInf, NInf => PInf
  | PInf, NInf | NInf, PInf => NInf
  end.
(** np.absolute *)
Definition eabs (a : ext) : ext :=
  match a with Fin x => Fin (Rabs x) | NInf => PInf | e => e end.

(** welleng/survey.py:980-983 and 997-1000: depth unit of the rates *)
Definition rate_length (unit : string) : R :=
  if String.eqb unit "meters" then 30 else 100.

(** welleng/survey.py:1004-1010 t1, one pair (SplitSurvey lines 2138-2140);
    nan_to_num changes nothing that arctan2 returns *)
Definition toolface_start (a b : station) : R :=
  let d := st_azi b - st_azi a in
  arctan2 (sin (st_inc b) * sin d)
          (sin (st_inc b) * cos (st_inc a) * cos d - sin (st_inc a) * cos (st_inc b)).
(** welleng/survey.py:1016-1026 t2, one pair *)
Definition toolface_end (a b : station) : R :=
  let d := st_azi b - st_azi a in
  let t := arctan2 (sin (st_inc a) * sin d)
             (sin (st_inc b) * cos (st_inc a) - sin (st_inc a) * cos (st_inc b) * cos d) in
  if Rlt_dec t 0 then t + 2 * PI else t.

(** welleng/survey.py:1031 toolface: t1 of every pair, then the last t2 *)
Definition toolfaces (rows : list station) : list R :=
  pairwise toolface_start rows ++ [last (pairwise toolface_end rows) 0].

(** welleng/utils.py:143-149, survey.py:858: the dls attribute *)
Definition dls_list (x : R) (rows : list station) : list ext :=
  Fin 0 :: pairwise (pair_dls x) rows.

(** welleng/survey.py:1027 curve_radius, one station: (360 / dls * x) / (2 pi) *)
Definition curve_radius (x : R) (dls : ext) : ext :=
  ext_div_pos (ext_mul_pos x (pos_div_ext 360 dls)) (2 * PI).

(** welleng/survey.py:976-986 _curvature_to_rate, one station; numpy divides
    by zero silently there (1/0 = inf) *)
Definition curvature_to_rate (x : R) (curvature : ext) : ext :=
  let radius := pos_div_ext 1 curvature in
  let circumference := ext_mul_pos (2 * PI) radius in
  eabs (ext_mul_pos x (ext_mul_pos (180 / PI) (pos_div_ext (2 * PI) circumference))).

(** welleng/survey.py:1029, 1033-1036: turn rate at one station from its dls,
    toolface and inclination *)
Definition turn_rate_at (x : R) (dls : ext) (toolface inc : R) : ext :=
  let curvature := pos_div_ext 1 (curve_radius x dls) in
  curvature_to_rate x (emul curvature (ediv (sin toolface) (sin inc))).
(** welleng/survey.py:1029, 1038-1039: build rate at one station *)
Definition build_rate_at (x : R) (dls : ext) (toolface : R) : ext :=
  let curvature := pos_div_ext 1 (curve_radius x dls) in
  curvature_to_rate x (emul curvature (Fin (cos toolface))).

Definition turn_rates (x : R) (rows : list station) : list ext :=
  map (fun p => turn_rate_at x (fst (fst p)) (snd (fst p)) (st_inc (snd p)))
      (combine (combine (dls_list x rows) (toolfaces rows)) rows).
Definition build_rates (x : R) (rows : list station) : list ext :=
  map (fun p => build_rate_at x (fst p) (snd p))
      (combine (dls_list x rows) (toolfaces rows)).

(** welleng/survey.py:2142-2145 vec1_nev, vec2_nev: get_nev of vec_xyz *)
Definition vec_nev_of (a : station) : V3 :=
  get_nev (get_vec false 1 (st_inc a) (st_azi a)) vzero vzero.

(** a row divided by its norm; None = a row of nan *)
Definition row_unit (v : V3) : option V3 :=
  if Req_EM_T (norm v) 0 then None else Some (vscale (/ norm v) v).

(** welleng/survey.py:1043-1045 normals, one pair *)
Definition plane_normal (a b : station) : option V3 :=
  row_unit (cross (vec_nev_of a) (vec_nev_of b)).
Definition normals (rows : list station) : list (option V3) := pairwise plane_normal rows.

(** welleng/survey.py:1048-1052 vec_radius_nev: the first normal is used twice *)
Definition radius_vectors (rows : list station) : list (option V3) :=
  let ns := normals rows in
  map (fun p => match fst p with
                | Some n => Some (cross n (get_vec true 1 (st_inc (snd p)) (st_azi (snd p))))
                | None => None
                end)
      (combine (firstn 1 ns ++ ns) rows).

(** the attributes set by _get_toolface_and_rates *)
Record curves := mkCurves {
  cv_dls : list ext;
  cv_curve_radius : list ext;
  cv_toolface : list R;
  cv_turn_rate : list ext;
  cv_build_rate : list ext;
  cv_normals : list (option V3);
  cv_vec_radius : list (option V3)
}.

(** welleng/survey.py:988-1052 _get_toolface_and_rates *)
Definition survey_curves (s : survey) : curves :=
  let x := rate_length (h_unit (sv_header s)) in
  let rows := sv_rows s in
  let dls := dls_list x rows in
  mkCurves dls (map (curve_radius x) dls) (toolfaces rows)
    (turn_rates x rows) (build_rates x rows) (normals rows) (radius_vectors rows).

(** welleng/survey.py:2175-2184, one of cc1/cc2: nev - b/|b| * radius with
    b = cross(vec, normal); None = nan or infinite components (nan normal,
    infinite or nan radius) *)
Definition circle_centre (nev vec : V3) (n : option V3) (radius : ext) : option V3 :=
  match n, radius with
  | Some n, Fin r =>
      match row_unit (cross vec n) with
      | Some b => Some (vsub nev (vscale r b))
      | None => None
      end
  | _, _ => None
  end.

(** the four parallel arrays of lines 2175-2184, row by row *)
Definition circle_centres (nev vecs : list V3) (ns : list (option V3)) (radii : list ext)
  : list (option V3) :=
  map (fun p => let '(q, v, n, r) := p in circle_centre q v n r)
      (combine (combine (combine nev vecs) ns) radii).

(** welleng/survey.py:2150-2189 get_circle_radius: (starts, ends); starts is
    cc1 followed by cc2, ends the stations they belong to.  The vectors are
    vec1_nev and vec2_nev of SplitSurvey. *)
Definition get_circle_radius (s : survey) : list (option V3) * list V3 :=
  let c := survey_curves s in
  let nev := sv_nev s in
  let vecs := map vec_nev_of (sv_rows s) in
  let cc1 := circle_centres (removelast nev) (removelast vecs) (cv_normals c)
               (removelast (cv_curve_radius c)) in
  let cc2 := circle_centres (tl nev) (tl vecs) (cv_normals c) (tl (cv_curve_radius c)) in
  (cc1 ++ cc2, removelast nev ++ tl nev).

(** welleng/survey.py:1185-1221 Survey.project_to_bit (unpacked node: position,
    vector, md).  None = nan components (infinite dls) or IndexError.  An
    explicit dls or toolface replaces the survey's last one. *)
Definition project_to_bit (s : survey) (delta_md : R) (dls toolface : option R)
  : option (V3 * V3 * R) :=
  let c := survey_curves s in
  match sv_rows s, sv_nev s with
  | a :: ra, p :: rp =>
      let st := last ra a in
      let pos := last rp p in
      let vec := get_vec true 1 (st_inc st) (st_azi st) in
      let tf := match toolface with Some t => t | None => last (cv_toolface c) 0 end in
      let go (d : R) := Some (project_ahead pos vec delta_md d tf (st_md st)) in
      match dls with
      | Some d => go d
      | None =>
          match last (cv_dls c) (Fin 0) with
          | Fin d => go d
          | NInf => go (-1)            (* not positive: a hold *)
          | PInf | NaN => None
          end
      end
  | _, _ => None
  end.
