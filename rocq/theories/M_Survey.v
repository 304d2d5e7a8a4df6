(** Model of /repo/welleng/survey.py: azimuth references, survey positions,
    interpolation, slicing, vertical section, projection. *)
Require Import Reals ZArith Bool String List.
Require Import Verif.Base Verif.NumPy Verif.M_Utils.
Import ListNotations.
Open Scope R_scope.

(** welleng/survey.py:270-475 SurveyHeader: the fields that the modelled code
    reads; angles are stored in radians (lines 432-441). *)
Inductive azi_ref := RefTrue | RefMagnetic | RefGrid.
Record header := mkHeader {
  h_ref : azi_ref;
  h_convergence : R;
  h_declination : R;
  h_gsf : R;                 (* grid_scale_factor *)
  h_vs_azimuth : option R;   (* vertical_section_azimuth *)
  h_unit : string            (* depth_unit *)
}.

(** the six azimuth attributes of one station *)
Record azis := mkAzis {
  az_grid_deg : R; az_grid_rad : R;
  az_true_deg : R; az_true_rad : R;
  az_mag_deg : R; az_mag_rad : R
}.

(** welleng/survey.py:771-836 _process_azi_ref (with _make_angles 894-908,
    _get_azi_temp 814-822 and the two deg/rad converters 824-836), one station *)
Definition process_azi_ref (ref : azi_ref) (conv decl : R) (deg : bool) (azi : R) : azis :=
  match ref with
  | RefGrid =>
      let grid_deg := if deg then azi else degrees azi in
      let grid_rad := if deg then radians azi else azi in
      let true_deg := grid_deg + degrees conv in
      let mag_deg := true_deg - degrees decl in
      mkAzis grid_deg grid_rad true_deg (radians true_deg) mag_deg (radians mag_deg)
  | RefTrue =>
      if deg then
        let true_deg := azi in
        let mag_deg := true_deg - degrees decl in
        let temp := true_deg - degrees conv in
        mkAzis temp (radians temp) true_deg (radians true_deg) mag_deg (radians mag_deg)
      else
        let true_rad := azi in
        let mag_rad := true_rad - decl in
        let temp := true_rad - conv in
        mkAzis (degrees temp) temp (degrees true_rad) true_rad (degrees mag_rad) mag_rad
  | RefMagnetic =>
      if deg then
        let mag_deg := azi in
        let true_deg := mag_deg + degrees decl in
        let temp := true_deg - degrees conv in
        mkAzis temp (radians temp) true_deg (radians true_deg) mag_deg (radians mag_deg)
      else
        let mag_rad := azi in
        let true_rad := mag_rad + decl in
        let temp := true_rad - conv in
        mkAzis (degrees temp) temp (degrees true_rad) true_rad (degrees mag_rad) mag_rad
  end.

(** The observable part of a Survey object used below: header, the rows
    (md, inc_rad, azi_grid_rad), the other azimuths, the positions and the
    optional covariances. *)
Record survey := mkSurvey {
  sv_header : header;
  sv_rows : list station;         (* survey_rad *)
  sv_azi_true : list R;           (* azi_true_rad *)
  sv_azi_mag : list R;            (* azi_mag_rad *)
  sv_dogleg : list R;
  sv_delta_md : list R;
  sv_xyz : list V3;               (* x, y, z *)
  sv_nev : list V3;               (* n, e, tvd *)
  sv_pos_nev : list V3;           (* pos_nev *)
  sv_interpolated : list bool
}.

(** a row as passed to the constructor: md, inc, azi *)
Definition row := (R * R * R)%type.

(** welleng/survey.py:594-769 Survey.__init__ without n/e/tvd, x/y/z, vec and
    covariance arguments: the unit assertion (lines 699-701), the azimuths, and
    _min_curve (847-883) with _get_nev (885-892).  None = AssertionError.
    pos_nev is scaled by the grid scale factor and is relative to start_nev but
    contains start_xyz; n/e/tvd are not scaled and have start_xyz removed. *)
Definition Survey (h : header) (rows : list row) (deg : bool)
  (start_xyz start_nev : V3) (unit : string) : option survey :=
  if negb (String.eqb unit (h_unit h)) then None
  else
    let conv (r : row) :=
      let '(md, inc, azi) := r in
      let a := process_azi_ref (h_ref h) (h_convergence h) (h_declination h) deg azi in
      (mkSt md (if deg then radians inc else inc) (az_grid_rad a), a) in
    let sts := map (fun r => fst (conv r)) rows in
    match MinCurve sts start_xyz unit with
    | None => None
    | Some mc =>
        let scaled (p : V3) :=
          let q := get_nev p vzero vzero in
          vadd (mkV (vx q * h_gsf h) (vy q * h_gsf h) (vz q * 1)) start_nev in
        Some (mkSurvey h sts
          (map (fun r => az_true_rad (snd (conv r))) rows)
          (map (fun r => az_mag_rad (snd (conv r))) rows)
          (mc_dogleg mc) (mc_delta_md mc)
          (mc_poss mc)
          (map (fun p => get_nev p start_xyz start_nev) (mc_poss mc))
          (map scaled (mc_poss mc))
          (map (fun _ => false) rows))
    end.

(** welleng/survey.py:1862-1887 and 1929-1941: inclination and azimuth of the
    station at distance x after station a on the arc to station b.
    vec_xyz are the get_vec vectors of the two stations (lines 879-883). *)
Definition interp_angles (a b : station) (x : R) : R * R :=
  let total_dogleg := pair_dogleg a b in
  if Req_EM_T total_dogleg 0 then (st_inc a, st_azi a)
  else
    let t1 := get_vec false 1 (st_inc a) (st_azi a) in
    let t2 := get_vec false 1 (st_inc b) (st_azi b) in
    let dogleg := x * (total_dogleg / (st_md b - st_md a)) in
    let t := vadd (vscale (sin (total_dogleg - dogleg) / sin total_dogleg) t1)
                  (vscale (sin dogleg / sin total_dogleg) t2) in
    get_angles false (vunit t).

(** the interpolated station itself *)
Definition interp_station (a b : station) (x : R) : station :=
  let '(i, z) := interp_angles a b x in mkSt (st_md a + x) i z.

(** welleng/survey.py:1922-1946 _interpolate_pos_nev *)
Definition interpolate_pos_nev (pos : V3) (a b : station) (x : R) : V3 :=
  let '(inc2, azi2) := interp_angles a b x in
  vadd pos (min_curve_step x (st_inc a) (st_azi a) inc2 azi2).

(** welleng/survey.py:1829-1919 _interpolate_survey, covariances left out:
    the header object is shared and its azi_reference is set to "grid"
    (lines 1898-1899), so the result contains the caller's header after the call.
    None = an assertion fails (index out of range, or in the constructor). *)
Definition interpolate_at (s : survey) (x : R) (index : nat) : option (survey * header) :=
  match nth_error (sv_rows s) index, nth_error (sv_rows s) (S index),
        nth_error (sv_xyz s) index, nth_error (sv_nev s) index with
  | Some a, Some b, Some xyz, Some nev =>
      let '(inc, azi) := interp_angles a b x in
      let h := sv_header s in
      let sh := mkHeader RefGrid (h_convergence h) (h_declination h) (h_gsf h)
                         (h_vs_azimuth h) (h_unit h) in
      match Survey sh [(st_md a, st_inc a, st_azi a); (st_md a + x, inc, azi)]
                   false xyz nev (h_unit sh) with
      | None => None
      | Some r =>
          let interpolated :=
            if Req_EM_T x 0 then false
            else if Req_EM_T x (st_md b - st_md a) then false else true in
          Some (mkSurvey (sv_header r) (sv_rows r) (sv_azi_true r) (sv_azi_mag r)
                  (sv_dogleg r) (sv_delta_md r) (sv_xyz r) (sv_nev r) (sv_pos_nev r)
                  [false; interpolated], sh)
      end
  | _, _, _, _ => None
  end.

(** np.searchsorted(l, v, side="left") on a sorted list *)
Fixpoint searchsorted_left (l : list R) (v : R) : nat :=
  match l with
  | [] => 0
  | a :: r => if Rlt_dec a v then S (searchsorted_left r v) else 0
  end.
(** side="right" *)
Fixpoint searchsorted_right (l : list R) (v : R) : nat :=
  match l with
  | [] => 0
  | a :: r => if Rle_dec a v then S (searchsorted_right r v) else 0
  end.

Inductive md_result :=
  | MdNone                                   (* returns None *)
  | MdError                                  (* raises *)
  | MdSurvey (s : survey) (h : header).      (* result, caller's header after *)

(** welleng/survey.py:1809-1826 interpolate_md *)
Definition interpolate_md (s : survey) (md : R) : md_result :=
  let mds := map st_md (sv_rows s) in
  let k := searchsorted_left mds md in         (* idx = k - 1 *)
  if (length mds <=? k)%nat then MdNone        (* idx >= len - 1 *)
  else
    let '(idx, x) :=
      match k with
      | O => (O, 0)
      | S j => (j, md - nth j mds 0)
      end in
    match interpolate_at s x idx with
    | None => MdError
    | Some (r, h) => MdSurvey r h
    end.

(** a Node as returned to the caller *)
Record node := mkNode { nd_md : R; nd_pos : V3; nd_vec : V3; nd_interp : bool }.

(** welleng/survey.py:1780-1806 get_node(s, 1, interpolated) on the two-row
    result; vec_nev is get_vec(inc, azi, nev=True) (lines 881-883) *)
Definition node_of (s : survey) : option node :=
  match nth_error (sv_rows s) 1, nth_error (sv_nev s) 1, nth_error (sv_interpolated s) 1 with
  | Some st, Some p, Some b => Some (mkNode (st_md st) p (get_vec true 1 (st_inc st) (st_azi st)) b)
  | _, _, _ => None
  end.

(** welleng/survey.py:1084-1132 Survey.interpolate_md *)
Inductive node_result := NodeNone | NodeError | NodeOk (n : node) (h : header).
Definition survey_interpolate_md (s : survey) (md : R) : node_result :=
  match interpolate_md s md with
  | MdNone => NodeNone
  | MdError => NodeError
  | MdSurvey r h => match node_of r with Some n => NodeOk n h | None => NodeError end
  end.

(** welleng/survey.py:1969-1975 tidy_up_angle *)
Definition tidy_up_angle (d : R) : R :=
  if Rlt_dec PI (Rabs d) then rmod d (2 * PI) else d.

(** welleng/survey.py:2019-2052: the turn angle at which the arc reaches the
    requested depth; coeff is +1 or -1; None = AssertionError (a negative
    discriminant gives nan in numpy, both comparisons are then False). *)
Definition tvd_angle (coeff u_z v_z dogleg delta_md rise : R) : option R :=
  let a := coeff * u_z * sin dogleg in
  let b := coeff * u_z * cos dogleg - coeff * v_z in
  let c := coeff * rise * dogleg * sin dogleg / delta_md + b in
  let disc := a ^ 2 + b ^ 2 - c ^ 2 in
  if Rlt_dec disc 0 then None
  else
    let d1 := tidy_up_angle (2 * arctan2 (a + sqrt disc) (b + c)) in
    let d2 := tidy_up_angle (2 * arctan2 (a - sqrt disc) (b + c)) in
    if Rlt_dec d1 0 then (if Rlt_dec d2 0 then None else Some d2)
    else if Rlt_dec d2 0 then Some d1
    else Some (Rmin d1 d2).

Inductive tvd_result :=
  | TvdError                                  (* AssertionError *)
  | TvdNaN                                    (* 0-division: numpy gives inf/nan *)
  | TvdOk (n : node) (h : header).

(** np.searchsorted(l, v, side="right"): numpy's binary search, also on a list
    that is not sorted (a well that climbs) *)
Fixpoint bisect_right (fuel : nat) (l : list R) (v : R) (lo hi : nat) : nat :=
  match fuel with
  | O => lo
  | S f =>
      if (lo <? hi)%nat then
        let mid := (lo + (hi - lo) / 2)%nat in
        if Rle_dec (nth mid l 0) v then bisect_right f l v (S mid) hi else bisect_right f l v lo mid
      else lo
  end.
Definition np_searchsorted_right (l : list R) (v : R) : nat :=
  bisect_right (length l) l v 0 (length l).

(** welleng/survey.py:1949-2066 interpolate_tvd without node_origin; the isnan
    branch (lines 2009-2010) cannot be taken over the reals.  Negative indices
    wrap in python, but a survey has at least two stations. *)
Definition interpolate_tvd (s : survey) (tvd : R) : tvd_result :=
  let tvds := map vz (sv_nev s) in
  let r := np_searchsorted_right tvds tvd in
  let len := length tvds in
  let '(idx, coeff) :=
    if (r =? len)%nat then (len - 2, 1)%nat
    else match r with O => (len - 2, 0)%nat | S i => (i, 1)%nat end in
  let coeff := match coeff with O => -1 | _ => 1 end in
  match nth_error (sv_rows s) idx, nth_error (sv_rows s) (S idx),
        nth_error (sv_nev s) idx, nth_error (sv_nev s) (S idx) with
  | Some a, Some b, Some p, Some q =>
      let dogleg := pair_dogleg a b in
      let delta_md := st_md b - st_md a in
      let finish (x : R) :=
        match interpolate_at s x idx with
        | None => TvdError
        | Some (r, h) =>
            match node_of r with
            | None => TvdError
            | Some n => TvdOk (mkNode (nd_md n) (nd_pos n) (nd_vec n)
                                 (if Rlt_dec 0 x then true else false)) h
            end
        end in
      if Req_EM_T dogleg 0 then
        if Req_EM_T (vz q) (vz p) then TvdNaN
        else finish ((tvd - vz p) / (vz q - vz p) * (st_md b - st_md a))
      else
        match tvd_angle coeff (vz (get_vec true 1 (st_inc a) (st_azi a)))
                (vz (get_vec true 1 (st_inc b) (st_azi b))) dogleg delta_md (tvd - vz p) with
        | None => TvdError
        | Some d =>
            let x := d / dogleg * delta_md in
            if Rle_dec x delta_md then finish x else TvdError
        end
  | _, _, _, _ => TvdError
  end.

(** welleng/survey.py:2069-2117 slice_survey: the rows (md, inc_rad,
    azi_grid_rad) are passed to Survey with the survey's own header and
    deg=False, so the grid azimuth is read in the header's reference.  The
    given n/e/tvd are kept (only those of the slice), start_nev is the first. *)
Definition slice_rows (s : survey) (start stop : nat) : list row :=
  map (fun st => (st_md st, st_inc st, st_azi st))
      (firstn (stop - start) (skipn start (sv_rows s))).
Definition slice_survey (s : survey) (start stop : nat) : option survey :=
  let nevs := firstn (stop - start) (skipn start (sv_nev s)) in
  match nevs with
  | [] => None                     (* n[0]: IndexError *)
  | p0 :: _ =>
      match Survey (sv_header s) (slice_rows s start stop) false vzero p0 (h_unit (sv_header s)) with
      | None => None
      | Some r => Some (mkSurvey (sv_header r) (sv_rows r) (sv_azi_true r) (sv_azi_mag r)
                    (sv_dogleg r) (sv_delta_md r) (sv_xyz r) nevs (sv_pos_nev r) (sv_interpolated r))
      end
  end.

(** welleng/survey.py:1269-1272 hypot, one interval *)
Definition hypot_step (p q : V3) : R := sqrt ((vx q - vx p) ^ 2 + (vy q - vy p) ^ 2).

Fixpoint rcumsum_from (acc : R) (l : list R) : list R :=
  match l with [] => [] | x :: r => (acc + x) :: rcumsum_from (acc + x) r end.

(** welleng/survey.py:1308-1313: azimuth array after the in-place write at
    vertical stations *)
Definition vs_azimuths (vs : R) (incs azis : list R) : list R :=
  map (fun p => if Req_EM_T (fst p) 0 then vs else snd p) (combine incs azis).

(** welleng/survey.py:1314-1321 get_vertical_section (deg=False): values, and
    the azimuth attribute of the survey after the call.  [azis] is the azimuth
    attribute of the header's reference, [nev] the (n,e,tvd) rows. *)
Definition get_vertical_section (vs : R) (incs azis : list R) (nev : list V3)
  : list R * list R :=
  let az := vs_azimuths vs incs azis in
  let avg := pairwise (fun a b => cos (vs - (b + a) / 2)) az in
  let hyp := pairwise hypot_step nev in
  (rcumsum_from 0 (0 :: map (fun p => fst p * snd p) (combine avg hyp)), az).

(** welleng/survey.py:1285-1321 Survey.get_vertical_section on a survey object:
    the azimuth attribute is the one of the header's reference (lines 1308-1311) *)
Definition ref_azimuths (s : survey) : list R :=
  match h_ref (sv_header s) with
  | RefGrid => map st_azi (sv_rows s)
  | RefTrue => sv_azi_true s
  | RefMagnetic => sv_azi_mag s
  end.
Definition survey_vertical_section (s : survey) (vs : R) : list R * list R :=
  get_vertical_section vs (map st_inc (sv_rows s)) (ref_azimuths s) (sv_nev s).

(** welleng/survey.py:2920-2985 project_ahead: position, vector, md *)
Definition project_ahead (pos vec : V3) (delta_md dls toolface md : R) : V3 * V3 * R :=
  if Rlt_dec 0 dls then
    let radius := (30 / dls) * 360 / (2 * PI) in       (* radius_from_dls, dls <> 0 *)
    let dogleg := radians (delta_md / 30 * dls) in
    let '(inc, azi) := get_angles true vec in
    let r := mm (rotz azi) (mm (roty inc) (rotz toolface)) in
    (vadd (mv r (arc_local_pos dogleg radius)) pos,
     mv r (arc_local_vec dogleg), md + delta_md)
  else (vadd pos (vscale delta_md vec), vec, md + delta_md).

(** welleng/survey.py:2609-2619 _remove_duplicates; [key] is md.round(decimals)
    of a row.  Each row is compared with its predecessor in the input.
    None = IndexError for an empty input (upper[0] needs two rows). *)
Fixpoint drop_same_as_prev {A : Type} (key : A -> Z) (prev : A) (l : list A) : list A :=
  match l with
  | [] => []
  | a :: r => if Z.eqb (key a) (key prev) then drop_same_as_prev key a r
              else a :: drop_same_as_prev key a r
  end.
Definition remove_duplicates {A : Type} (key : A -> Z) (l : list A) : option (list A) :=
  match l with
  | a :: ((_ :: _) as r) => Some (a :: drop_same_as_prev key a r)
  | _ => None
  end.

(** welleng/survey.py:2369-2387 get_unit *)
Definition get_unit (u : string) : option string :=
  if String.eqb u "m" then Some "meters"%string
  else if String.eqb u "meters" then Some "meters"%string
  else if String.eqb u "ft" then Some "feet"%string
  else if String.eqb u "feet" then Some "feet"%string
  else None.
