(** Model of /repo/welleng/clearance.py: what a clearance run takes from its two
    surveys (hole sizes, kick-off point), the run over all stations, and
    IscwsaClearance.get_sf_mins, which adds stations at minima of the separation
    factor. *)
Require Import Reals ZArith Bool String List.
Require Import Verif.Base Verif.NumPy Verif.M_Utils Verif.M_Survey Verif.M_Error Verif.M_Clearance Verif.M_MaxCurve.
Import ListNotations.
Open Scope R_scope.

(** A Survey with the two lists only clearance looks at: cov_nev and radius. *)
Record well := mkWell { w_survey : survey; w_cov : list M3; w_radius : list R }.

(** ** Hole sizes *)
(** the radius argument of Survey: None, a number, or a list *)
Inductive radius_arg := RadiusNone | RadiusNumber (r : R) | RadiusList (l : list R).
(** welleng/survey.py:838-846 _get_radius for n stations; None = AssertionError.
    A list of one is spread like a number (its last dimension is 1); the empty
    list has dimension 0 and is compared with n. *)
Definition survey_radius (n : nat) (a : radius_arg) : option (list R) :=
  match a with
  | RadiusNone => Some (repeat 0.3048 n)
  | RadiusNumber r => Some (repeat r n)
  | RadiusList [r] => Some (repeat r n)
  | RadiusList l => if (length l =? n)%nat then Some l else None
  end.
(** welleng/clearance.py:106-119 _get_radii, one well: radius attribute of the
    survey (None cannot happen after _get_radius), number of stations and the
    argument Rr or Ro *)
Definition clearance_radius (radius : option (list R)) (n : nat) (arg : R) : list R :=
  match radius with
  | Some l => l
  | None => repeat arg n
  end.

(** ** Kick-off point *)
(** welleng/clearance.py:170-217 _get_ref; [err_cov] is the result of
    _get_ref_cov_below_kop ([cov_below_kop]) when the survey has an error model.
    The grid azimuths are passed with the survey's own header; n, e and tvd are
    passed on.  None = an exception (no station at or below the kick-off depth:
    IndexError; one station: the constructor fails).  vec_nev, also passed on, is
    not kept in [survey]. *)
Definition rows_of (l : list station) : list row := map (fun a => (st_md a, st_inc a, st_azi a)) l.
Definition get_ref (w : well) (err_cov : option (list M3)) (kop_depth : option R) : option well :=
  let s := w_survey w in
  let ki := kop_index (map st_md (sv_rows s)) kop_depth in
  match ki with
  | O => Some w
  | _ =>
      match nth_error (sv_xyz s) ki, nth_error (sv_nev s) ki with
      | Some xyz, Some nev =>
          match Survey (sv_header s) (rows_of (skipn ki (sv_rows s))) false xyz nev (h_unit (sv_header s)) with
          | None => None
          | Some r =>
              let cov := match err_cov with Some c => c | None => skipn ki (w_cov w) end in
              Some (mkWell (mkSurvey (sv_header r) (sv_rows r) (sv_azi_true r) (sv_azi_mag r) (sv_dogleg r)
                              (sv_delta_md r) (sv_xyz r) (skipn ki (sv_nev s)) (sv_pos_nev r) (sv_interpolated r))
                      cov (skipn ki (w_radius w)))
          end
      | _, _ => None
      end
  end.

(** ** The run *)
Record settings := mkSettings { c_k : R; c_sigma_pa : R; c_Sm : R }.

(** welleng/clearance.py:349-401 of IscwsaClearance.__init__, one reference
    station: the nearest offset station (351-355), the closest point (620-660),
    its covariance (738-746), the combined hole size (828-829: Rr of the station
    plus Ro of the nearest offset station) and the separation rule.
    None: nan, or an exception when the offset has fewer than two stations. *)
Definition station_rule (opt : optimiser) (c : settings) (ref off : well) (i : nat) : option rule :=
  match nth_error (sv_rows (w_survey ref)) i, nth_error (sv_nev (w_survey ref)) i,
        nth_error (w_cov ref) i, nth_error (w_radius ref) i with
  | Some a, Some p, Some rc, Some rr =>
      let j := nearest_station (sv_nev (w_survey off)) p in
      match closest_point opt (w_survey off) p j, nth_error (w_radius off) j with
      | Some (index, x, _, q), Some ro =>
          match nth_error (w_cov off) index, nth_error (w_cov off) (S index) with
          | Some ca, Some cb =>
              iscwsa_rule (c_k c) (c_sigma_pa c) (c_Sm c) rr ro (st_inc a) (st_azi a) p q rc
                (interpolate_cov ca cb (x / interval (w_survey off) index))
          | _, _ => None
          end
      | _, _ => None
      end
  | _, _, _, _ => None
  end.
Definition clearance_run (opt : optimiser) (c : settings) (ref off : well) : list (option rule) :=
  map (station_rule opt c ref off) (seq 0 (length (sv_rows (w_survey ref)))).
(** the sf attribute *)
Definition factor (r : option rule) : ext := match r with Some r => ru_sf r | None => NaN end.
Definition factors (l : list (option rule)) : list ext := map factor l.

(** ** Minima *)
(** numpy < : false when one side is nan *)
Definition elt (a b : ext) : bool :=
  match a, b with
  | Fin x, Fin y => if Rlt_dec x y then true else false
  | Fin _, PInf | NInf, Fin _ | NInf, PInf => true
  | _, _ => false
  end.
(** scipy.signal.argrelmin with its defaults (order 1, mode 'clip': the ends are
    compared with themselves): less than both neighbours *)
Definition local_minima (sf : list ext) : list nat :=
  filter (fun i => elt (nth i sf NaN) (nth (i - 1) sf NaN) && elt (nth i sf NaN) (nth (S i) sf NaN))
    (seq 1 (length sf - 2)).

(** welleng/clearance.py:436-459 the closest point of the offset in the intervals
    around station off_idx: displacement from ref_pos, covariance and radius there.
    [best_dist] is carried as the result so far. *)
Definition near_offset (opt : optimiser) (off : well) (ref_pos : V3) (off_idx : nat)
  : option (R * V3 * M3 * R) :=
  let s := w_survey off in
  let n_off := length (sv_rows s) in
  let lo := (off_idx - 1)%nat in
  fold_left (fun best oi =>
    match nth_error (sv_rows s) oi, nth_error (sv_rows s) (S oi), nth_error (sv_nev s) oi,
          nth_error (w_cov off) oi, nth_error (w_cov off) (S oi),
          nth_error (w_radius off) oi, nth_error (w_radius off) (S oi) with
    | Some a, Some b, Some p, Some ca, Some cb, Some ra, Some rb =>
        let bound := st_md b - st_md a in
        let '(x, f) := opt (closest_fun s oi ref_pos) (bound / 2) bound in
        let better := match best with
                      | None => true
                      | Some (d, _, _, _) => if Rlt_dec f d then true else false
                      end in
        if better then
          let t := if Rlt_dec 0 bound then x / bound else 0 in
          Some (f, vsub (interpolate_pos_nev p a b x) ref_pos, interpolate_cov ca cb t, ra + t * (rb - ra))
        else best
    | _, _, _, _, _, _, _ => best
    end) (seq lo (S (Nat.min (S off_idx) (n_off - 2)) - lo)) None.

(** welleng/clearance.py:409-477 _get_sf_min(x, i, delta_md); [sf] and the
    nearest offset stations are those of the run.  res.fun is taken to be the
    norm of the displacement ([sf_min_between] computes it again).  NaN also
    stands for an exception. *)
Definition objective (opt : optimiser) (c : settings) (ref off : well) (sf : list ext)
  (i : nat) (d0 d1 x : R) : ext :=
  if Req_EM_T x 0 then nth i sf NaN
  else if Req_EM_T x (- d0) then nth (i - 1) sf NaN
  else if Req_EM_T x d1 then nth (S i) sf NaN
  else
    let '(ii, xx, mult) := if Rlt_dec x 0 then ((i - 1)%nat, d0 + x, (d0 + x) / d0) else (i, x, x / d1) in
    let s := w_survey ref in
    match nth_error (sv_rows s) ii, nth_error (sv_rows s) (S ii), nth_error (sv_nev s) ii,
          nth_error (w_cov ref) ii, nth_error (w_cov ref) (S ii), nth_error (w_radius ref) (S ii),
          nth_error (sv_nev s) i with
    | Some a, Some b, Some p, Some ca, Some cb, Some rr, Some pi =>
        let ref_pos := interpolate_pos_nev p a b xx in
        match near_offset opt off ref_pos (nearest_station (sv_nev (w_survey off)) pi) with
        | None => NaN
        | Some (_, u, oc, ro) =>
            match sf_min_between (c_k c) (c_sigma_pa c) rr ro u (interpolate_cov ca cb mult) oc with
            | Some v => Fin v
            | None => PInf
            end
        end
    | _, _, _, _, _, _, _ => NaN
    end.

(** scipy.optimize.minimize with one variable between two bounds, started at 0;
    returns x *)
Definition minimiser := (R -> ext) -> R -> R -> R.

(** welleng/clearance.py:490-528: the depths at which a station is added; a result
    equal to 0 or to one of the two interval lengths is dropped *)
Definition minimum_depths (opt : optimiser) (mini : minimiser) (c : settings) (ref off : well) : list R :=
  let sf := factors (clearance_run opt c ref off) in
  let md i := st_md (nth i (sv_rows (w_survey ref)) (mkSt 0 0 0)) in
  flat_map (fun i =>
    let d0 := md i - md (i - 1)%nat in
    let d1 := md (S i) - md i in
    let x := mini (objective opt c ref off sf i d0 d1) (- d0) d1 in
    if Req_EM_T x 0 then [] else if Req_EM_T x d0 then [] else if Req_EM_T x d1 then []
    else [md i + x]) (local_minima sf).

(** np.insert of one entry *)
Definition insert_at {A} (i : nat) (x : A) (l : list A) : list A := firstn i l ++ x :: skipn i l.

(** welleng/clearance.py:531-566 one added station.  The angles are those of the
    node (node.py:106-117: get_angles of its unit vector) and its covariance is the
    node's, which get_node (survey.py:1781-1806) never sets: zero (node.py:88).
    The unit is not passed: the default is meters.  None = an exception. *)
Definition add_station (w : well) (md : R) : option well :=
  let s := w_survey w in
  let i := searchsorted_right (map st_md (sv_rows s)) md in
  match survey_interpolate_md s md with
  | NodeOk n h =>
      let '(inc, azi) := get_angles true (vunit (nd_vec n)) in
      match nth_error (w_radius w) i with
      | None => None
      | Some r =>
          match Survey (grid_reference h) (insert_at i (nd_md n, inc, azi) (rows_of (sv_rows s))) false
                  (hd vzero (sv_xyz s)) (hd vzero (sv_nev s)) "meters" with
          | None => None
          | Some z =>
              Some (mkWell (mkSurvey (sv_header z) (sv_rows z) (sv_azi_true z) (sv_azi_mag z) (sv_dogleg z)
                              (sv_delta_md z) (sv_xyz z) (sv_nev z) (sv_pos_nev z)
                              (insert_at i true (sv_interpolated s)))
                      (insert_at i mzero (w_cov w)) (insert_at i r (w_radius w)))
          end
      end
  | _ => None
  end.
Fixpoint add_stations (w : well) (mds : list R) : option well :=
  match mds with
  | [] => Some w
  | md :: r => match add_station w md with Some w' => add_stations w' r | None => None end
  end.

(** welleng/clearance.py:479-585 get_sf_mins, the reference well and the results
    after the call.  The second run is made on the refined reference; its kick-off
    index is 0, because the first station of ref is at or below the kick-off
    depth. *)
Definition refined_run (opt : optimiser) (mini : minimiser) (c : settings) (ref off : well)
  : option (well * list (option rule)) :=
  match minimum_depths opt mini c ref off with
  | [] => Some (ref, clearance_run opt c ref off)
  | mds => match add_stations ref mds with
           | Some ref' => Some (ref', clearance_run opt c ref' off)
           | None => None
           end
  end.
