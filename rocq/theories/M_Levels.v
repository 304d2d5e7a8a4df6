(** Model of welleng/survey.py:1949-2066 (interpolate_tvd with node_origin),
    2819-2845 (get_node_tvd) and 2848-2917 (interpolate_survey_tvd): a survey
    with stations added at regular vertical depths. *)
Require Import Reals ZArith Bool String List.
Require Import Verif.Base Verif.NumPy Verif.M_Utils Verif.M_Connector Verif.M_Survey.
Import ListNotations.
Open Scope R_scope.

(** node.py:106-140: the angles of a node are those of its direction *)
Definition node_station (n : node) : station :=
  let '(i, z) := get_angles true (nd_vec n) in mkSt (nd_md n) i z.

(** survey.py:1949-2066 interpolate_tvd with node_origin: the turn is measured
    from the origin (lines 1997-2007), the result is taken on the survey.  The
    survey s_temp has the default header, so its azimuths are those given.
    A straight leg (line 2013) is measured on the survey itself. *)
Definition interpolate_tvd_from (s : survey) (tvd : R) (origin : node) : tvd_result :=
  let tvds := map vz (sv_nev s) in
  let r := np_searchsorted_right tvds tvd in
  let len := length tvds in
  let '(idx, coeff) :=
    if (r =? len)%nat then ((len - 2)%nat, 1)
    else match r with O => ((len - 2)%nat, -1) | S i => (i, 1) end in
  match nth_error (sv_rows s) idx, nth_error (sv_rows s) (S idx),
        nth_error (sv_nev s) idx, nth_error (sv_nev s) (S idx) with
  | Some a, Some b, Some p, Some q =>
      let delta_md := st_md b - nd_md origin in
      let dogleg := pair_dogleg (node_station origin) b in
      let finish (x : R) :=
        match interpolate_at s x idx with
        | None => TvdError
        | Some (r, h) =>
            match node_of r with
            | None => TvdError
            | Some n => TvdOk (mkNode (nd_md n) (nd_pos n) (nd_vec n)
                                 (if Rlt_dec 0 x then true else false)) h
            end
        end in
      if Req_EM_T dogleg 0 then
        if Req_EM_T (vz q) (vz p) then TvdNaN
        else finish ((tvd - vz p) / (vz q - vz p) * (st_md b - st_md a))
      else
        match tvd_angle coeff (vz (nd_vec origin))
                (vz (get_vec true 1 (st_inc b) (st_azi b))) dogleg delta_md (tvd - vz (nd_pos origin)) with
        | None => TvdError
        | Some d =>
            let x := d / dogleg * delta_md - (st_md a - nd_md origin) in
            if Rle_dec x delta_md then finish x else TvdError
        end
  | _, _, _, _ => TvdError
  end.

(** survey.py:2641-2698 from_connections(c, step=None) on one connection: the
    Survey built from the rows, in metres, with grid azimuths *)
Definition plain_header : header := mkHeader RefGrid 0 0 1 None "meters".
Definition connection_survey (c : conn) : option survey :=
  match from_connections [c] None with
  | None => None
  | Some rows =>
      Survey plain_header
        (map (fun r => let '(i, z) := get_angles true (snd (fst r)) in (fst (fst r), i, z)) rows)
        false vzero (vadd (k_pos1 c) vzero) "meters"
  end.

(** survey.py:2840-2842: the Connector from a node to the depth and direction of
    another; dls_design is 1e-8 degrees per 30 m *)
Definition level_dls : R := radians (1 / 100000000).
Definition to_depth (p u : V3) (m m2 : R) (v : V3) : cargs :=
  mkArgs p (Some u) None None m (Some level_dls) (Some m2) None (Some v) None None true (1 / 100000) false.
(** survey.py:2819-2845 get_node_tvd *)
Definition get_node_tvd (node1 node2 : node) (tvd : R) (origin : node) : option node :=
  match connector vzero (to_depth (nd_pos node1) (nd_vec node1) (nd_md node1) (nd_md node2) (nd_vec node2)) with
  | inr _ => None
  | inl c =>
      match connection_survey c with
      | None => None
      | Some s =>
          match interpolate_tvd_from s tvd origin with
          | TvdOk n _ => Some n
          | _ => None
          end
      end
  end.

(** np.isclose(x, y), default tolerances *)
Definition close_depths (x y : R) : bool :=
  if Rle_dec (Rabs (x - y)) (1 / 100000000 + 1 / 100000 * Rabs y) then true else false.
Definition marked (b : bool) (n : node) : node := mkNode (nd_md n) (nd_pos n) (nd_vec n) b.

(** survey.py:2876-2902 the loop [while 1] of one leg.  [done] are the nodes so
    far, the last first; [level] is tvds[-1].  Running out of fuel is a loop that
    has not ended. *)
Inductive leg_result := LegRunning | LegError | LegDone (nodes : list node) (level : R).
Fixpoint level_leg (fuel : nat) (step : R) (origin target : node) (node1 : node) (done : list node) (level : R)
  : leg_result :=
  match fuel with
  | O => LegRunning
  | S f =>
      if close_depths (nd_md node1) (nd_md target) then LegDone (marked false node1 :: done) level
      else
        let z1 := vz (nd_pos node1) in
        let z2 := vz (nd_pos target) in
        if (if Rlt_dec level z1 then if Rle_dec z2 level then true else false else false) then
          match get_node_tvd node1 target level origin with
          | None => LegError
          | Some n => level_leg f step origin target (marked true n) (node1 :: done) (level - step)
          end
        else if (if Rlt_dec z1 (level + step) then if Rle_dec (level + step) z2 then true else false else false) then
          match get_node_tvd node1 target (level + step) origin with
          | None => LegError
          | Some n => level_leg f step origin target (marked true n) (node1 :: done) (level + step)
          end
        else LegDone (target :: node1 :: done) level
  end.
(** survey.py:2867-2902 the loop over the stations after the first; the stations
    are given as the nodes of survey.interpolate_md (line 2874) *)
Fixpoint level_legs (fuel : nat) (step : R) (targets : list node) (nodes : list node) (level : R) : leg_result :=
  match targets with
  | [] => LegDone nodes level
  | t :: r =>
      match nodes with
      | [] => LegError
      | origin :: done =>
          match level_leg fuel step origin t origin done level with
          | LegDone nodes' level' => level_legs fuel step r nodes' level'
          | e => e
          end
      end
  end.

(** survey.py:1780-1806 get_node(survey, 0) and 1084-1132 at each other station *)
Definition first_node (s : survey) : option node :=
  match nth_error (sv_rows s) 0, nth_error (sv_nev s) 0 with
  | Some a, Some p => Some (mkNode (st_md a) p (get_vec true 1 (st_inc a) (st_azi a)) false)
  | _, _ => None
  end.
Fixpoint target_nodes (s : survey) (mds : list R) : option (list node) :=
  match mds with
  | [] => Some []
  | m :: r =>
      match survey_interpolate_md s m, target_nodes s r with
      | NodeOk n _, Some l => Some (n :: l)
      | _, _ => None
      end
  end.
(** survey.py:2904-2915 the rows are those of the nodes; the header is that of
    the survey, whose azimuth reference line 2874 has set to grid; no start
    position, and the default unit, metres *)
Inductive levels_result := LevelsRunning | LevelsError | LevelsOk (s : survey).
Definition levels_survey (h : header) (nodes : list node) : levels_result :=
  match Survey (mkHeader RefGrid (h_convergence h) (h_declination h) (h_gsf h) (h_vs_azimuth h) (h_unit h))
          (map (fun n => let st := node_station n in (st_md st, st_inc st, st_azi st)) nodes)
          false vzero vzero "meters" with
  | None => LevelsError
  | Some r => LevelsOk (mkSurvey (sv_header r) (sv_rows r) (sv_azi_true r) (sv_azi_mag r) (sv_dogleg r)
                          (sv_delta_md r) (sv_xyz r) (sv_nev r) (sv_pos_nev r) (map nd_interp nodes))
  end.
(** the nodes behind that survey, first to last *)
Definition level_nodes (fuel : nat) (s : survey) (start : option R) (step : R) : leg_result :=
  match first_node s, target_nodes s (tl (map st_md (sv_rows s))) with
  | Some n, Some targets =>
      let level := match start with Some v => v | None => vz (nd_pos n) end in
      match level_legs fuel step targets [n] level with
      | LegDone nodes l => LegDone (rev nodes) l
      | e => e
      end
  | _, _ => LegError
  end.
(** survey.py:2848-2917 interpolate_survey_tvd ([stop] is not used) *)
Definition interpolate_survey_tvd (fuel : nat) (s : survey) (start : option R) (step : R) : levels_result :=
  match level_nodes fuel s start step with
  | LegRunning => LevelsRunning
  | LegError => LevelsError
  | LegDone nodes _ => levels_survey (sv_header s) nodes
  end.
