(** Model of welleng/survey.py:2622-2700 from_connections with the Survey it
    builds, 2988-3068 project_to_target and 1323-1342 set_vertical_section. *)
Require Import Reals ZArith Bool String List.
Require Import Verif.Base Verif.NumPy Verif.M_Utils Verif.M_Connector Verif.M_Survey Verif.M_Rates.
Import ListNotations.
Open Scope R_scope.

Definition with_flags (fl : list bool) (s : survey) : survey :=
  mkSurvey (sv_header s) (sv_rows s) (sv_azi_true s) (sv_azi_mag s) (sv_dogleg s) (sv_delta_md s)
    (sv_xyz s) (sv_nev s) (sv_pos_nev s) fl.
(** survey.py:2622-2700 from_connections with a header: inclination and azimuth
    of the directions (get_angles in connector.py:2069, 2129) are passed in
    radians; start_xyz is its default, zero; the survey starts at the position of
    the first connection plus start_nev.  Radius, covariance and error model are
    left out.  None: IndexError (no rows) or the unit assertion of Survey. *)
Definition draw (h : header) (cs : list conn) (step : option R) (start_nev : V3) : option survey :=
  match cs, from_connections cs step with
  | c :: _, Some rows =>
      option_map (with_flags (map snd rows))
        (Survey h
          (map (fun r => let '(i, z) := get_angles true (snd (fst r)) in (fst (fst r), i, z)) rows)
          false vzero (vadd (k_pos1 c) start_nev) (h_unit h))
  | _, _ => None
  end.
(** survey.py:2669-2674: the header when none is given *)
Definition grid_header (unit : string) : header := mkHeader RefGrid 0 0 1 None unit.

(** PjData: no station, or the last curvature is not a number; PjNode: a
    direction that is not finite (nan); PjConnector: an exception of a Connector;
    PjSurvey: an exception of from_connections *)
Inductive projected := PjData | PjNode | PjConnector (e : cexn) | PjSurvey | PjOk (cs : list conn) (s : survey).
(** survey.py:3046-3048 Connector(node_start, node_bit, dls_design=dls_design),
    whose node_bit has lost its position; the other parameters are the defaults
    of connector.py:117-140 (degrees, metres, min_error 1e-5) *)
Definition to_bit (p u : V3) (m : R) (m2 : R) (v : V3) (d : R) : cargs :=
  mkArgs p (Some u) None None m (Some (radians d)) (Some m2) None (Some v) None None true (1 / 100000) false.
(** survey.py:3053-3057 Connector(node_bit, node_target, dls_design): the third
    parameter of Connector is pos1, which node1 replaces (connector.py:202-205),
    so dls_design keeps its default of 3 degrees per 30 m *)
Definition to_target (p u : V3) (m : R) (target : M_Connector.node) : cargs :=
  mkArgs p (Some u) None None m (Some (radians 3)) (n_md target) (n_pos_nev target) (n_vec_nev target)
    None None true (1 / 100000) false.
(** survey.py:3024-3026 node_start and 3036-3051 the bit: position, direction,
    depth and the connections so far.  node_end (connector.py:421-434) normalises
    the direction (node.py:106-116). *)
Definition bit_node (bump : V3) (p u : V3) (m : R) (bit : option (V3 * R)) (dls_design : R)
  : (list conn * V3 * V3 * R) + projected :=
  match bit with
  | None => inl ([], p, u, m)
  | Some (v, m2) =>
      match normalised v with
      | None => inr PjNode
      | Some w =>
          match connector bump (to_bit p u m m2 w dls_design) with
          | inr e => inr (PjConnector e)
          | inl c =>
              match normalised (k_vec_target c) with
              | None => inr PjNode
              | Some x => inl ([c], k_pos_target c, x, k_md_target c)
              end
          end
      end
  end.
(** survey.py:2988-3068 project_to_target (and its method, 1223-1263).  The
    last curvature may not be finite (dls_list): see [project_to_bit].  [bump k]
    is the random number of the k-th Connector. *)
Definition project_to_target (bump : nat -> V3) (s : survey) (target : M_Connector.node) (dls_design : R)
    (delta_md dls toolface : option R) (step : option R) : projected :=
  match sv_rows s, sv_pos_nev s with
  | a :: ra, p :: rp =>
      let st := last ra a in
      let pos := last rp p in
      let vec := get_vec true 1 (st_inc st) (st_azi st) in
      let tf := match toolface with Some t => t | None => last (cv_toolface (survey_curves s)) 0 end in
      let severity :=
        match dls with
        | Some d => Some d
        | None => match last (cv_dls (survey_curves s)) (Fin 0) with
                  | Fin d => Some d
                  | NInf => Some (-1)
                  | PInf | NaN => None
                  end
        end in
      let bit :=
        match delta_md, severity with
        | None, _ => Some None
        | Some l, Some d => let '(_, v, m2) := project_ahead pos vec l d tf (st_md st) in Some (Some (v, m2))
        | Some _, None => None
        end in
      match bit, normalised vec with
      | None, _ => PjData
      | _, None => PjNode
      | Some b, Some u =>
          match bit_node (bump 0%nat) pos u (st_md st) b dls_design with
          | inr e => e
          | inl (cs, q, v, m) =>
              match connector (bump 1%nat) (to_target q v m target) with
              | inr e => PjConnector e
              | inl c =>
                  match draw (sv_header s) (cs ++ [c]) step vzero with
                  | None => PjSurvey
                  | Some z => PjOk (cs ++ [c]) z
                  end
              end
          end
      end
  | _, _ => PjData
  end.

(** survey.py:1265-1283 _get_vertical_section, when the survey is built: the
    azimuth in the header, taken as radians (get_vertical_section(...,
    deg=False)) *)
Definition own_vertical_section (s : survey) : option (list R) :=
  match h_vs_azimuth (sv_header s) with
  | Some v => Some (fst (survey_vertical_section s v))
  | None => None
  end.
(** survey.py:1323-1342 set_vertical_section: the header and the values.  The
    header keeps the argument as given (line 1339); the values are those of
    get_vertical_section (1303-1306). *)
Definition set_vertical_section (s : survey) (vs : R) (deg : bool) : header * list R :=
  let h := sv_header s in
  (mkHeader (h_ref h) (h_convergence h) (h_declination h) (h_gsf h) (Some vs) (h_unit h),
   fst (survey_vertical_section s (if deg then radians vs else vs))).
