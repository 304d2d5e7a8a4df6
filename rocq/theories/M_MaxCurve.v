(** Model of /repo/welleng/survey.py:1446-1518 Survey.maximum_curvature: a
    station is added between every two, reached with a sharper bend. *)
Require Import Reals ZArith Bool String List.
Require Import Verif.Base Verif.NumPy Verif.M_Utils Verif.M_Survey Verif.M_Rates.
Import ListNotations.
Open Scope R_scope.

(** lines 1466-1493, one section: depth, inclination and azimuth (degrees) of the
    added station, given the dls and toolface of the section; None = a row with a
    nan depth (an infinite radius times a zero angle, or a dls not finite).
    The arc is made at the origin (pos=None): only its direction is used. *)
Definition middle_row (noise : R) (a b : station) (dls : ext) (toolface : R) : option row :=
  match dls with
  | Fin d =>
      match radius_from_dls_array (Fin (d + noise)) with
      | Fin radius =>
          let delta := st_md b - st_md a in
          let dogleg1 := delta / radius / 2 in
          let radius := if Rlt_dec PI dogleg1 then delta * 4 / (2 * PI) else radius in
          let '(_, v, len, _) := get_arc dogleg1 radius toolface vzero (vec_nev_of a) false in
          let '(inc, azi) := get_angles true v in
          Some (st_md a + len, degrees inc, degrees azi)
      | _ => None
      end
  | _ => None
  end.

(** survey_deg, one row (line 716) *)
Definition row_deg (a : station) : row := (st_md a, degrees (st_inc a), degrees (st_azi a)).

(** lines 1494-1498: the rows of the new survey; None = some depth is nan.
    Surveys of one station (IndexError at line 1492) give their one row here. *)
Fixpoint middle_rows (noise : R) (rows : list station) (dls : list ext) (tf : list R) : option (list row) :=
  match rows with
  | a :: ((b :: _) as r) =>
      match dls, tf with
      | d :: dr, t :: tr =>
          match middle_row noise a b d t, middle_rows noise r dr tr with
          | Some m, Some l => Some (row_deg a :: m :: l)
          | _, _ => None
          end
      | _, _ => None
      end
  | [a] => Some [row_deg a]
  | [] => Some []
  end.

(** lines 1501-1503: the header, which is the survey's own object *)
Definition grid_reference (h : header) : header :=
  mkHeader RefGrid (h_convergence h) (h_declination h) (h_gsf h) (h_vs_azimuth h) (h_unit h).

(** lines 1517-1518: original stations keep their flag *)
Fixpoint middle_flags (flags : list bool) : list bool :=
  match flags with
  | [] => []
  | [f] => [f]
  | f :: r => f :: true :: middle_flags r
  end.

Inductive max_result :=
| MaxOk (s : survey)
| MaxNan          (* a survey with nan depths and positions *)
| MaxAssertion.   (* the default unit is not the header's *)

(** lines 1446-1518; also the header of the survey after the call *)
Definition maximum_curvature (s : survey) (noise : R) : max_result * header :=
  let h := grid_reference (sv_header s) in
  let c := survey_curves s in
  (if String.eqb (h_unit h) "meters" then
     match middle_rows noise (sv_rows s) (tl (cv_dls c)) (cv_toolface c) with
     | None => MaxNan
     | Some rows =>
         match Survey h rows true (hd vzero (sv_xyz s)) (hd vzero (sv_nev s)) "meters" with
         | None => MaxAssertion
         | Some r => MaxOk (mkSurvey (sv_header r) (sv_rows r) (sv_azi_true r) (sv_azi_mag r) (sv_dogleg r)
                      (sv_delta_md r) (sv_xyz r) (sv_nev r) (sv_pos_nev r) (middle_flags (sv_interpolated s)))
         end
     end
   else MaxAssertion, h).
