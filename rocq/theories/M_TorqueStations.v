(** Model of welleng/torque_drag.py:86-144: the survey with stations at the
    bottoms of the sections on which torque and drag is calculated. *)
Require Import Reals ZArith Bool String List.
Require Import Verif.Base Verif.NumPy Verif.M_Utils Verif.M_Architecture Verif.M_Survey.
Import ListNotations.
Open Scope R_scope.

(** NoBottom: KeyError of v['bottom']; BadStation: an exception inside
    interpolate_md; Beyond: AttributeError, None has no md (line 131); BadSurvey:
    AssertionError of the constructor *)
Inductive merge_exn := NoBottom | BadStation | Beyond | BadSurvey.

(** x in array *)
Definition among (x : R) (l : list R) : bool := existsb (fun y => if Req_EM_T x y then true else false) l.

(** torque_drag.py:109-125: the loop over the sections (run over the well bore and
    then over the string), with the header of the caller's survey, which
    interpolate_md changes *)
Fixpoint queue (s : survey) (h : header) (l : list section) : (list (option survey) + merge_exn) * header :=
  match l with
  | [] => (inl [], h)
  | v :: r =>
    match s_bottom v with
    | None => (inr NoBottom, h)
    | Some d =>
      if among d (map st_md (sv_rows s)) then queue s h r
      else match interpolate_md s d with
      | MdError => (inr BadStation, h)
      | MdNone => match queue s h r with (inl q, h') => (inl (None :: q), h') | e => e end
      | MdSurvey t h1 => match queue s h1 r with (inl q, h') => (inl (Some t :: q), h') | e => e end
      end
    end
  end.
(** torque_drag.py:133-135: [station.md[-1] for station in q], with the angles *)
Fixpoint last_stations (q : list (option survey)) : option (list station) :=
  match q with
  | [] => Some []
  | None :: _ => None
  | Some t :: r =>
    match rev (sv_rows t), last_stations r with
    | a :: _, Some l => Some (a :: l)
    | _, _ => None
    end
  end.

(** < between tuples (md, inc, azi) *)
Definition before (a b : row) : bool :=
  let '(m1, i1, z1) := a in let '(m2, i2, z2) := b in
  if Rlt_dec m1 m2 then true else if Rlt_dec m2 m1 then false
  else if Rlt_dec i1 i2 then true else if Rlt_dec i2 i1 then false
  else if Rlt_dec z1 z2 then true else false.
(** sorted(): the order of equal tuples makes no difference *)
Fixpoint insert_row (x : row) (l : list row) : list row :=
  match l with [] => [x] | y :: r => if before x y then x :: l else y :: insert_row x r end.
Fixpoint sorted_rows (l : list row) : list row := match l with [] => [] | x :: r => insert_row x (sorted_rows r) end.
Definition station_row (a : station) : row := (st_md a, st_inc a, st_azi a).

(** sh.azi_reference = 'grid' (line 140) *)
Definition set_grid (h : header) : header :=
  mkHeader RefGrid (h_convergence h) (h_declination h) (h_gsf h) (h_vs_azimuth h) (h_unit h).
(** torque_drag.py:103-144 add_survey_points_from_strings: the new survey or the
    exception, and the header of the caller's survey afterwards (the new survey has
    the same header object).  The unit of the new survey is the default of the
    constructor, metres; its start is the default, the origin *)
Definition add_survey_points (s : survey) (wellbore string_ : str) : (survey + merge_exn) * header :=
  match queue s (sv_header s) (map snd (a_sections wellbore) ++ map snd (a_sections string_)) with
  | (inr e, h) => (inr e, h)
  | (inl q, h) =>
    match last_stations q with
    | None => (inr Beyond, h)
    | Some added =>
      let sh := set_grid h in
      match Survey sh (sorted_rows (map station_row (sv_rows s) ++ map station_row added)) false vzero vzero "meters" with
      | None => (inr BadSurvey, sh)
      | Some t => (inl t, sh)
      end
    end
  end.
(** torque_drag.py:88 np.where(self.survey.md == self.string.bottom)[0][0] + 1; None = IndexError *)
Fixpoint first_at (x : R) (l : list R) : option nat :=
  match l with
  | [] => None
  | y :: r => if Req_EM_T y x then Some O else option_map S (first_at x r)
  end.
Definition string_index (t : survey) (bottom : R) : option nat :=
  option_map S (first_at bottom (map st_md (sv_rows t))).
