(** Vocabulary for surveys with stations added at regular vertical depths. *)
Require Import Reals ZArith List.
Require Import Verif.Base Verif.Spec Verif.M_Utils Verif.M_Survey.
Import ListNotations.
Open Scope R_scope.

(** the depths start, start + step, start + 2 step, ... and start - step, ... *)
Definition is_level (start step z : R) : Prop := exists k : Z, z = start + IZR k * step.

(** depth m2 lies further beyond m than the tolerance within which depths are
    taken to be the same *)
Definition well_before (m m2 : R) : Prop := 1 / 10000 + 1 / 100000 * Rabs m2 < m2 - m.

(** the way from m to m2 is straight, or turns by an angle that is neither
    vanishing nor all but half a turn, at not less than 1e-8 degrees per 30 m *)
Definition moderate_turn (u v : V3) (m m2 : R) : Prop :=
  v = u \/
  exists t, angle_between u v t /\ 0 < t < PI /\ (m2 - m) * (PI / 180 / 100000000) <= 30 * t /\
    1 / 10000000000 <= sin t /\ 1 / 100000 < PI - t.

(** the depth of the point diametrically opposite on the circle of the arc that
    leaves depth z in direction u and turns to v over the length dm *)
Definition opposite_depth (z : R) (u v : V3) (dm w : R) : Prop :=
  exists t n r, angle_between u v t /\ 0 < t < PI /\ r * t = dm /\ is_unit n /\ orthogonal u n /\
    v = arc_tangent u n t /\ w = z + 2 * r * vz n.

(** a survey in which no depth asked for falls where the numerical method breaks
    down: stations are not too close, turns are moderate, no level is at the depth
    diametrically opposite a station on the circle of its arc, and a point at a
    level is not too close to the station below it on the path *)
Definition suits (s : survey) (start step : R) : Prop :=
  forall k a b p, nth_error (sv_rows s) k = Some a -> nth_error (sv_rows s) (S k) = Some b -> nth_error (sv_nev s) k = Some p ->
    let u := direction_nev (st_inc a) (st_azi a) in let v := direction_nev (st_inc b) (st_azi b) in
    well_before (st_md a) (st_md b) /\ moderate_turn u v (st_md a) (st_md b) /\
    (forall w, opposite_depth (vz p) u v (st_md b - st_md a) w -> ~ is_level start step w) /\
    (forall m n h, st_md a < m < st_md b -> survey_interpolate_md s m = NodeOk n h -> is_level start step (vz (nd_pos n)) ->
       well_before m (st_md b) /\ moderate_turn (nd_vec n) v m (st_md b)).
