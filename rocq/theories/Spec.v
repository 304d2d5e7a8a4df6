(** Specifications used in the property theorems.  Nothing here refers to the
    model of the code: only to vectors, matrices and elementary geometry. *)
Require Import Reals List.
Require Import Verif.Base.
Import ListNotations.
Open Scope R_scope.

Definition is_unit (v : V3) : Prop := dot v v = 1.
Definition orthogonal (a b : V3) : Prop := dot a b = 0.

(** [t] is the angle in [0,PI] between two unit vectors *)
Definition angle_between (u v : V3) (t : R) : Prop :=
  0 <= t <= PI /\ cos t = dot u v.

(** The unit direction with inclination [inc] from vertically down and azimuth
    [azi] from north, in north/east/down components. *)
Definition direction_nev (inc azi : R) : V3 :=
  mkV (sin inc * cos azi) (sin inc * sin azi) (cos inc).

(** The circular arc that starts at [p] with unit tangent [u] and bends toward
    the unit normal [n] with radius [r]: its point and its tangent after the
    tangent has turned through [t]. *)
Definition arc_point (p u n : V3) (r t : R) : V3 :=
  vadd p (vadd (vscale (r * sin t) u) (vscale (r * (1 - cos t)) n)).
Definition arc_tangent (u n : V3) (t : R) : V3 :=
  vadd (vscale (cos t) u) (vscale (sin t) n).

(** (p1,u1) is reached from (p0,u0) by a circular arc of length [len] that turns
    through the angle [t]. *)
Definition circular_arc (p0 u0 : V3) (len t : R) (p1 u1 : V3) : Prop :=
  exists n r, is_unit n /\ orthogonal u0 n /\ len = r * t /\
    p1 = arc_point p0 u0 n r t /\ u1 = arc_tangent u0 n t.

(** matrices *)
Definition symmetric (m : M3) : Prop := mtrans m = m.
Definition psd (m : M3) : Prop := forall v, 0 <= qform m v.
Definition rotation (m : M3) : Prop := mm m (mtrans m) = mid /\ det m = 1.
Definition rank_le_1 (m : M3) : Prop := exists a b, m = outer a b.

(** The axes used on the rig, for a unit direction [u] (north, east, down): the
    lateral axis [l] is the horizontal unit vector to the right of [u]; the high
    side axis is perpendicular to both and is [cross l u]. *)
Definition down : V3 := mkV 0 0 1.
Definition right_of (u l : V3) : Prop :=
  is_unit l /\ exists k, 0 < k /\ cross down u = vscale k l.

(** [t] in [0,2PI) is the bearing of [d] measured from axis [h] toward axis [l] *)
Definition bearing_from (h l d : V3) (t : R) : Prop :=
  0 <= t < 2 * PI /\
  exists r, 0 <= r /\ dot d h = r * cos t /\ dot d l = r * sin t.

(** [u] is the unit vector along the (non-zero) vector [v] *)
Definition points_along (v u : V3) : Prop := is_unit u /\ exists k, 0 < k /\ v = vscale k u.

(** sums of vectors and of matrices *)
Definition vsum (l : list V3) : V3 := fold_right vadd vzero l.
Definition msum (l : list M3) : M3 := fold_right madd mzero l.

(** [d] is the derivative of the vector function [f] at [x] *)
Definition vderivative (f : R -> V3) (x : R) (d : V3) : Prop :=
  derivable_pt_lim (fun t => vx (f t)) x (vx d) /\
  derivable_pt_lim (fun t => vy (f t)) x (vy d) /\
  derivable_pt_lim (fun t => vz (f t)) x (vz d).

(** the balanced-tangential displacement between two stations: half the depth
    difference along each of the two directions *)
Definition balanced_tangential (md1 inc1 azi1 md2 inc2 azi2 : R) : V3 :=
  vscale ((md2 - md1) / 2) (vadd (direction_nev inc1 azi1) (direction_nev inc2 azi2)).
