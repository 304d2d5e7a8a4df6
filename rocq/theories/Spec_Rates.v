(** Vocabulary for the curve attributes (toolface, build and turn rates,
    centres of curvature).  Nothing here refers to the model of the code. *)
Require Import Reals List.
Require Import Verif.Base Verif.Spec.
Import ListNotations.
Open Scope R_scope.

(** The two axes across a hole with the given attitude, north/east/down: the
    high side (the way the direction moves when the inclination grows) and the
    horizontal axis to the right (the way it moves when the azimuth grows). *)
Definition high_side (inc azi : R) : V3 :=
  mkV (cos inc * cos azi) (cos inc * sin azi) (- sin inc).
Definition right_side (azi : R) : V3 := mkV (- sin azi) (cos azi) 0.

(** the direction across the hole at toolface [t]: 0 is high side, PI/2 right *)
Definition toolface_dir (inc azi t : R) : V3 :=
  vadd (vscale (cos t) (high_side inc azi)) (vscale (sin t) (right_side azi)).

(** The section from point [p], direction [u] to point [q], direction [v] is the
    circular arc of length [len] that turns through [t] (less than half a
    circle) and starts bending toward [n]. *)
Definition section_arc (p u q v : V3) (len t : R) (n : V3) : Prop :=
  is_unit n /\ orthogonal u n /\ 0 < t < PI /\
  q = arc_point p u n (len / t) t /\ v = arc_tangent u n t.

(** An arc with start tangent [u] bends toward [n]; after turning through [t]
    it bends toward: *)
Definition arc_normal (u n : V3) (t : R) : V3 :=
  vsub (vscale (cos t) n) (vscale (sin t) u).

(** [incf], [azif] are differentiable inclination and azimuth along the curve
    whose direction at [s] past the point is [dir s]; [di] and [da] are their
    derivatives there.  Equality of direction is asked on both sides of 0. *)
Definition attitude_along (dir : R -> V3) (incf azif : R -> R) (di da : R) : Prop :=
  (exists eps, 0 < eps /\
     forall s, Rabs s < eps -> direction_nev (incf s) (azif s) = dir s) /\
  derivable_pt_lim incf 0 di /\ derivable_pt_lim azif 0 da.

(** centre of the circle of an arc that starts at [p], bending toward [n] *)
Definition arc_centre (p n : V3) (r : R) : V3 := vadd p (vscale r n).
