(** Vocabulary for the solver of curve-hold-curve connections. *)
Require Import Reals List.
Require Import Verif.Base Verif.Spec Verif.NumPy Verif.M_Utils Verif.M_Connector Verif.Spec_Connector.
Open Scope R_scope.

(** From [p] along [u] through the angle [a] of a turn of radius [r1] to [m1], straight for [len] along
    [w] to [m2]; and seen from the end, from [q] against [v] through the angle [b] of a turn of
    radius [r2] to [m2] and straight for [len] against [w] to [m1]. *)
Definition curve_hold_curve (p u q v : V3) (r1 r2 a len b : R) (m1 m2 w : V3) : Prop :=
  turn_then_straight p u r1 a len m1 m2 w /\ turn_then_straight q (vneg v) r2 b len m2 m1 (vneg w).
(** the point [q] as seen from [p] along [u]: not the same point (as numpy tells), off the line,
    and not exactly at two radii from it, where the formula for the angle divides zero by zero *)
Definition regular (p u q : V3) (r : R) : Prop :=
  ~ allclose p q /\ 0 < off_axis p u q /\ off_axis p u q <> 2 * r.
(** the largest radius that reaches [q], less the tolerance *)
Definition reach (p u q : V3) (e : R) : R := tangent_circle_radius p u q * (1 - e).
