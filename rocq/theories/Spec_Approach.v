(** Vocabulary for the option closest_approach of a connection. *)
Require Import Reals List.
Require Import Verif.Base Verif.Spec Verif.Spec_Connector.
Open Scope R_scope.

(** the magnitude of [a] with the sign of [b] *)
Definition with_sign (a b : R) : R := if Rlt_dec b 0 then - Rabs a else Rabs a.
(** the point the option measures from: at the distance [r] from the start [p], each
    component of the unit normal of the plane of the turn taken with the sign of that
    component of the way to the target [t] *)
Definition pivot (p v t : V3) (r : R) : V3 :=
  let w := vsub t p in
  let c := cross w v in
  vadd p (vscale (r / norm c) (mkV (with_sign (vx c) (vx w)) (with_sign (vy c) (vy w)) (with_sign (vz c) (vz w)))).
(** no component of a vector is zero *)
Definition no_zero (w : V3) : Prop := vx w <> 0 /\ vy w <> 0 /\ vz w <> 0.
(** the cases in which there is a pivot and a way from it *)
Definition approachable (p v t : V3) (r : R) : Prop :=
  no_zero (vsub t p) /\ no_zero (cross (vsub t p) v) /\ t <> pivot p v t r.
(** [q] is the point nearest to [t] on the sphere of radius [r] around [c] *)
Definition nearest_on_sphere (c t : V3) (r : R) (q : V3) : Prop :=
  dist q c = r /\ forall x, dist x c = r -> dist t q <= dist t x.
