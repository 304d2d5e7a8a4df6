(** Vocabulary of the clearance properties. *)
Require Import Reals ZArith String List.
Require Import Verif.Base Verif.Spec Verif.M_Error.
Import ListNotations.
Open Scope R_scope.

(** an error source that perturbs measured depth only: its (depth, inclination,
    azimuth) error has no inclination or azimuth part anywhere and some depth part *)
Definition depth_only_source (e_DIA : list V3) : Prop :=
  (forall e, In e e_DIA -> Rabs (vy e) < / 10 ^ 10 /\ Rabs (vz e) < / 10 ^ 10) /\
  exists e, In e e_DIA /\ / 10 ^ 10 < Rabs (vx e).

(** entries i, i+1, .., i+n-1 of a list *)
Definition slice {A} (i n : nat) (l : list A) : list A := firstn n (skipn i l).

(** the interval [a,b] of a list of positions contains the index i *)
Definition adjacent (i index : nat) : Prop := index = i \/ S index = i.

(** a bounded minimiser started at [x0] in [0, ub] that stays in its bounds,
    reports the value it found, and does not end up worse than it started *)
Definition never_worse (minimise : (R -> R) -> R -> R -> R * R) : Prop :=
  forall f x0 ub, 0 <= x0 <= ub ->
    let '(x, v) := minimise f x0 ub in 0 <= x <= ub /\ v = f x /\ v <= f x0.
