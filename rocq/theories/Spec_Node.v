(** Vocabulary for nodes. *)
Require Import Reals ZArith List.
Require Import Verif.Base Verif.Spec.
Import ListNotations.
Local Open Scope R_scope.

(** (north, east, down) and (east, north, down) components of one vector *)
Definition other_axes (v : V3) : V3 := mkV (vy v) (vx v) (vz v).
(** angle in radians of an angle given in degrees or radians *)
Definition in_radians (degs : bool) (x : R) : R := if degs then x * PI / 180 else x.
(** the k-th entry of a list of n, counted from the end if negative *)
Definition counts_to (n : nat) (i : Z) (k : nat) : Prop :=
  (k < n)%nat /\ (i = Z.of_nat k \/ i = Z.of_nat k - Z.of_nat n)%Z.
