(** Vocabulary of the mesh properties; triangles are triples of vertex numbers. *)
Require Import Reals Arith ZArith List.
Require Import Verif.Base Verif.Spec.
Import ListNotations.
Open Scope nat_scope.

Definition triangle : Type := (nat * nat * nat)%type.
(** the three sides of a triangle, in the direction it is wound *)
Definition sides (f : triangle) : list (nat * nat) :=
  let '(a, b, c) := f in [(a, b); (b, c); (c, a)].
Definition corners (f : triangle) : list nat := let '(a, b, c) := f in [a; b; c].
(** the triangle has the side x-y, in either direction *)
Definition has_side (x y : nat) (f : triangle) : bool :=
  existsb (fun e => (fst e =? x) && (snd e =? y) || (fst e =? y) && (snd e =? x))%bool (sides f).

(** [b] is [a] read cyclically from some position, possibly backwards *)
Definition same_cycle {A} (a b : list A) : Prop :=
  exists k, k <= length a /\ (b = skipn k a ++ firstn k a \/ b = rev (skipn k a ++ firstn k a)).

(** the triangles join the vertices x and y, directly or through others *)
Inductive joined (faces : list triangle) : nat -> nat -> Prop :=
| j_refl : forall x, joined faces x x
| j_step : forall x y z f, In f faces -> In x (corners f) -> In y (corners f) -> joined faces y z -> joined faces x z.

(** high side and lateral (right) unit vectors of a well heading (inc, azi), as (north, east, vertical) *)
Definition high_side (inc azi : R) : V3 := mkV (cos inc * cos azi) (cos inc * sin azi) (- sin inc).
Definition lateral (azi : R) : V3 := mkV (- sin azi) (cos azi) 0.
(** point of the plane across the well at [nev], x along high side and y along lateral *)
Definition across (inc azi : R) (nev : V3) (x y : R) : V3 :=
  vadd nev (vadd (vscale x (high_side inc azi)) (vscale y (lateral azi))).
(** (x, y) lies in the filled ellipse with semi-axes h along x and l along y *)
Definition in_ellipse (h l x y : R) : Prop := ((x / h) ^ 2 + (y / l) ^ 2 <= 1)%R.

(** windows of stations, [i, j) each: every interval s..s+1 between start and
    stop is in exactly one of them *)
Definition holds_interval (s : Z) (w : Z * Z) : bool := ((fst w <=? s) && (s + 1 <? snd w))%Z%bool.
Definition each_interval_once (start stop : Z) (ws : list (Z * Z)) : Prop :=
  forall s, (start <= s -> s + 1 < stop -> length (filter (holds_interval s) ws) = 1%nat)%Z.
