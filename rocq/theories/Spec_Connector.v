(** Vocabulary of the connector properties: elementary geometry and sets of
    depths.  Nothing here refers to the model of the code. *)
Require Import Reals ZArith List Sorted.
Require Import Verif.Base Verif.Spec.
Import ListNotations.
Open Scope R_scope.

(** distance of the point [q] from the line through [p] with unit direction [u],
    and its signed distance ahead of [p] along that line *)
Definition off_axis (p u q : V3) : R := norm (cross (vsub q p) u).
Definition ahead (p u q : V3) : R := dot (vsub q p) u.

(** Leaving [p] in the unit direction [u], turn on a circle of radius [r], toward
    the side on which [q] lies, through the angle [t], then go straight for [len]:
    the walk arrives at [q] heading [v], and [m] is where the turn ended. *)
Definition turn_then_straight (p u : V3) (r t len : R) (m q v : V3) : Prop :=
  exists n, is_unit n /\ orthogonal u n /\ 0 <= dot n (vsub q p) /\
    m = arc_point p u n r t /\ v = arc_tangent u n t /\ q = vadd m (vscale len v).

(** the radius of the circle that is tangent to [u] at [p] and passes through [q] *)
Definition tangent_circle_radius (p u q : V3) : R :=
  dot (vsub q p) (vsub q p) / (2 * off_axis p u q).

(** [x] is an integer multiple of the step [s] *)
Definition multiple (s x : R) : Prop := exists k : Z, x = IZR k * s.

(** A list of depths that holds the [marks] and the multiples of [s] strictly
    between [a] and [b], nothing else, each once and in increasing order. *)
Definition step_grid (s a b : R) (marks l : list R) : Prop :=
  StronglySorted Rlt l /\
  forall x, In x l <-> (In x marks \/ (a < x < b /\ multiple s x)).

(** after every depth but the last another one follows within [s] *)
Definition no_gap_over (s b : R) (l : list R) : Prop :=
  forall x, In x l -> x < b -> exists y, In y l /\ x < y <= x + s.

(** [a] and [b] are neighbours in the list *)
Definition consecutive {A} (l : list A) (a b : A) : Prop :=
  exists before after, l = before ++ a :: b :: after.
(** a survey station (measured depth, inclination, azimuth) and its direction *)
Definition depth_of (st : R * R * R) : R := fst (fst st).
Definition heading_of (st : R * R * R) : V3 := direction_nev (snd (fst st)) (snd st).
(** A depth that is neither a station nor on the grid: where the design curvature
    [dls] (per 30 m) would complete the turn between two stations before the
    second one, or anywhere between two stations in nearly opposite directions. *)
Definition extra_depth (dls : R) (svy : list (R * R * R)) (x : R) : Prop :=
  exists a b t, consecutive svy a b /\ angle_between (heading_of a) (heading_of b) t /\ 0 < t /\
    depth_of a < x <= depth_of b /\
    ((x = depth_of a + 30 / dls * t /\ x < depth_of b) \/ Rabs (t - PI) <= 1 / 100000).
(** the depths the interpolated survey [svy] may have: stations, multiples of the
    step strictly between the first and the last station, and extra ones *)
Definition is_station (svy : list (R * R * R)) (x : R) : Prop := exists st, In st svy /\ x = depth_of st.
Definition inner_multiple (s : R) (svy : list (R * R * R)) (x : R) : Prop :=
  multiple s x /\ exists a b, is_station svy a /\ is_station svy b /\ a < x < b.
Definition grid_depth (dls s : R) (svy : list (R * R * R)) (x : R) : Prop :=
  is_station svy x \/ inner_multiple s svy x \/ extra_depth dls svy x.
(** [d] is the direction at depth [x] on the minimum-curvature path from station
    [a] to station [b]: unchanged, or turned at a constant rate in one plane *)
Definition on_path (a b : R * R * R) (x : R) (d : V3) : Prop :=
  depth_of a <= x <= depth_of b /\
  ((heading_of b = heading_of a /\ d = heading_of a) \/
   exists n t, is_unit n /\ orthogonal (heading_of a) n /\ angle_between (heading_of a) (heading_of b) t /\
     heading_of b = arc_tangent (heading_of a) n t /\
     d = arc_tangent (heading_of a) n (t * ((x - depth_of a) / (depth_of b - depth_of a)))).
(** a leg on which the directions are not those of the minimum-curvature path:
    the turn is gentler than the design curvature, or smaller than about 1e-10
    radians, or within 1e-5 radians of half a circle *)
Definition irregular_leg (dls : R) (a b : R * R * R) : Prop :=
  exists t, angle_between (heading_of a) (heading_of b) t /\ 0 < t < PI /\
    (30 / dls * t < depth_of b - depth_of a \/ sin t < 1 / 10000000000 \/ Rabs (t - PI) <= 1 / 100000).
(** no station heads exactly opposite to the one before it *)
Definition no_reversal (svy : list (R * R * R)) : Prop :=
  forall a b, consecutive svy a b -> heading_of b <> vneg (heading_of a).
