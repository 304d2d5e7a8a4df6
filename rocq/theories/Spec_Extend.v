(** Vocabulary for drop_off and extend_to_tvd. *)
Require Import Reals List.
Require Import Verif.Base Verif.NumPy Verif.Spec Verif.M_Connector Verif.M_Extend.
Import ListNotations.
Open Scope R_scope.

(** the radius of a path that turns [dls] degrees in 30 m *)
Definition dls_radius (dls : R) : R := 5400 / (PI * dls).
(** the node is at [p], heading [u], at depth [m] *)
Definition describes (n : node) (p u : V3) (m : R) : Prop :=
  n_pos_nev n = Some p /\ n_vec_nev n = Some u /\ n_md n = Some m.
(** where a path from an optional node starts: what is missing is taken as the
    origin, straight down, and depth zero *)
Definition or_default {A} (o : option A) (d : A) : A := match o with Some x => x | None => d end.
Definition starts (n : option node) (p u : V3) (m : R) : Prop :=
  match n with
  | None => p = vzero /\ u = down /\ m = 0
  | Some k => p = or_default (n_pos_nev k) vzero /\ u = or_default (n_vec_nev k) down /\ m = or_default (n_md k) 0
  end.
(** inclination and azimuth of a direction, the azimuth of a vertical one being 0 *)
Definition bears (u : V3) (inc azi : R) : Prop :=
  u = direction_nev inc azi /\ 0 <= inc <= PI /\ (0 < inc < PI \/ azi = 0).
(** the number in [-d, d] nearest to [x] *)
Definition nearest_within (d x : R) : R := Rmax (- d) (Rmin d x).

(** ** What may be assumed of the optimisers *)
Definition inside (b : (R * R) * (R * R)) (x : R * R) : Prop :=
  fst (fst b) <= fst x <= snd (fst b) /\ fst (snd b) <= snd x <= snd (snd b).
(** the answer respects the bounds *)
Definition keeps_bounds (mini : minimizer2) : Prop := forall f x0 b,
  fst (fst b) <= snd (fst b) -> fst (snd b) <= snd (snd b) -> inside b (mini f x0 b).
Definition best_in (b : (R * R) * (R * R)) (f : R * R -> R) (x : R * R) : Prop :=
  inside b x /\ forall y, inside b y -> f x <= f y.
(** the answer is a minimum whenever there is one *)
Definition finds_best (mini : minimizer2) : Prop := keeps_bounds mini /\
  forall f x0 b, (exists y, best_in b f y) -> best_in b f (mini f x0 b).
(** and the minimum with the smallest first coordinate, if there is one *)
Definition least_best (b : (R * R) * (R * R)) (f : R * R -> R) (x : R * R) : Prop :=
  best_in b f x /\ forall z, best_in b f z -> fst x <= fst z.
Definition finds_least (mini : minimizer2) : Prop := finds_best mini /\
  forall f x0 b, (exists y, least_best b f y) -> least_best b f (mini f x0 b).
(** one variable, bounded below, for an objective that never raises *)
Definition best_from (lo : R) (f : R -> option R) (x : R) : Prop :=
  lo <= x /\ exists v, f x = Some v /\ forall y w, lo <= y -> f y = Some w -> v <= w.
Definition finds_best1 (mini : minimizer1) : Prop := forall f x0 lo,
  (forall y, lo <= y -> f y <> None) -> (exists y, best_from lo f y) ->
  exists x, mini f x0 lo = Some x /\ best_from lo f x.
