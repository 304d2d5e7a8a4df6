(** Vocabulary for survey_to_plan and connect_points. *)
Require Import Reals ZArith List Arith.
Require Import Verif.Base Verif.NumPy Verif.M_Utils Verif.Spec Verif.Spec_Connector Verif.Spec_Connector2 Verif.Spec_Extend Verif.M_Connector.
Import ListNotations.
Open Scope R_scope.

(** ** Where a planned section stops *)
(** the score jumps by at least the tolerance (an undefined score never jumps) *)
Definition jumps (tol : R) (a b : option R) : Prop := exists x y, a = Some x /\ b = Some y /\ tol <= Rabs (y - x).
(** the score of the connection to station [j]; at the station after the start it
    counts as zero *)
Definition fit {N C : Type} (join : N -> nat -> option C) (score : C -> nat -> nat -> option R) (s : nat) (a : N) (j : nat) : option R :=
  if (j =? s + 1)%nat then Some 0 else match join a j with Some c => score c s j | None => None end.
(** [b] is the first station, from the second after the start and before the last
    two, where the score jumps *)
Definition first_jump (tol : R) (f : nat -> option R) (n s b : nat) : Prop :=
  (s + 2 <= b /\ b + 2 < n)%nat /\ jumps tol (f (b - 1)%nat) (f b) /\
  forall j, (s + 2 <= j < b)%nat -> ~ jumps tol (f (j - 1)%nat) (f j).
(** the section from station [s] runs to station [t], and the next one starts
    counting at [next] *)
Definition runs_to (tol : R) (f : nat -> option R) (n s t next : nat) : Prop :=
  (exists b, first_jump tol f n s b /\ next = (b - 1)%nat /\ t = Nat.max (s + 2) (b - 1)) \/
  ((forall b, ~ first_jump tol f n s b) /\ next = (n - 1)%nat /\ t = (n - 1)%nat).
(** a plan: sections [cs] to stations [ts], each from where the previous one ends *)
Inductive planned {N C : Type} (join : N -> nat -> option C) (score : C -> nat -> nat -> option R) (ends : C -> N) (tol : R) (n : nat)
  : nat -> N -> list C -> list nat -> Prop :=
| planned_last : forall s a c t, runs_to tol (fit join score s a) n s t (n - 1)%nat -> join a t = Some c ->
    planned join score ends tol n s a [c] [t]
| planned_more : forall s a c t next cs ts, runs_to tol (fit join score s a) n s t next -> (next < n - 1)%nat -> join a t = Some c ->
    planned join score ends tol n next (ends c) cs ts -> planned join score ends tol n s a (c :: cs) (t :: ts).
Fixpoint rising (l : list nat) : Prop :=
  match l with
  | a :: ((b :: _) as r) => (a < b)%nat /\ rising r
  | _ => True
  end.

(** ** Connected points *)
(** where connection [i] starts: the first at the given start, every other where
    the previous one ends *)
Definition start_of (cs : list conn) (p u : V3) (m : R) (i : nat) : option (V3 * V3 * R) :=
  match i with
  | O => Some (p, u, m)
  | S j => match nth_error cs j with Some c => Some (k_pos_target c, k_vec_target c, k_md_target c) | None => None end
  end.
(** coordinates given as (east, north, depth) unless [nev] *)
Definition in_nev (nev : bool) (v : V3) : V3 := if nev then v else mkV (vy v) (vx v) (vz v).
(** One connection of the chain: from [p] in direction [u] at depth [m] to [q], at
    [d] degrees per 30 m.  Straight if the target is straight ahead; a turn at [d]
    and a straight line if the turning circle passes beside the target; a single,
    tighter arc if the target lies inside the turning circle. *)
Definition leg (p u : V3) (m : R) (q : V3) (d : R) (c : conn) : Prop :=
  let r := dls_radius d in let rc := tangent_circle_radius p u q in
  0 < d /\ k_pos1 c = p /\ k_vec1 c = u /\ k_md1 c = m /\
  k_pos_target c = q /\ is_unit (k_vec_target c) /\ m <= k_md_target c /\
  (q <> p -> allclose u (vunit (vsub q p)) -> k_vec_target c = u /\ k_md_target c = m + dist q p) /\
  (~ allclose u (vunit (vsub q p)) -> ~ allclose p q -> 0 < off_axis p u q -> off_axis p u q <> 2 * r ->
     r <= rc * (1 - 1 / 100000) ->
     exists pos2 t len, turn_then_straight p u r t len pos2 q (k_vec_target c) /\ 0 < t < 2 * PI /\ 0 <= len /\
       k_md_target c = m + r * t + len) /\
  (~ allclose u (vunit (vsub q p)) -> ~ allclose p q -> 0 < off_axis p u q -> ahead p u q <> 0 -> rc < r ->
     exists t, turn_then_straight p u rc t 0 q q (k_vec_target c) /\ 0 < t < 2 * PI /\ k_md_target c = m + rc * t).
(** where a connection can fail although [d] is positive: a target at the start, on
    the line of the start direction, at its level, or on the edge of the turning circle *)
Definition awkward (p u q : V3) (d : R) : Prop :=
  let r := dls_radius d in let rc := tangent_circle_radius p u q in
  ~ (q <> p /\ allclose u (vunit (vsub q p))) /\
  (allclose p q \/ off_axis p u q = 0 \/ off_axis p u q = 2 * r \/ ahead p u q = 0 \/ rc * (1 - 1 / 100000) < r <= rc).
(** [z] is [x] without its fraction *)
Definition whole_part (x : R) (z : Z) : Prop := (0 <= x -> IZR z <= x < IZR z + 1) /\ (x <= 0 -> IZR z - 1 < x <= IZR z).
