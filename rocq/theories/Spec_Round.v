(** What it is for arithmetic to be accurate, and the size of accumulated errors. *)
Require Import Reals List.
Require Import Verif.Base Verif.Spec Verif.M_Utils Verif.M_Round.
Import ListNotations.
Open Scope R_scope.

(** [x'] has a relative error of at most [e] as a value of [x] *)
Definition relative_error (e x' x : R) : Prop := Rabs (x' - x) <= e * Rabs x.

(** Every operation of the machine has a relative error of at most [u].  For
    binary64 rounding u is 2^-53, for a library within one unit in the last place
    2^-52 *)
Definition accurate (u : R) (M : machine) : Prop :=
  (forall x, relative_error u (fl M x) x) /\
  (forall x, relative_error u (fsin M x) (sin x)) /\
  (forall x, relative_error u (fcos M x) (cos x)) /\
  (forall x, - (PI / 2) < x < PI / 2 -> relative_error u (ftan M x) (tan x)) /\
  (forall x, -1 <= x <= 1 -> relative_error u (fasin M x) (asin x)) /\
  (forall x, 0 <= x -> relative_error u (fsqrt M x) (sqrt x)).

(** what n errors of size u in a row can amount to: about n u *)
Definition gamma (u : R) (n : nat) : R := INR n * u / (1 - INR n * u).

(** two neighbouring stations as surveys have them: inclinations from 0 to pi,
    neither angle changes by more than 2.9 radians and the turn A between the two
    directions is at most 1.4 radians *)
Definition mild_turn (A inc1 azi1 inc2 azi2 : R) : Prop :=
  0 <= inc1 <= PI /\ 0 <= inc2 <= PI /\
  Rabs (inc2 - inc1) <= 29 / 10 /\ Rabs (azi2 - azi1) <= 29 / 10 /\ A <= 7 / 5.

(** consecutive stations of a survey: depths do not go back, inclinations from 0 to
    pi, azimuths that differ by at most 7 radians (so all azimuths from 0 to 2 pi
    are allowed, also across north) and a turn of at most 1.4 radians *)
Definition mild_pair (a b : station) : Prop :=
  st_md a <= st_md b /\
  0 <= st_inc a <= PI /\ 0 <= st_inc b <= PI /\
  Rabs (st_inc b - st_inc a) <= 29 / 10 /\ Rabs (st_azi b - st_azi a) <= 7 /\
  forall A, angle_between (direction_nev (st_inc a) (st_azi a))
                          (direction_nev (st_inc b) (st_azi b)) A -> A <= 7 / 5.

Fixpoint mild_survey (svy : list station) : Prop :=
  match svy with
  | a :: (b :: _) as t => mild_pair a b /\ mild_survey t
  | _ => True
  end.

(** the two points differ by at most e in each coordinate *)
Definition within (e : R) (p q : V3) : Prop :=
  Rabs (vx p - vx q) <= e /\ Rabs (vy p - vy q) <= e /\ Rabs (vz p - vz q) <= e.

(** the largest coordinate of a point, without its sign *)
Definition largest (p : V3) : R := Rmax (Rabs (vx p)) (Rmax (Rabs (vy p)) (Rabs (vz p))).
