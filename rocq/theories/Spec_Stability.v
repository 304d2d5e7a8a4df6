(** Vocabulary of the property about errors of the directions of a survey. *)
Require Import Reals List.
Require Import Verif.Base Verif.Spec Verif.M_Utils Verif.Spec_Length.
Import ListNotations.
Local Open Scope R_scope.

(** the same depths in two lists of stations *)
Definition same_depths (l l' : list station) : Prop := map st_md l = map st_md l'.
(** at every station the two directions are at an angle of at most e *)
Definition directions_within (e : R) (l l' : list station) : Prop :=
  forall k a a' t, nth_error l k = Some a -> nth_error l' k = Some a' ->
  angle_between (heading a) (heading a') t -> t <= e.
(** the turn between neighbouring stations is at most m *)
Definition turns_within (m : R) (l : list station) : Prop :=
  forall k a b t, nth_error l k = Some a -> nth_error l (S k) = Some b ->
  angle_between (heading a) (heading b) t -> t <= m.
(** inclinations and azimuths within d of each other at every station (azimuths
    as numbers: 359 and 1 degrees are far apart here) *)
Definition angles_within (d : R) (l l' : list station) : Prop :=
  forall k a a', nth_error l k = Some a -> nth_error l' k = Some a' ->
  Rabs (st_inc a' - st_inc a) <= d /\ Rabs (st_azi a' - st_azi a) <= d.
(** a straight well: all directions are equal *)
Definition straight (l : list station) : Prop :=
  forall i j a b, nth_error l i = Some a -> nth_error l j = Some b -> heading a = heading b.
