(** Vocabulary for clearance runs refined at minima. *)
Require Import Reals ZArith String List.
Require Import Verif.Base Verif.NumPy Verif.Spec.
Import ListNotations.
Open Scope R_scope.

(** a < b between numpy numbers: never when one of them is nan *)
Definition lower (a b : ext) : Prop :=
  match a, b with
  | Fin x, Fin y => x < y
  | Fin _, PInf => True
  | NInf, Fin _ => True
  | NInf, PInf => True
  | _, _ => False
  end.

(** entry [i] is lower than the one before and the one after it *)
Definition dips (l : list ext) (i : nat) : Prop :=
  exists j a b c, i = S j /\ nth_error l j = Some a /\ nth_error l i = Some b /\ nth_error l (S i) = Some c /\
    lower b a /\ lower b c.

(** the entries whose mark is false, in order *)
Fixpoint unmarked {A} (marks : list bool) (l : list A) : list A :=
  match marks, l with
  | m :: marks, x :: r => if m then unmarked marks r else x :: unmarked marks r
  | _, _ => []
  end.

(** a minimiser started at 0 that keeps to its bounds and does not end higher
    than it started *)
Definition descends (minimise : (R -> ext) -> R -> R -> R) : Prop :=
  forall f lo hi, lo < 0 < hi ->
    lo <= minimise f lo hi <= hi /\ ~ lower (f 0) (f (minimise f lo hi)).
