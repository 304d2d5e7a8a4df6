(** Vocabulary of the property about the length of a well. *)
Require Import Reals List String.
Require Import Verif.Base Verif.Spec Verif.M_Utils Verif.M_Survey.
Local Open Scope R_scope.

(** the direction of the hole at a station, north/east/down *)
Definition heading (a : station) : V3 := direction_nev (st_inc a) (st_azi a).
(** the measured depths do not decrease, or increase *)
Definition not_back (l : list station) : Prop := forall k a b, nth_error l k = Some a -> nth_error l (S k) = Some b -> st_md a <= st_md b.
Definition forward (l : list station) : Prop := forall k a b, nth_error l k = Some a -> nth_error l (S k) = Some b -> st_md a < st_md b.
(** no two neighbouring stations point in opposite directions *)
Definition no_reversal (l : list station) : Prop := forall k a b, nth_error l k = Some a -> nth_error l (S k) = Some b -> heading b <> vneg (heading a).
(** the entries of a list after position i and up to position j, added up *)
Definition sum_between (i j : nat) (l : list R) : R := fold_right Rplus 0 (firstn (j - i) (skipn (S i) l)).
(** a row, a header with depths in another unit, k of which make one of the old *)
Definition stretch_row (k : R) (r : row) : row := let '(md, inc, azi) := r in (k * md, inc, azi).
Definition with_unit (u : string) (h : header) : header := mkHeader (h_ref h) (h_convergence h) (h_declination h) (h_gsf h) (h_vs_azimuth h) u.
