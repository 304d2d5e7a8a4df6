(** Vocabulary for control points and tortuosity. *)
Require Import Reals ZArith Bool String List Lia.
Require Import Verif.Base Verif.NumPy Verif.Spec Verif.M_Utils Verif.M_Survey.
Import ListNotations.
Open Scope R_scope.

(** numpy's closeness of two numbers *)
Definition near (rtol atol a b : R) : Prop := Rabs (a - b) <= atol + rtol * Rabs b.
(** two neighbouring sections lie in the same plane up to the tolerances: both
    are straight (no normal), or both bend and their unit normals are near *)
Definition same_plane (rtol atol : R) (a b : option V3) : Prop :=
  match a, b with
  | None, None => True
  | Some u, Some v => near rtol atol (vx u) (vx v) /\ near rtol atol (vy u) (vy v) /\ near rtol atol (vz u) (vz v)
  | _, _ => False
  end.

Definition heading (a : station) : V3 := direction_nev (st_inc a) (st_azi a).

(** stations [i] to [j] all have the same direction *)
Definition straight_between (rows : list station) (i j : nat) : Prop :=
  forall k a b, (i <= k < j)%nat -> nth_error rows k = Some a -> nth_error rows (S k) = Some b ->
    heading b = heading a.
(** between stations [i] and [j] the direction turns about the axis [n] at the
    constant rate [c] per unit of depth, and less than half a turn in all *)
Definition circular_between (rows : list station) (i j : nat) (n : V3) (c : R) : Prop :=
  0 < c /\ is_unit n /\
  (forall k a b, (i <= k < j)%nat -> nth_error rows k = Some a -> nth_error rows (S k) = Some b ->
    let t := c * (st_md b - st_md a) in
    0 < t < PI /\ orthogonal n (heading a) /\
    heading b = vadd (vscale (cos t) (heading a)) (vscale (sin t) (cross n (heading a)))) /\
  (forall a b, nth_error rows i = Some a -> nth_error rows j = Some b -> c * (st_md b - st_md a) < PI).

(** [i] and [j] follow one another in the list *)
Definition neighbours {A : Type} (l : list A) (i j : A) : Prop :=
  exists pre post, l = pre ++ i :: j :: post.

(** increasing indices *)
Fixpoint ascending (l : list nat) : Prop :=
  match l with
  | a :: ((b :: _) as r) => (a < b)%nat /\ ascending r
  | _ => True
  end.

(** equal after rounding to two decimals *)
Definition alike_rounded (round : R -> Z) (a b : ext) : Prop :=
  match a, b with
  | Fin x, Fin y => round x = round y
  | PInf, PInf | NInf, NInf => True
  | _, _ => False
  end.

(** [i] is the last of the [starts] before station [k] *)
Definition last_before (starts : list nat) (k i : nat) : Prop :=
  In i starts /\ (i < k)%nat /\ forall j, In j starts -> (j < k)%nat -> (j <= i)%nat.
Definition number_before (starts : list nat) (k : nat) : nat :=
  length (filter (fun i => Nat.ltb i k) starts).
(** contributions [b i k] added up section by section, from the first station to
    station [k]: whole sections first, then the part of the last one *)
Inductive summed (starts : list nat) (b : nat -> nat -> R) : nat -> R -> Prop :=
| summed_first : summed starts b 0 0
| summed_next : forall i k v, last_before starts k i -> summed starts b i v -> summed starts b k (v + b i k).

(** numpy's closeness with infinities; two nan count as close *)
Definition near_ext (rtol atol : R) (a b : ext) : Prop :=
  match a, b with
  | Fin x, Fin y => near rtol atol x y
  | PInf, PInf | NInf, NInf | NaN, NaN => True
  | _, _ => False
  end.

(** depth along the hole and straight distance between two stations *)
Definition depth_at (s : survey) (k : nat) : R := st_md (nth k (sv_rows s) (mkSt 0 0 0)).
Definition along (s : survey) (i k : nat) : R := depth_at s k - depth_at s i.
Definition chord (s : survey) (i k : nat) : R :=
  norm (vsub (nth k (sv_pos_nev s) vzero) (nth i (sv_pos_nev s) vzero)).
