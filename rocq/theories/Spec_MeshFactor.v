(** The separation factor the mesh method reports, rounded to two decimals. *)
Require Import Reals ZArith.
Require Import Verif.Base Verif.NumPy.
Local Open Scope R_scope.

(** [y] is the hundredth nearest to [x]; halfway between two, the even one *)
Definition two_decimals (x y : R) : Prop :=
  exists k : Z, y = IZR k / 100 /\ Rabs (x - y) <= 1 / 200 /\ (Rabs (x - y) = 1 / 200 -> Z.even k = true).
(** with centres [cc] apart: in a collision of that depth, the share of the centre
    distance in it plus the depth, zero when either is zero; otherwise the centre
    distance over what the gap [gap] between the meshes leaves of it *)
Definition reported_factor (collides : bool) (cc gap depth : R) (sf : ext) : Prop :=
  if collides then
    ((cc = 0 \/ depth = 0) /\ sf = Fin 0) \/
    (cc <> 0 /\ depth <> 0 /\ exists y, two_decimals (cc / (cc + depth)) y /\ sf = Fin y)
  else
    (cc = gap /\ sf = PInf) \/ (cc <> gap /\ exists y, two_decimals (cc / (cc - gap)) y /\ sf = Fin y).
