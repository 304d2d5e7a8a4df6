(** Python / numpy primitives used by welleng, from their documentation:
    arctan2, %, degrees/radians, diff, cumsum, IEEE special values. *)
Require Import Reals Lra Psatz List ZArith.
Require Import Verif.Base.
Import ListNotations.
Open Scope R_scope.

(** numpy.arctan2(y, x) on real arguments (no signed zeros: arctan2(0,0)=0). *)
Definition arctan2 (y x : R) : R :=
  if Rlt_dec 0 x then atan (y / x)
  else if Rlt_dec x 0 then
         if Rle_dec 0 y then atan (y / x) + PI else atan (y / x) - PI
       else if Rlt_dec 0 y then PI / 2
            else if Rlt_dec y 0 then - (PI / 2) else 0.

(** floor, and python/numpy [%] with a positive modulus *)
Definition rfloor (x : R) : Z := Int_part x.
Definition rmod (a m : R) : R := a - m * IZR (rfloor (a / m)).

(** python int(x): truncation toward zero *)
Definition rtrunc (x : R) : Z :=
  if Rle_dec 0 x then rfloor x else (- rfloor (- x))%Z.

Definition radians (d : R) : R := d * (PI / 180).
Definition degrees (r : R) : R := r * (180 / PI).

(** np.diff(l, prepend=p) *)
Fixpoint diff_from (p : R) (l : list R) : list R :=
  match l with
  | [] => []
  | x :: r => (x - p) :: diff_from x r
  end.

(** np.cumsum(..., axis=0) on rows of three numbers, with accumulator *)
Fixpoint vcumsum_from (acc : V3) (l : list V3) : list V3 :=
  match l with
  | [] => []
  | d :: r => vadd acc d :: vcumsum_from (vadd acc d) r
  end.
Definition vcumsum (l : list V3) : list V3 := vcumsum_from vzero l.

Fixpoint mcumsum_from (acc : M3) (l : list M3) : list M3 :=
  match l with
  | [] => []
  | d :: r => madd acc d :: mcumsum_from (madd acc d) r
  end.
Definition mcumsum (l : list M3) : list M3 := mcumsum_from mzero l.

(** consecutive pairs (a[:-1], a[1:]) mapped through f *)
Fixpoint pairwise {A B : Type} (f : A -> A -> B) (l : list A) : list B :=
  match l with
  | a :: ((b :: _) as r) => f a b :: pairwise f r
  | _ => []
  end.

(** IEEE-754 values without signed zeros *)
Inductive ext := Fin (r : R) | PInf | NInf | NaN.

(** numpy division of finite numbers (zero divisor is +0) *)
Definition ediv (a b : R) : ext :=
  if Req_EM_T b 0 then
    if Rlt_dec 0 a then PInf else if Rlt_dec a 0 then NInf else NaN
  else Fin (a / b).
