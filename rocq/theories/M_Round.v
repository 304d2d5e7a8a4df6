(** Model of the minimum curvature code of /repo/welleng/utils.py in rounded
    arithmetic: the same functions as in M_Utils.v, with one rounding after every
    arithmetic operation and the library's functions with errors of their own.
    The machine is a parameter of the model.  Exponents are unbounded: overflow
    and underflow are not modelled, nor are infinities and nan. *)
Require Import Reals List.
Require Import Verif.Base Verif.NumPy Verif.M_Utils.
Import ListNotations.
Open Scope R_scope.

(** the arithmetic numpy does the work in: [fl] is the rounding of a result of
    +, -, * or /; the others are np.sin, np.cos, np.tan, np.arcsin, np.arccos and
    np.sqrt (used in welleng/utils.py:9-80 and welleng/connector.py:939-941) *)
Record machine := mkMachine {
  fl : R -> R;
  fsin : R -> R;
  fcos : R -> R;
  ftan : R -> R;
  fasin : R -> R;
  facos : R -> R;
  fsqrt : R -> R
}.

(** x ** 2 of numpy is x * x rounded once (welleng/utils.py:26-27) *)
Definition fsqr (M : machine) (x : R) : R := fl M (x * x).

(** welleng/utils.py:9-28 get_dogleg; the products of line 27 from left to right *)
Definition r_dogleg (M : machine) (inc1 azi1 inc2 azi2 : R) : R :=
  let a := fsqr M (fsin M (fl M (fl M (inc2 - inc1) / 2))) in
  let b := fl M (fl M (fsin M inc1 * fsin M inc2)
                 * fsqr M (fsin M (fl M (fl M (azi2 - azi1) / 2)))) in
  fl M (2 * fasin M (fsqrt M (fl M (a + b)))).

(** welleng/utils.py:31-48 get_rf *)
Definition r_rf (M : machine) (dogleg : R) : R :=
  if Req_EM_T dogleg 0 then 1
  else fl M (fl M (2 / dogleg) * ftan M (fl M (dogleg / 2))).

(** welleng/utils.py:51-80 min_curve_step with rf supplied; [N,E,V] order *)
Definition r_step (M : machine) (delta_md inc1 azi1 inc2 azi2 rf : R) : V3 :=
  let si1 := fsin M inc1 in let ci1 := fcos M inc1 in
  let si2 := fsin M inc2 in let ci2 := fcos M inc2 in
  let ca1 := fcos M azi1 in let sa1 := fsin M azi1 in
  let ca2 := fcos M azi2 in let sa2 := fsin M azi2 in
  let scale := fl M (fl M (delta_md * rf) / 2) in
  mkV (fl M (scale * fl M (fl M (si1 * ca1) + fl M (si2 * ca2))))
      (fl M (scale * fl M (fl M (si1 * sa1) + fl M (si2 * sa2))))
      (fl M (scale * fl M (ci1 + ci2))).

(** welleng/utils.py:127-141: the row (E, N, V) of a pair of stations *)
Definition r_delta (M : machine) (a b : station) : V3 :=
  let d := r_step M (fl M (st_md b - st_md a)) (st_inc a) (st_azi a)
             (st_inc b) (st_azi b)
             (r_rf M (r_dogleg M (st_inc a) (st_azi a) (st_inc b) (st_azi b))) in
  mkV (vy d) (vx d) (vz d).

(** a sum of two vectors, rounded component by component *)
Definition r_vadd (M : machine) (a b : V3) : V3 :=
  mkV (fl M (vx a + vx b)) (fl M (vy a + vy b)) (fl M (vz a + vz b)).

(** np.cumsum along axis 0 (welleng/utils.py:153-155): the running sums after the
    first row, from left to right *)
Fixpoint r_cumsum (M : machine) (acc : V3) (l : list V3) : list V3 :=
  match l with
  | [] => []
  | d :: t => let s := r_vadd M acc d in s :: r_cumsum M s t
  end.

(** welleng/utils.py:151-157 poss of MinCurve: the first row of the cumulative sum
    is the row of zeros itself; start_xyz is added to every row.  The asserts
    of the constructor are in M_Utils.MinCurve *)
Definition r_poss (M : machine) (svy : list station) (start_xyz : V3) : list V3 :=
  map (fun p => r_vadd M p start_xyz)
      (vzero :: r_cumsum M vzero (pairwise (r_delta M) svy)).

(** np.dot of two vectors of three, from left to right, then np.clip to [-1, 1]
    and np.arccos: the angle as welleng/connector.py:939-941 takes it *)
Definition r_dot (M : machine) (a b : V3) : R :=
  fl M (fl M (fl M (vx a * vx b) + fl M (vy a * vy b)) + fl M (vz a * vz b)).
Definition r_angle_arccos (M : machine) (a b : V3) : R :=
  facos M (Rmin 1 (Rmax (-1) (r_dot M a b))).
