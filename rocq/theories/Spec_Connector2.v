(** Vocabulary of the connector properties that refers to the constructor's
    arguments: which were supplied, and whether the target is straight ahead. *)
Require Import Reals ZArith Bool String List.
Require Import Verif.Base Verif.NumPy Verif.Spec Verif.M_Utils Verif.M_Connector.
Open Scope R_scope.

(** the arguments are a start direction, a target position, a dogleg severity
    (giving the design radius [r]) and a tolerance, and nothing else *)
Definition only_position (a : cargs) (u q : V3) (r : R) : Prop :=
  a_vec1 a = Some u /\ a_inc1 a = None /\ a_azi1 a = None /\
  a_md2 a = None /\ a_inc2 a = None /\ a_azi2 a = None /\ a_vec2 a = None /\
  a_pos2 a = Some q /\ a_force a = false /\
  (exists d, a_dls a = Some d /\ 0 < d /\ r = (if a_meters a then 30 else 100) / d) /\
  0 <= a_min_error a < 1.
(** the target lies straight ahead in the start direction, as the code tests it *)
Definition straight (a : cargs) : Prop :=
  target_vec a = start_vec a /\
  forall q, a_pos2 a = Some q ->
    q <> a_pos1 a /\ allclose (start_vec a) (vunit (vsub q (a_pos1 a))).
Definition base_method (a : cargs) : string :=
  if a_force a then "min_curve"
  else if given (a_pos2 a) then
    if (given (a_vec2 a) || (given (a_inc2 a) && given (a_azi2 a)))%bool
    then "curve_hold_curve" else "curve_hold"
  else "min_curve".
(** a position with an azimuth but no inclination is never treated as a hold *)
Definition never_hold (a : cargs) : Prop :=
  a_force a = false /\ a_pos2 a <> None /\ a_azi2 a <> None /\ a_inc2 a = None.
(** two calls supply the same fields *)
Definition same_fields (a b : cargs) : Prop :=
  (a_vec1 a = None <-> a_vec1 b = None) /\ (a_inc1 a = None <-> a_inc1 b = None) /\
  (a_azi1 a = None <-> a_azi1 b = None) /\ (a_dls a = None <-> a_dls b = None) /\
  (a_md2 a = None <-> a_md2 b = None) /\ (a_pos2 a = None <-> a_pos2 b = None) /\
  (a_vec2 a = None <-> a_vec2 b = None) /\ (a_inc2 a = None <-> a_inc2 b = None) /\
  (a_azi2 a = None <-> a_azi2 b = None) /\ a_force a = a_force b.
