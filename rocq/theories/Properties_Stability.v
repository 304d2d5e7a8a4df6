(** C160: how errors of the angles move the positions of a survey. *)
Require Import Reals ZArith Bool String List Lra Lia.
Require Import Verif.Base Verif.Spec Verif.M_Utils Verif.M_Survey Verif.Spec_Length Verif.Spec_Stability.
Require Import Verif.P_Length Verif.P_Stability.
Import ListNotations.
Local Open Scope R_scope.

(** * C160 *)
Theorem C160_positions : forall h rows deg sx sn unit s h' rows' deg' sx' sn' unit' s' e k a0 a p0 p p',
  Survey h rows deg sx sn unit = Some s -> Survey h' rows' deg' sx' sn' unit' = Some s' ->
  same_depths (sv_rows s) (sv_rows s') -> not_back (sv_rows s) ->
  turns_within (7 / 5) (sv_rows s) -> turns_within (7 / 5) (sv_rows s') ->
  directions_within e (sv_rows s) (sv_rows s') ->
  nth_error (sv_rows s) 0 = Some a0 -> nth_error (sv_rows s) k = Some a ->
  nth_error (sv_nev s) 0 = Some p0 -> nth_error (sv_nev s') 0 = Some p0 ->
  nth_error (sv_nev s) k = Some p -> nth_error (sv_nev s') k = Some p' ->
  dist p' p <= 8 / 3 * e * (st_md a - st_md a0).
Proof. exact stable_positions. Qed.
Print Assumptions C160_positions.
Theorem C160_direction : forall inc azi inc' azi' t,
  angle_between (direction_nev inc azi) (direction_nev inc' azi') t ->
  t <= Rabs (inc' - inc) + Rabs (azi' - azi).
Proof. exact stable_direction. Qed.
Print Assumptions C160_direction.
Theorem C160_angles : forall d l l', angles_within d l l' -> directions_within (2 * d) l l'.
Proof. exact stable_angles. Qed.
Print Assumptions C160_angles.
Theorem C160_turns : forall e l l' k a b a' b' t t', directions_within e l l' ->
  nth_error l k = Some a -> nth_error l (S k) = Some b -> nth_error l' k = Some a' -> nth_error l' (S k) = Some b' ->
  angle_between (heading a) (heading b) t -> angle_between (heading a') (heading b') t' ->
  Rabs (t' - t) <= 2 * e.
Proof. exact stable_turns. Qed.
Print Assumptions C160_turns.
Theorem C160_straight : forall h rows deg sx sn unit s h' rows' deg' sx' sn' unit' s' k a0 a0' a p0 p p' t,
  Survey h rows deg sx sn unit = Some s -> Survey h' rows' deg' sx' sn' unit' = Some s' ->
  same_depths (sv_rows s) (sv_rows s') -> not_back (sv_rows s) -> straight (sv_rows s) -> straight (sv_rows s') ->
  nth_error (sv_rows s) 0 = Some a0 -> nth_error (sv_rows s') 0 = Some a0' -> angle_between (heading a0) (heading a0') t ->
  nth_error (sv_rows s) k = Some a ->
  nth_error (sv_nev s) 0 = Some p0 -> nth_error (sv_nev s') 0 = Some p0 ->
  nth_error (sv_nev s) k = Some p -> nth_error (sv_nev s') k = Some p' ->
  dist p' p = 2 * sin (t / 2) * (st_md a - st_md a0).
Proof. exact stable_straight. Qed.
Print Assumptions C160_straight.
Example C160_case : exists s s', Survey grid_header build_rows false vzero vzero "meters" = Some s /\
  Survey grid_header near_rows false vzero vzero "meters" = Some s' /\
  same_depths (sv_rows s) (sv_rows s') /\ not_back (sv_rows s) /\
  turns_within (7 / 5) (sv_rows s) /\ turns_within (7 / 5) (sv_rows s') /\
  angles_within (1 / 100) (sv_rows s) (sv_rows s') /\ directions_within (2 * (1 / 100)) (sv_rows s) (sv_rows s') /\
  nth_error (sv_nev s) 0 = nth_error (sv_nev s') 0.
Proof. exact stable_case. Qed.
