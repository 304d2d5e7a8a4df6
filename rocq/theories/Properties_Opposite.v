(** C169: a connection asked to end in the direction opposite to its start. *)
Require Import Reals ZArith Bool String List Lra.
Require Import Verif.Base Verif.NumPy Verif.Spec Verif.M_Utils Verif.M_Connector Verif.Spec_Connector Verif.Spec_Opposite Verif.P_Opposite.
Import ListNotations.
Local Open Scope R_scope.

(** * C169 *)
Theorem C169_turn : forall bump a c v, reversed a v -> a_pos2 a = None -> connector bump a = inl c -> k_method c = MinCurve ->
  flattened (a_min_error a) v (k_vec_target c) /\ norm (vsub (k_vec_target c) v) <= 2 * a_min_error a * Rabs (vz v) /\
  angle_between (start_vec a) (k_vec_target c) (k_dogleg c) /\ PI / 2 < k_dogleg c /\
  (k_vec_target c = v <-> vertical v \/ level v) /\ (k_dogleg c = PI <-> vertical v \/ level v).
Proof. exact reversed_turn. Qed.
Print Assumptions C169_turn.
Theorem C169_nudged_refuted : ~ forall bump a c v, reversed a v -> a_pos2 a = None -> connector bump a = inl c -> k_method c = MinCurve ->
  k_vec_target c <> v /\ k_dogleg c < PI.
Proof. exact nudged_refuted. Qed.
Print Assumptions C169_nudged_refuted.
(** a well at an inclination turned back *)
Example C169_case : exists a c v, reversed a v /\ a_pos2 a = None /\ connector vzero a = inl c /\ k_method c = MinCurve /\ ~ vertical v /\ ~ level v.
Proof. exact back_example. Qed.
