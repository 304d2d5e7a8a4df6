(** Vocabulary of C169: a connection asked to end in the direction opposite to its
    start. *)
Require Import Reals.
Require Import Verif.Base Verif.NumPy Verif.Spec Verif.M_Connector.
Open Scope R_scope.

(** the direction asked for at the end is the start direction reversed; the nudge is
    a fraction *)
Definition reversed (a : cargs) (v : V3) : Prop :=
  a_vec2 a = Some v /\ is_unit v /\ start_vec a = vneg v /\ 0 < a_min_error a < 1.
Definition vertical (v : V3) : Prop := vx v = 0 /\ vy v = 0.
Definition level (v : V3) : Prop := vz v = 0.
(** [w] is the direction [v] with its vertical part reduced by the fraction [e] *)
Definition flattened (e : R) (v w : V3) : Prop :=
  is_unit w /\ exists k, 0 < k /\ w = vscale k (mkV (vx v) (vy v) ((1 - e) * vz v)).
