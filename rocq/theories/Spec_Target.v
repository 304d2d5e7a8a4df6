(** Vocabulary of the plan property: how the legs of a plan follow one another. *)
Require Import Reals List.
Require Import Verif.Base Verif.M_Target.
Import ListNotations.
Open Scope R_scope.

(** The curvature a step of the plan is drilled with: what it states, if that is
    positive, and otherwise one hundred-thousandth *)
Definition drilled_at (s : wbp_step) (k : R) : Prop :=
  (ws_dls s = Some k /\ 0 < k) \/
  (k = 1 / 100000 /\ forall d, ws_dls s = Some d -> d <= 0).

(** [legs make reach p m i a steps l]: from position [p] at depth [m] with angles
    [i] and [a], the steps are joined by the connections [l], each made from where
    the one before it ended *)
Inductive legs {conn : Type} (make : V3 -> R -> R -> R -> R -> R -> R -> R -> option conn)
  (reach : conn -> V3 * R * R * R) : V3 -> R -> R -> R -> list wbp_step -> list conn -> Prop :=
| no_leg : forall p m i a, legs make reach p m i a [] []
| one_leg : forall p m i a s steps k c p' m' i' a' l,
    drilled_at s k -> make p m i a (ws_md s) (ws_inc s) (ws_azi s) k = Some c ->
    reach c = (p', m', i', a') -> legs make reach p' m' i' a' steps l ->
    legs make reach p m i a (s :: steps) (c :: l).
