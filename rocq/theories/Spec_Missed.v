(** Vocabulary of the property about what a clearance run can miss between stations. *)
Require Import Reals List String.
Require Import Verif.Base Verif.Spec Verif.Spec_Lists Verif.Spec_Clearance Verif.M_Utils Verif.M_Survey.
Local Open Scope R_scope.

(** a survey with increasing depths in which no turn between stations is a half circle *)
Definition surveyed (s : survey) : Prop :=
  (exists h rows deg sx sn unit, Survey h rows deg sx sn unit = Some s) /\ strictly_increasing (map st_md (sv_rows s)) /\
  forall k a b, nth_error (sv_rows s) k = Some a -> nth_error (sv_rows s) (S k) = Some b -> get_dogleg (st_inc a) (st_azi a) (st_inc b) (st_azi b) < PI.
(** the well of this survey is at P at the measured depth m *)
Definition at_depth (s : survey) (m : R) (P : V3) : Prop := exists n h, survey_interpolate_md s m = NodeOk n h /\ nd_md n = m /\ nd_pos n = P.
(** neighbouring stations are at most g apart along the hole *)
Definition spacing (s : survey) (g : R) : Prop :=
  forall k a b, nth_error (sv_rows s) k = Some a -> nth_error (sv_rows s) (S k) = Some b -> st_md b - st_md a <= g.
