(** Vocabulary of the property about wells between stations. *)
Require Import Reals List.
Require Import Verif.Base Verif.Spec Verif.M_Utils Verif.M_Survey Verif.Spec_Length.
Local Open Scope R_scope.

(** a well: position and direction at every depth, the direction being the rate of the position *)
Definition drilled (c T : R -> V3) : Prop := forall s, is_unit (T s) /\
  derivable_pt_lim (fun x => vx (c x)) s (vx (T s)) /\ derivable_pt_lim (fun x => vy (c x)) s (vy (T s)) /\ derivable_pt_lim (fun x => vz (c x)) s (vz (T s)).
(** it turns by at most k per unit of length *)
Definition turns_at_most (k : R) (T : R -> V3) : Prop := forall s s', s <= s' -> exists t, angle_between (T s) (T s') t /\ t <= k * (s' - s).
(** the survey measures its direction at the depths of the stations, and starts where it is *)
Definition measures (sv : survey) (c T : R -> V3) : Prop :=
  (forall a p, nth_error (sv_rows sv) 0 = Some a -> nth_error (sv_nev sv) 0 = Some p -> p = c (st_md a)) /\
  forall k a, nth_error (sv_rows sv) k = Some a -> heading a = T (st_md a).
(** how far a well that turns at most k per unit of length can be from its survey, with stations g apart, after the length l *)
Definition astray (k g l : R) : R := l * (k * g / 4 + (k * g) ^ 2 / 12) + 3 / 4 * k * g ^ 2.
(** the survey starts at depth a and ends at depth b *)
Definition ends (sv : survey) (a b : R) : Prop := exists first last,
  nth_error (sv_rows sv) 0 = Some first /\ nth_error (sv_rows sv) (pred (length (sv_rows sv))) = Some last /\ st_md first = a /\ st_md last = b.
