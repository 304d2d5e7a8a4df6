(** Vocabulary of the statements about surveys drawn from connections: what a
    connection says about the well between its two ends, and which depths a
    survey drawn at a step has. *)
Require Import Reals String List.
Require Import Verif.Base Verif.Spec Verif.M_Connector Verif.Spec_Connector Verif.M_Survey.
Import ListNotations.
Open Scope R_scope.

(** every connection starts where, how and at the depth at which the one before
    it ends *)
Definition joined (cs : list conn) : Prop := forall a b, consecutive cs a b ->
  k_pos1 b = k_pos_target a /\ k_vec1 b = k_vec_target a /\ k_md1 b = k_md_target a.

(** The attributes of a connection fit together: either it goes straight, or it
    turns through less than half a circle (and not all but nothing) on a circle of
    radius [r] and then goes straight to the target. *)
Definition sound (c : conn) : Prop :=
  is_unit (k_vec1 c) /\ is_unit (k_vec_target c) /\
  match k_method c with
  | Hold =>
      k_md1 c < k_md_target c /\ k_md2 c = None /\ k_vec_target c = k_vec1 c /\
      k_pos_target c = vadd (k_pos1 c) (vscale (k_md_target c - k_md1 c) (k_vec1 c))
  | CurveHoldCurve => False
  | m =>
      exists r pos2, 0 < r /\ 0 < k_dogleg c < PI /\ 1 / 10000000000 <= sin (k_dogleg c) /\
        turn_then_straight (k_pos1 c) (k_vec1 c) r (k_dogleg c)
          (k_md_target c - (k_md1 c + k_dist_curve c)) pos2 (k_pos_target c) (k_vec_target c) /\
        k_dist_curve c = r * k_dogleg c /\ k_md1 c + k_dist_curve c <= k_md_target c /\
        match m, k_md2 c with
        | MinDistToTarget, Some m2 | MinCurve, Some m2 => m2 = k_md1 c + k_dist_curve c
        | MinCurveToTarget, None | MinCurve, None => k_md_target c = k_md1 c + k_dist_curve c
        | _, _ => False
        end
  end.

(** at depth [x] the connection is at [q], heading [d] *)
Definition on_connection (c : conn) (x : R) (q d : V3) : Prop :=
  k_md1 c <= x <= k_md_target c /\
  match k_method c with
  | Hold => q = vadd (k_pos1 c) (vscale (x - k_md1 c) (k_vec1 c)) /\ d = k_vec1 c
  | _ =>
      exists n, is_unit n /\ orthogonal (k_vec1 c) n /\ k_vec_target c = arc_tangent (k_vec1 c) n (k_dogleg c) /\
        let r := k_dist_curve c / k_dogleg c in
        (x <= k_md1 c + k_dist_curve c ->
           q = arc_point (k_pos1 c) (k_vec1 c) n r ((x - k_md1 c) / r) /\
           d = arc_tangent (k_vec1 c) n ((x - k_md1 c) / r)) /\
        (k_md1 c + k_dist_curve c <= x ->
           q = vadd (k_pos_target c) (vscale (x - k_md_target c) (k_vec_target c)) /\ d = k_vec_target c)
  end.

(** the depths of the survey drawn at the step: where connections start, end or
    stop turning, and the multiples of the step in between *)
Definition connection_end (cs : list conn) (x : R) : Prop :=
  exists c, In c cs /\ (x = k_md1 c \/ x = k_md_target c).
Definition drawn_depth (step : option R) (cs : list conn) (x : R) : Prop :=
  connection_end cs x \/ (exists c, In c cs /\ k_md2 c = Some x) \/
  (exists s a b, step = Some s /\ In a cs /\ In b cs /\ k_md1 a < x < k_md_target b /\ multiple s x).

(** a direction or displacement with [t] added to its azimuth *)
Definition turned (t : R) (v : V3) : V3 :=
  mkV (cos t * vx v - sin t * vy v) (sin t * vx v + cos t * vy v) (vz v).
(** what is added to the azimuths given to a survey to get grid azimuths *)
Definition to_grid (h : header) : R :=
  match h_ref h with
  | RefGrid => 0
  | RefTrue => - h_convergence h
  | RefMagnetic => h_declination h - h_convergence h
  end.

(** the step, if there is one, is positive *)
Definition pos_step (step : option R) : Prop := forall s, step = Some s -> 0 < s.
(** two depths of the drawn survey that differ do so by more than 0.1 mm *)
Definition far_apart (step : option R) (cs : list conn) : Prop :=
  forall x y, drawn_depth step cs x -> drawn_depth step cs y -> x <> y -> 1 / 10000 < Rabs (x - y).
