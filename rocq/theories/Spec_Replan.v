(** Vocabulary of C150: the same connection asked for in another frame, turned by
    the angle [w] about the vertical and moved by [t]. *)
Require Import Reals ZArith Bool String List.
Require Import Verif.Base Verif.NumPy Verif.M_Utils Verif.M_Connector Verif.M_Connector2 Verif.Spec_Frames.
Import ListNotations.
Local Open Scope R_scope.

(** the arguments of the connector in the other frame: positions moved, directions
    turned, azimuths increased *)
Definition turned_args (w : R) (t : V3) (a : cargs) : cargs :=
  mkArgs (moved (turn w) t (a_pos1 a)) (option_map (mv (turn w)) (a_vec1 a)) (a_inc1 a)
    (option_map (fun z => z + w) (a_azi1 a)) (a_md1 a) (a_dls a)
    (a_md2 a) (option_map (moved (turn w) t) (a_pos2 a)) (option_map (mv (turn w)) (a_vec2 a))
    (a_inc2 a) (option_map (fun z => z + w) (a_azi2 a)) (a_meters a) (a_min_error a) (a_force a).
(** the connection seen in the other frame: the same kind, depths, dog leg and lengths *)
Definition turned_conn (w : R) (t : V3) (c : conn) : conn :=
  mkConn (k_method c) (moved (turn w) t (k_pos1 c)) (mv (turn w) (k_vec1 c)) (k_md1 c)
    (moved (turn w) t (k_pos_target c)) (mv (turn w) (k_vec_target c)) (k_md_target c)
    (option_map (moved (turn w) t) (k_pos2 c)) (k_md2 c)
    (k_tangent c) (k_dogleg c) (k_dist_curve c) (k_func c).
Definition turned_outcome (w : R) (t : V3) (x : conn + cexn) : conn + cexn :=
  match x with inl c => inl (turned_conn w t c) | inr e => inr e end.
Definition turned_rows_of (w : R) (rows : list (R * V3)) : list (R * V3) :=
  map (fun r => (fst r, mv (turn w) (snd r))) rows.

(** the direction from one point to another; none between equal points *)
Definition heading (p q : V3) : option V3 := normalised (vsub q p).
(** the comparisons within a tolerance, which look at each coordinate by itself, come
    out alike in both frames for the target position [q]: whether the target is at the
    start (before and after the random shift, which is turned too), and whether it is
    straight ahead *)
Definition alike (w : R) (t bump : V3) (a : cargs) (q : V3) : Prop :=
  let at_start p := allclose (moved (turn w) t (a_pos1 a)) (moved (turn w) t p) <-> allclose (a_pos1 a) p in
  at_start q /\ at_start (vadd q bump) /\
  forall u, heading (a_pos1 a) q = Some u ->
    (allclose (mv (turn w) (start_vec a)) (mv (turn w) u) <-> allclose (start_vec a) u).
(** an azimuth is taken over from the start, given as a direction straight up or down *)
Definition no_azimuth (a : cargs) : Prop :=
  exists v i, a_vec1 a = Some v /\ vx v = 0 /\ vy v = 0 /\ a_vec2 a = None /\ a_inc2 a = Some i /\ a_azi2 a = None.
(** the stations (depth, inclination, azimuth) with every azimuth increased *)
Definition turned_stations (w : R) (l : list (R * R * R)) : list (R * R * R) :=
  map (fun s => let '(md, inc, azi) := s in (md, inc, azi + w)) l.
(** an element of the batch in another frame *)
Definition moved_batch (Q : M3) (t : V3) (b : batch_row) : batch_row :=
  mkBatch (moved Q t (b_pos2 b)) (mv Q (b_vec_target b)) (b_tangent b) (b_dogleg b) (b_dist_curve b) (b_md b).
