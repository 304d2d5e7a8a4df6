(** Vocabulary of C124: the same wells seen in another frame. *)
Require Import Reals ZArith Bool String List.
Require Import Verif.Base Verif.NumPy Verif.Spec Verif.M_Utils Verif.M_Survey Verif.M_Refine.
Import ListNotations.
Local Open Scope R_scope.

(** a matrix that keeps lengths and angles: rotations and mirror images *)
Definition isometry (Q : M3) : Prop := forall u v, dot (mv Q u) (mv Q v) = dot u v.
(** a position after turning (or mirroring) with [Q] and moving by [t] *)
Definition moved (Q : M3) (t p : V3) : V3 := vadd (mv Q p) t.
(** turning by the angle [w] from north toward east; the mirror image east <-> west *)
Definition turn (w : R) : M3 := mkM (mkV (cos w) (- sin w) 0) (mkV (sin w) (cos w) 0) (mkV 0 0 1).
Definition east_west : M3 := mkM (mkV 1 0 0) (mkV 0 (-1) 0) (mkV 0 0 1).

(** the same measured depth, and the direction turned with [Q] *)
Definition moved_station (Q : M3) (a b : station) : Prop :=
  st_md b = st_md a /\ direction_nev (st_inc b) (st_azi b) = mv Q (direction_nev (st_inc a) (st_azi a)).
Definition moved_survey (Q : M3) (t : V3) (s s' : survey) : Prop :=
  h_unit (sv_header s') = h_unit (sv_header s) /\
  Forall2 (moved_station Q) (sv_rows s) (sv_rows s') /\
  sv_nev s' = map (moved Q t) (sv_nev s) /\ sv_interpolated s' = sv_interpolated s.
(** a well moved with its covariances; its hole sizes are the same *)
Definition moved_well (Q : M3) (t : V3) (w w' : well) : Prop :=
  moved_survey Q t (w_survey w) (w_survey w') /\
  w_cov w' = map (fun m => mm (mm Q m) (mtrans Q)) (w_cov w) /\ w_radius w' = w_radius w.

(** what the constructor made *)
Definition built (s : survey) : Prop := exists h rows deg start_xyz start_nev unit,
  Survey h rows deg start_xyz start_nev unit = Some s.
(** no two consecutive stations point in opposite directions *)
Definition no_reversal (s : survey) : Prop := forall i a b,
  nth_error (sv_rows s) i = Some a -> nth_error (sv_rows s) (S i) = Some b ->
  get_dogleg (st_inc a) (st_azi a) (st_inc b) (st_azi b) < PI.
(** rows of inputs with every azimuth changed by [w], given in the unit of the rows *)
Definition turned_rows (w : R) (deg : bool) (rows : list row) : list row :=
  map (fun r => let '(md, inc, azi) := r in (md, inc, azi + (if deg then degrees w else w))) rows.
Definition turned_cov (Q m : M3) : M3 := mm (mm Q m) (mtrans Q).
(** the header of the mirror image *)
Definition mirrored_header (h : header) : header :=
  mkHeader (h_ref h) (- h_convergence h) (- h_declination h) (h_gsf h) (h_vs_azimuth h) (h_unit h).
