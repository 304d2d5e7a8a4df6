(** Vocabulary for the maximum curvature method. *)
Require Import Reals String List.
Require Import Verif.Base Verif.Spec Verif.Spec_Rates Verif.Spec_Sections Verif.M_Utils Verif.M_Survey.
Import ListNotations.
Open Scope R_scope.

(** where an arc from station [a] with toolface [tf] bends to: relative to the
    high side of an inclined station, relative to north at a vertical one *)
Definition arc_side (a : station) (tf : R) (n : V3) : Prop :=
  (0 < st_inc a < PI /\ n = toolface_dir (st_inc a) (st_azi a) tf) \/
  (st_inc a = 0 /\ n = toolface_dir 0 0 tf).

(** vertical at azimuth east, then built to the east *)
Definition east_rows : list row := [(0, 0, PI / 2); (30, PI / 6, PI / 2)].
