(** Concrete surveys for the examples about control points and tortuosity. *)
Require Import Reals String List.
Require Import Verif.Base Verif.M_Utils Verif.M_Survey.
Import ListNotations.
Open Scope R_scope.

(** vertical for 30, then north at 30 degrees per 30 for 60 *)
Definition build_rows : list row := [(0, 0, 0); (30, 0, 0); (60, PI / 6, 0); (90, PI / 3, 0)].
(** level, due north, on a grid whose scale factor exceeds 1 *)
Definition stretched_header : header := mkHeader RefGrid 0 0 (1001 / 1000) None "meters".
Definition level_rows : list row := [(0, PI / 2, 0); (100, PI / 2, 0)].
