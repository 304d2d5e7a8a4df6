(** Concrete inputs used by the examples and refutations about curve attributes. *)
Require Import Reals String List.
Require Import Verif.Base Verif.M_Utils Verif.M_Survey.
Import ListNotations.
Open Scope R_scope.

Definition grid_header (unit : string) : header := mkHeader RefGrid 0 0 1 None unit.
(** due north: 30 degrees of build over 30, then 30 degrees of build over 90 *)
Definition bend_rows : list row := [(0, PI / 6, 0); (30, PI / 3, 0); (120, PI / 2, 0)].
(** a drop from 30 degrees due east to vertical, azimuth still reported as east *)
Definition drop_rows : list row := [(0, PI / 6, PI / 2); (30, 0, PI / 2)].
