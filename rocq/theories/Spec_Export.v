(** Vocabulary for the exported listings of a survey. *)
Require Import Reals ZArith Ascii String List Bool.
Require Import Verif.Base Verif.NumPy Verif.M_Utils Verif.M_Survey Verif.M_Text Verif.Spec_Text.
Import ListNotations.
Open Scope list_scope.
Local Open Scope R_scope.

(** the lines of a file, and the fields of a line *)
Definition lines (t : text) : list text := split_on (ascii_of_nat 10) t.
Definition fields (t : text) : list text := split_on (ascii_of_nat 44) t.
Definition one_line (t : text) : Prop := ~ In (ascii_of_nat 10) t.

(** a field that shows a number with [d] decimals, rounded to the nearest; what
    is not a number is shown by name *)
Definition shows (d : nat) (f : text) (x : ext) : Prop :=
  match x with
  | Fin r => exists r', decimal f r' /\ Rabs (r' - r) <= / 2 * / 10 ^ d /\
               exists whole part, f = whole ++ [dot_char] ++ part /\ length part = d /\ Forall is_digit part
  | PInf => f = lit "inf"
  | NInf => f = lit "-inf"
  | NaN => f = lit "nan"
  end.
(** a line that shows a row *)
Definition shows_row (d : nat) (line : text) (row : list ext) : Prop := Forall2 (shows d) (fields line) row.

(** the first six columns at a station: depth, angles in degrees, northing,
    easting and the height above the datum *)
Definition station_columns (a : station) (p : V3) : list ext :=
  [Fin (st_md a); Fin (st_inc a * (180 / PI)); Fin (st_azi a * (180 / PI)); Fin (vx p); Fin (vy p); Fin (- vz p)].
(** dropping to vertical due north and building again due east *)
Definition cusp_rows : list row := [(0, PI / 6, 0); (30, 0, 0); (60, PI / 6, PI / 2)].
