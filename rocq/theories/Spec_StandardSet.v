(** Vocabulary for the workbook of the standard set of wellpaths. *)
Require Import Reals Ascii String List.
Require Import Verif.Base Verif.NumPy Verif.M_DmsText Verif.M_Text Verif.Spec_Text Verif.M_Ingest Verif.Spec_Ingest Verif.M_StandardSet.
Import ListNotations.
Open Scope list_scope.
Local Open Scope nat_scope.

(** the last word of a name *)
Definition last_word (name w : text) : Prop :=
  exists p q, name = p ++ w ++ q /\ token w /\ blanks q /\ (p = [] \/ exists p' c, p = p' ++ [c] /\ is_space c = true).
(** the cell in the column with that letter *)
Definition letter_col (c : ascii) (row : list cell) : cell := col (nat_of_ascii c - 65) row.
(** the cell in that column of the row with that number, counted from 1 *)
Definition cell_named (c : ascii) (n : nat) (s : list (list cell)) (v : cell) : Prop :=
  (exists row, nth_error s (n - 1) = Some row /\ v = letter_col c row) \/ (length s < n /\ v = Blank).
Definition a_well (name : text) : Prop := last_word name (lit "well").
Definition reference : text := lit "Reference well".
(** the sheet with the separation factors of a well *)
Definition clearance_of (name : text) : text := firstn 5 name ++ lit "clearance".
Definition station_columns : list (string * ascii) :=
  [("MD", "B"%char); ("IncDeg", "C"%char); ("AziDeg", "D"%char); ("TVD", "E"%char); ("N", "F"%char); ("E", "G"%char); ("sigmaH", "H"%char); ("sigmaL", "I"%char); ("sigmaA", "J"%char)]%string.
(** what is kept of a well: from row 17 the rows with a number in column B; the
    factors from row 5 of column O of its clearance sheet, whatever they hold *)
Definition describes_well (wb : workbook) (name : text) (w : well) : Prop :=
  exists s rows, In (name, s) wb /\ selects (fun row => is_number (letter_col "B" row)) (skipn 16 s) rows /\
    w_columns w = map (fun nc => (fst nc, map (letter_col (snd nc)) rows)) station_columns /\
    (name = reference -> w_sf w = None) /\
    (name <> reference -> exists c, In (clearance_of name, c) wb /\ w_sf w = Some (map (letter_col "O") (skipn 4 c))).
Definition describes_rule (wb : workbook) (acr : list (string * cell)) : Prop :=
  (In reference (map fst wb) -> exists s, In (reference, s) wb /\
     map fst acr = ["Sm"; "sigmapa"; "k"; "reference_h_and_c"; "offset_h_and_c"]%string /\
     forall i v, nth_error (map snd acr) i = Some v -> cell_named "I" (4 + i) s v) /\
  (~ In reference (map fst wb) -> acr = []).
