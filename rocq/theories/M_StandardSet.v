(** Model of welleng/io.py: reading the workbook of the standard set of wellpaths.
    A sheet is its list of rows of cells, counted from 1 in the file; cells beyond
    the end are None, as openpyxl gives them. *)
Require Import Reals ZArith Ascii String List Bool.
Require Import Verif.Base Verif.NumPy Verif.M_Utils Verif.M_DmsText Verif.M_Text Verif.M_Ingest.
Import ListNotations.
Open Scope list_scope.
Local Open Scope nat_scope.

Definition sheet := list (list cell).
Definition workbook := list (text * sheet).
(** the cell in a row and column, both counted from 1 *)
Definition cell_at (s : sheet) (row col : nat) : cell := nth (pred col) (nth (pred row) s []) Blank.
(** io.py:22 well.split()[-1] == "well"; None = IndexError *)
Definition well_sheet (name : text) : option bool :=
  match rev (words name) with [] => None | w :: _ => Some (text_eqb w (lit "well")) end.
Fixpoint well_sheets (names : list text) : option (list text) :=
  match names with
  | [] => Some []
  | n :: r => match well_sheet n, well_sheets r with
              | Some b, Some l => Some (if b then n :: l else l)
              | _, _ => None
              end
  end.

(** data["wells"][name]: the nine lists, and SF if set *)
Record well := mkWell { w_columns : list (string * list cell); w_sf : option (list cell) }.
Record data := mkData { d_acr : list (string * cell); d_wells : list (text * well) }.
Definition column_names : list string := ["MD"; "IncDeg"; "AziDeg"; "TVD"; "N"; "E"; "sigmaH"; "sigmaL"; "sigmaA"]%string.
(** io.py:40-69 get_well_data: the rows from 17, columns B to J, with a number in
    column B (bool is a Real) *)
Definition well_columns (s : sheet) : list (string * list cell) :=
  let rows := filter (fun row => numeric (nth 1 row Blank)) (skipn 16 s) in
  map (fun p : nat * string => (snd p, map (fun row => nth (S (fst p)) row Blank) rows)) (combine (seq 0 9) column_names).
(** io.py:72-79 acr_setup *)
Definition acr_setup (s : sheet) : list (string * cell) :=
  [("Sm", cell_at s 4 9); ("sigmapa", cell_at s 5 9); ("k", cell_at s 6 9);
   ("reference_h_and_c", cell_at s 7 9); ("offset_h_and_c", cell_at s 8 9)]%string.
(** io.py:94-106 get_clearance_data: the rows from 5, column O *)
Definition factors (s : sheet) : list cell := map (fun row => nth 14 row Blank) (skipn 4 s).
(** workbook[name]; None = KeyError *)
Definition open_sheet (wb : workbook) (name : text) : option sheet := dget text_eqb name wb.

(** io.py:29-36 the loop over the wells *)
Fixpoint load_wells (wb : workbook) (names : list text) (d : data) : option data :=
  match names with
  | [] => Some d
  | n :: r =>
    match open_sheet wb n with
    | None => None
    | Some s =>
      if text_eqb n (lit "Reference well") then
        load_wells wb r (mkData (acr_setup s) (dput text_eqb n (mkWell (well_columns s) None) (d_wells d)))
      else match open_sheet wb (firstn 5 n ++ lit "clearance") with
        | None => None
        | Some c => load_wells wb r (mkData (d_acr d) (dput text_eqb n (mkWell (well_columns s) (Some (factors c))) (d_wells d)))
        end
    end
  end.
(** io.py:13-37 get_standard_data and 109-112 import_iscwsa_collision_data *)
Definition get_standard_data (wb : workbook) : option data :=
  match well_sheets (map fst wb) with
  | None => None
  | Some names => load_wells wb names (mkData [] [])
  end.
(** io.py:82-92 make_survey, up to its first statement, which takes the mesh of the
    well "offset"; [rest] stands for what follows *)
Definition make_survey {A : Type} (rest : well -> option A) (d : data) : option A :=
  match dget text_eqb (lit "offset") (d_wells d) with
  | None => None
  | Some w => rest w
  end.
