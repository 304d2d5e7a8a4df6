(** Model of /repo/welleng/survey.py: the control-point listing written by
    Survey.save and export_csv (1072-1082, 2446-2524; welleng/exchange/csv.py:7-37
    only passes its arguments on) and the table of all stations made by
    survey_to_df (2410-2443).

    A text is a list of characters below 256 (numpy.savetxt encodes as latin1;
    a character outside raises there and is not modelled). *)
Require Import Reals ZArith Ascii String List Bool.
Require Import Verif.Base Verif.NumPy Verif.M_Utils Verif.M_Connector Verif.M_Survey Verif.M_Rates Verif.M_Sections Verif.M_Text.
Import ListNotations.
Open Scope list_scope.
Local Open Scope R_scope.

Definition newline : ascii := ascii_of_nat 10.
Definition comma : ascii := ascii_of_nat 44.

(** welleng/survey.py:2481-2492 ','.join([...]) *)
Definition csv_columns : list text :=
  map lit ["MD"; "INC (deg)"; "AZI (deg)"; "NORTHING (m)"; "EASTING (m)"; "TVDSS (m)";
           "DLS"; "TOOLFACE"; "BUILD RATE"; "TURN RATE"]%string.
Definition csv_headers : text := join [comma] csv_columns.

(** '%.df' % x, d > 0 *)
Definition percent_f (d : nat) (x : ext) : text :=
  match x with
  | Fin r => fixed d r
  | PInf => lit "inf"
  | NInf => lit "-inf"
  | NaN => lit "nan"
  end.

(** welleng/survey.py:2506-2515: the text put before the column names; [items]
    are the names and values of vars(survey.header), as text *)
Definition csv_comments (version author : text) (items : list (text * text)) : text :=
  lit "welleng, version: " ++ version ++ [newline] ++ lit "author, " ++ author ++ [newline] ++
  concat (map (fun kv => fst kv ++ lit ", " ++ snd kv ++ [newline]) items) ++ [newline].

(** welleng/survey.py:2517-2524 numpy.savetxt with one format for all columns *)
Definition savetxt (data : list (list ext)) (decimals : nat) (header comments : text) : text :=
  comments ++ header ++ [newline] ++
  concat (map (fun row => join [comma] (map (percent_f decimals) row) ++ [newline]) data).

(** what a call of export_csv leaves behind: a data frame, a file, or an exception *)
Inductive exported :=
| Frame (columns : list text) (rows : list (list ext))
| File (content : text)
| ExportRaised.

(** welleng/survey.py:2446-2524 export_csv.  [x] is res.x[0], the tolerance the
    optimiser stops at; the optimiser evaluates func at its starting point 0, so
    an exception there ends the call.  pandas is installed. *)
Definition export_csv (x : R) (s : survey) (to_file : bool) (tolerance : R) (dls_cont : bool) (decimals : nat)
  (version author : text) (items : list (text * text)) : exported :=
  match resurvey_misfit s 0 dls_cont tolerance with
  | None => ExportRaised
  | Some _ =>
      let data := get_data x s dls_cont in
      if to_file then File (savetxt data decimals csv_headers (csv_comments version author items))
      else Frame (split_on comma csv_headers) data
  end.
(** welleng/survey.py:1072-1082 Survey.save: the defaults of export_csv *)
Definition save (x : R) (s : survey) (version : text) (items : list (text * text)) : exported :=
  export_csv x s true (1 / 10) false 3 version (lit "Jonny Corcutt") items.

(** numpy.nan_to_num(.., nan=0.0): infinities become the largest float [big] *)
Definition nan_to_num (big : R) (x : ext) : R :=
  match x with Fin r => r | NaN => 0 | PInf => big | NInf => - big end.

(** welleng/survey.py:2410-2443 survey_to_df: the rows, one for every station *)
Record df_row := mkDf {
  df_md : R; df_inc : R; df_azi_grid : R; df_azi_true : R;
  df_northing : R; df_easting : R; df_tvdss : R;
  df_x : R; df_y : R; df_z : R;
  df_dls : ext; df_toolface : R; df_build_rate : R; df_turn_rate : R
}.
Definition df_station (big : R) (s : survey) (k : nat) : df_row :=
  let c := survey_curves s in
  let st := row_at s k in
  let p := nth k (sv_pos_nev s) vzero in
  let q := nth k (sv_xyz s) vzero in
  mkDf (st_md st) (degrees (st_inc st)) (degrees (st_azi st)) (degrees (nth k (sv_azi_true s) 0))
    (vx p) (vy p) (vz p) (vx q) (vy q) (vz q)
    (nth k (cv_dls c) NaN)
    (rmod (degrees (nth k (cv_toolface c) 0 + 2 * PI)) 360)
    (nan_to_num big (nth k (cv_build_rate c) NaN))
    (nan_to_num big (nth k (cv_turn_rate c) NaN)).
Definition survey_to_df (big : R) (s : survey) : list df_row :=
  map (df_station big s) (seq 0 (length (sv_rows s))).
