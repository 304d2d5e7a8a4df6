(** Vocabulary for the scripts that write the tool codes from a workbook. *)
Require Import Reals ZArith Ascii String List Bool.
Require Import Verif.Base Verif.NumPy Verif.M_Utils Verif.M_Text Verif.Spec_Text Verif.M_Ingest Verif.Spec_Ingest Verif.M_Extract.
Import ListNotations.
Open Scope list_scope.
Local Open Scope nat_scope.

(** ** the codes: column E names the term, G its function, J its magnitude, K the unit
    and L the propagation *)
Definition code_of (row : list cell) (c : cell) : Prop :=
  (col 4 row = S_ "XCLL" /\ c = S_ "XCLA") \/ (col 4 row <> S_ "XCLL" /\ c = col 4 row).
(** rows the script does not pass over *)
Definition considered (skip : bool) (row : list cell) : Prop := skip = true -> col 4 row <> Blank.
Definition usable (row : list cell) : Prop :=
  12 <= length row /\
  exists f u, col 6 row = Str f /\ col 10 row = Str u /\ (in_degrees u -> is_number (col 9 row)).
Definition propagates_as (c : cell) (p : text) : Prop :=
  (c = S_ "R" /\ p = lit "random") \/ (c = S_ "G" /\ p = lit "global") \/ (c = S_ "W" /\ p = lit "within_pad") \/
  (~ In c [S_ "R"; S_ "G"; S_ "W"] /\ p = lit "systematic").
Definition describes_entry (row : list cell) (e : entry) : Prop :=
  (exists f, col 6 row = Str f /\ en_function e = map (fun a => if Ascii.eqb a "-" then "_"%char else a) f) /\
  (exists u, col 10 row = Str u /\
     (in_degrees u -> exists x, holds (col 9 row) x /\ en_magnitude e = Num (x * (PI / 180))) /\
     (~ in_degrees u -> en_magnitude e = col 9 row /\ en_unit e = u) /\
     (forall a b, u = a ++ lit "deg" ++ b -> ~ in_degrees a -> ~ in_degrees b -> en_unit e = a ++ lit "rad" ++ b)) /\
  propagates_as (col 11 row) (en_propagation e).
(** the last row of that name, from the fourth row of the sheet on *)
Definition last_coded (skip : bool) (rows : list (list cell)) (c : cell) (row : list cell) : Prop :=
  exists a b, skipn 3 rows = a ++ row :: b /\ considered skip row /\ code_of row c /\
    forall row', In row' b -> considered skip row' -> ~ code_of row' c.

(** a sheet laid out as both readers expect: terms with a number in column D, texts without
    spaces around them, and no term in the first three rows *)
Definition regular_term (row : list cell) : Prop :=
  12 <= length row /\ (exists n, col 3 row = Num n) /\ (exists c, col 4 row = Str c /\ c <> [] /\ trimmed c) /\
  (exists f, col 6 row = Str f) /\ (exists m, col 9 row = Num m) /\ (exists u, col 10 row = Str u) /\
  (exists p, col 11 row = Str p /\ trimmed p).
Definition regular_sheet (rows : list (list cell)) : Prop :=
  Forall (fun row => ~ term_row row) (firstn 3 rows) /\
  Forall (fun row => regular_term row \/ (5 <= length row /\ col 4 row = Blank)) (skipn 3 rows).
(** the same term of the two dictionaries *)
Definition same_code (a : cell * entry) (b : text * code) : Prop :=
  fst a = Str (fst b) /\ en_function (snd a) = cd_function (snd b) /\ en_unit (snd a) = cd_unit (snd b) /\
  en_propagation (snd a) = cd_propagation (snd b) /\
  exists m, en_magnitude (snd a) = Num m /\ cd_magnitude (snd b) = Fin m.

(** ** the header: column A names the value in column B *)
Definition text_or_blank (c : cell) : Prop := c = Blank \/ exists t, c = Str t.
Definition heads (row : list cell) (l : text) : Prop := exists t, col 0 row = Str t /\ filter kept t = l.
Definition last_headed (rows : list (list cell)) (l : text) (v : cell) : Prop :=
  exists a row b, rows = a ++ row :: b /\ heads row l /\ v = col 1 row /\ forall row', In row' b -> ~ heads row' l.
Definition about_gyro (t : text) : Prop := exists u v, small_text t = u ++ lit "gyro" ++ v.
Definition plain_row (row : list cell) : Prop := col 0 row = Blank \/ exists t, col 0 row = Str t /\ ~ about_gyro t.
Definition no_colon (t : text) : text := filter (fun c => negb (Ascii.eqb c ":")) t.
(** a row below the heading of a gyro: it begins with a space and has a text beside it *)
Definition parameter_row (row : list cell) (t v : text) : Prop := col 0 row = Str (space :: t) /\ col 1 row = Str v.
(** what it says: an angle in degrees is a number followed by a space *)
Definition parameter_value (py : python) (v : text) (h : hvalue) : Prop :=
  (~ in_degrees v /\ h = HCell (Str v)) \/
  (in_degrees v /\ exists n r x, v = n ++ r /\ ~ In space n /\ (r = [] \/ exists s, r = space :: s) /\
     float_of py n = Some x /\ h = HAngle (ext_mul_pos (PI / 180) x)).
Definition parameter_name (t name : text) : Prop := exists p s, t = p ++ s /\ blanks p /\ (forall c r, s = c :: r -> is_space c = false) /\ name = no_colon s.
(** the row after the parameters of a gyro *)
Definition ends_gyro (row : list cell) : Prop := exists c t, col 0 row = Str (c :: t) /\ c <> space.

(** ** the index *)
Definition short_name (v : list (cell * cell)) (n : cell) : Prop := dget cell_eqb (S_ "Short Name") v = Some n.
(** the key of a row of the sheet Index: column B, with _Fl when column C ends in _Fl *)
Definition ends_fl (s : text) : Prop := s = lit "Fl" \/ exists p, s = p ++ lit "_Fl".
Definition index_key (py : python) (row : list cell) (k : cell) : Prop :=
  exists s, col 2 row = Str s /\
    ((ends_fl s /\ k = Str (str py (col 1 row) ++ lit "_Fl")) \/ (~ ends_fl s /\ k = col 1 row)).
Definition index_value (fields row : list cell) (f x : cell) : Prop :=
  exists j, nth_error fields j = Some f /\ nth_error row j = Some x /\
    forall i, j < i -> i < length row -> nth_error fields i <> Some f.

(** ** concrete sheets *)
Definition term_line (number : cell) (code : string) (propagation : string) : list cell :=
  [Blank; Blank; Blank; number; S_ code; S_ "a term"; S_ "FN-X"; S_ "book"; S_ "sensor"; Num 90; S_ "deg"; S_ propagation].
Definition one_term (number : cell) (propagation : string) : list (list cell) :=
  [[S_ "Short Name:"; S_ "MWD"]; [Blank; Blank]; [Blank; Blank]; term_line number "XYM1" propagation].
(** a sheet with a gyro *)
Definition gyro_sheet : list (list cell) * (list cell * list (list cell)) :=
  ([[S_ "Short Name:"; S_ "GYRO"]], ([S_ "Stationary Gyro:"; Blank], [[S_ " End Inclination:"; S_ "3 deg"]; [S_ "  Mode:"; S_ "on"]])).
(** a python that reads the number 3 *)
Definition three : python := mkPython (fun _ => lit "0") (fun t => if text_eqb t (lit "3") then Some (Fin 3) else None).
