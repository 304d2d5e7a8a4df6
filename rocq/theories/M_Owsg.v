(** Model of welleng/errors/tools/owsg_to_json.py: the workbooks of tool models as JSON
    files.  The names and the kind of a tool are in M_OwsgMeta.  Left out: the rest of the
    metadata but for the range of inclinations, the identifiers of the terms, and the texts of the warnings. *)
Require Import Reals ZArith Bool Ascii String List.
Require Import Verif.Base Verif.NumPy.
Import ListNotations.
Open Scope list_scope.
Local Open Scope R_scope.

(** a cell as pandas gives it: None or nan, an int or float, a text *)
Inductive cell := Empty | Number (x : R) | Words (s : string).
(** owsg_to_json.py:47-67 the columns that are used *)
Record row := mkRow { r_no : cell; r_code : cell; r_function : cell; r_magnitude : cell; r_units : cell; r_prop : cell;
  r_p1 : cell; r_p2 : cell; r_p3 : cell; r_depth : cell; r_inc : cell; r_azi : cell; r_north : cell; r_east : cell; r_vert : cell }.
Record jterm := mkJterm { j_name : string; j_function : string; j_value : R; j_units : string;
  j_p1 : Z; j_p2 : Z; j_p3 : Z; j_mode : string; j_depth : string; j_inc : string; j_azi : string;
  j_north : option string; j_east : option string; j_vert : option string }.
Inductive warning := UnknownUnit (code unit : string) | UnknownMode (code mode : string) | NotANumber (code text : string).

(** owsg_to_json.py:71-77 PROP_MODE_MAP, and .get(prop_raw, prop_raw) at owsg_to_json.py:310 *)
Definition mode_map : list (string * string) := [("R", "Random"); ("S", "Systematic"); ("G", "Global"); ("W", "Well")]%string.
Definition mode_of (p : string) : string :=
  match find (fun e => String.eqb (fst e) p) mode_map with Some e => snd e | None => p end.
(** owsg_to_json.py:100 ALLOWED_UNITS *)
Definition allowed_units : list string := ["m"; "1/m"; "nT"; "m/s2"; "deg"; "deg/nT"; "deg/hr"; "rad"]%string.
(** int() of a number: towards zero *)
Definition toward_zero (x : R) : Z := if Rlt_dec x 0 then (- rfloor (- x))%Z else rfloor x.

Section Sheet.
  (** str of a number; str(int(x)) or str(float(x)); str.strip; float and int of a text,
      None when they raise *)
  Variables (show plain : R -> string) (strip : string -> string) (read_float : string -> option R) (read_int : string -> option Z).
  (** owsg_to_json.py:164-168 _scrub *)
  Definition scrub (c : cell) : string := match c with Empty => ""%string | Number x => show x | Words s => s end.
  (** owsg_to_json.py:108-131 _formula_str and _is_nanish *)
  Definition formula_str (c : cell) : string := match c with Empty => "0"%string | Number x => plain x | Words s => strip s end.
  (** owsg_to_json.py:134-140 _singularity_or_none *)
  Definition singularity (c : cell) : option string :=
    match c with
    | Empty => None
    | Number x => if Req_EM_T x 0 then None else Some (strip (show x))
    | Words s => Some (strip s)
    end.
  (** owsg_to_json.py:287-291 the magnitude, and whether it is warned about *)
  Definition magnitude (c : cell) : R * option string :=
    match c with
    | Empty => (0, None)
    | Number x => (x, None)
    | Words s => match read_float s with Some x => (x, None) | None => (0, Some s) end
    end.
  (** owsg_to_json.py:307-309; None = ValueError *)
  Definition factor (c : cell) : option Z :=
    match c with Empty => Some 0%Z | Number x => Some (toward_zero x) | Words s => read_int s end.
  (** owsg_to_json.py:198-204 _term_rows *)
  Definition numbered (r : row) : bool := match r_no r with Number _ => true | _ => false end.
  Definition term_rows (rows : list row) : list row := filter numbered rows.
  (** owsg_to_json.py:270-319 one row that has a code; None = an exception *)
  Definition convert_row (r : row) : option (jterm * list warning) :=
    let code := scrub (r_code r) in
    let units := scrub (r_units r) in
    let prop := scrub (r_prop r) in
    let '(value, bad) := magnitude (r_magnitude r) in
    match factor (r_p1 r), factor (r_p2 r), factor (r_p3 r) with
    | Some a, Some b, Some c =>
        Some (mkJterm code (scrub (r_function r)) value units a b c (mode_of prop)
                (formula_str (r_depth r)) (formula_str (r_inc r)) (formula_str (r_azi r))
                (singularity (r_north r)) (singularity (r_east r)) (singularity (r_vert r)),
              (if existsb (String.eqb units) allowed_units then [] else [UnknownUnit code units])
              ++ (if existsb (fun e => String.eqb (fst e) prop) mode_map then [] else [UnknownMode code prop])
              ++ match bad with Some t => [NotANumber code t] | None => [] end)
    | _, _, _ => None
    end.
  (** owsg_to_json.py:268-319 the loop *)
  Fixpoint convert_rows (rows : list row) : option (list jterm * list warning) :=
    match rows with
    | [] => Some ([], [])
    | r :: rest =>
        if String.eqb (scrub (r_code r)) "" then convert_rows rest
        else match convert_row r with
             | None => None
             | Some (t, w) => match convert_rows rest with Some (ts, ws) => Some (t :: ts, w ++ ws) | None => None end
             end
    end.
  Definition convert_terms (rows : list row) : option (list jterm * list warning) := convert_rows (term_rows rows).
End Sheet.

(** owsg_to_json.py:143-153 _parse_inc_range for a cell; [read_deg] stands for the pattern
    and int(round(float(...))) *)
Definition inc_range (read_deg : string -> option Z) (c : cell) : option Z :=
  match c with Empty => None | Number x => Some (toward_zero x) | Words s => read_deg s end.
(** owsg_to_json.py:240-241 ... or 0, ... or 180 *)
Definition or_else (z : option Z) (d : Z) : Z := match z with Some n => if Z.eqb n 0 then d else n | None => d end.
Definition inc_limits (read_deg : string -> option Z) (lo hi : cell) : Z * Z :=
  (or_else (inc_range read_deg lo) 0, or_else (inc_range read_deg hi) 180).

(** owsg_to_json.py:354-355 _safe_filename *)
Definition in_range (lo hi : nat) (c : ascii) : bool := (Nat.leb lo (nat_of_ascii c) && Nat.leb (nat_of_ascii c) hi)%bool.
Definition kept (c : ascii) : bool :=
  (in_range 65 90 c || in_range 97 122 c || in_range 48 57 c || existsb (Ascii.eqb c) ["_"; "+"; "-"; "."]%char)%bool.
Definition safe_filename (s : list ascii) : list ascii := map (fun c => if kept c then c else "_"%char) s.
Definition json_file (sheet : list ascii) : list ascii := safe_filename sheet ++ list_ascii_of_string ".json".

Section Book.
  Context {J W : Type}.
  (** convert_sheet of the rows of a sheet with this name; None = an exception *)
  Variable convert : list ascii -> list row -> option (J * W).
  Definition name_eqb (a b : list ascii) : bool := if list_eq_dec ascii_dec a b then true else false.
  (** writing a file, setting a key *)
  Fixpoint put {V} (k : list ascii) (v : V) (d : list (list ascii * V)) : list (list ascii * V) :=
    match d with
    | [] => [(k, v)]
    | (k', v') :: r => if name_eqb k' k then (k', v) :: r else (k', v') :: put k v r
    end.
  Fixpoint get {V} (k : list ascii) (d : list (list ascii * V)) : option V :=
    match d with [] => None | (k', v) :: r => if name_eqb k' k then Some v else get k r end.
  (** owsg_to_json.py:358-374 convert_workbook on the sheets in their order: the files of
      the directory afterwards, the warnings, and false if an exception ended it *)
  Fixpoint convert_workbook (sheets : list (list ascii * list row)) (files : list (list ascii * J)) (warns : list (list ascii * W))
    : list (list ascii * J) * list (list ascii * W) * bool :=
    match sheets with
    | [] => (files, warns, true)
    | (name, rows) :: rest =>
        match term_rows rows with
        | [] => convert_workbook rest files warns
        | _ => match convert name rows with
               | None => (files, warns, false)
               | Some (j, w) => convert_workbook rest (put (json_file name) j files) (put name w warns)
               end
        end
    end.
End Book.
