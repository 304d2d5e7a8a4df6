(** Model of /repo/welleng/errors/extract_iscwsa_codes.py and
    extract_owsg_codes_generic.py: the scripts that write tool_codes/*.yaml and
    tool_index.yaml from the sheets of a workbook.  A sheet is the list of its rows, from
    row 1 and column A; opening workbooks and writing yaml are not modelled.  None = an
    exception.  Simplification: a truth value is never equal to a number. *)
Require Import Reals ZArith Ascii String List Bool.
Require Import Verif.Base Verif.NumPy Verif.M_Utils Verif.M_DmsText Verif.M_Text Verif.M_Ingest.
Import ListNotations.
Open Scope list_scope.
Local Open Scope nat_scope.

(** == of two cells *)
Definition cell_eqb (a b : cell) : bool :=
  match a, b with
  | Blank, Blank => true
  | Num x, Num y => if Req_EM_T x y then true else false
  | Flag x, Flag y => Bool.eqb x y
  | Str s, Str t | Date s, Date t => text_eqb s t
  | _, _ => false
  end.

(** ** The codes *)
(** extract_owsg_codes_generic.py:106-119, extract_iscwsa_codes.py:87-98 one row from
    column D on; only the former skips a row without a code ([skip]) *)
Definition raw_row (skip : bool) (row : list cell) : option (list (cell * cell * cell * cell * cell)) :=
  match nth_error row 1 with
  | None => None
  | Some code =>
      if (skip && cell_eqb code Blank)%bool then Some []
      else
        let code := if cell_eqb code (Str (lit "XCLL")) then Str (lit "XCLA") else code in
        match nth_error row 3, nth_error row 6, nth_error row 7, nth_error row 8 with
        | Some f, Some m, Some u, Some p => Some [(code, f, m, u, p)]
        | _, _, _, _ => None
        end
  end.
Record entry := mkEntry { en_function : text; en_magnitude : cell; en_unit : text; en_propagation : text }.
(** math.radians of a cell *)
Definition radians_cell (c : cell) : option cell :=
  match c with
  | Num x => Some (Num (radians x))
  | Flag b => Some (Num (radians (if b then 1 else 0)%R))
  | _ => None
  end.
(** the propagation of a cell, 'systematic' if it is not one of the four letters *)
Definition propagation_cell (c : cell) : text :=
  match c with
  | Str p => match dget text_eqb p propagation_map with Some q => q | None => lit "systematic" end
  | _ => lit "systematic"
  end.
(** extract_owsg_codes_generic.py:128-136, extract_iscwsa_codes.py:107-115: f.replace and
    'deg' in u need texts *)
Definition make_entry (f m u p : cell) : option entry :=
  match f, u with
  | Str f, Str u =>
      match (if contains (lit "deg") u then radians_cell m else Some m) with
      | Some m' => Some (mkEntry (replace (lit "-") (lit "_") f) m' (replace (lit "deg") (lit "rad") u) (propagation_cell p))
      | None => None
      end
  | _, _ => None
  end.
(** extract_owsg_codes_generic.py:124-138 make_error_dict *)
Fixpoint make_error_dict (rows : list (cell * cell * cell * cell * cell)) (d : list (cell * entry)) : option (list (cell * entry)) :=
  match rows with
  | [] => Some d
  | (c, f, m, u, p) :: r =>
      match make_entry f m u p with
      | Some e => make_error_dict r (dput cell_eqb c e d)
      | None => None
      end
  end.
(** extract_owsg_codes_generic.py:95-121 ([skip]), extract_iscwsa_codes.py:76-100
    extract_codes: from row 4 and column D on *)
Definition extract_codes (skip : bool) (rows : list (list cell)) : option (list (cell * entry)) :=
  match all_some (map (fun row => raw_row skip (skipn 3 row)) (skipn 3 rows)) with
  | Some l => make_error_dict (concat l) []
  | None => None
  end.

(** ** The header *)
(** extract_owsg_codes_generic.py:23, 151-155 remove_characters *)
Definition remove_characters (t : text) : text :=
  fold_left (fun t c => replace [c] [] t) (lit ":[]") t.
(** a value of the header: a cell, a number read from a text with 'deg', or the
    parameters of a gyro *)
Inductive hvalue := HCell (c : cell) | HAngle (x : ext) | HGyro (d : list (text * hvalue)).
(** extract_owsg_codes_generic.py:141-148 make_header_dict: k.replace needs a text *)
Fixpoint make_header_dict (rows : list (cell * cell)) (d : list (text * hvalue)) : option (list (text * hvalue)) :=
  match rows with
  | [] => Some d
  | (Str k, v) :: r => make_header_dict r (dput text_eqb (remove_characters k) (HCell v) d)
  | _ => None
  end.
(** columns A and B of a row: openpyxl fills up to max_col *)
Definition two_columns (row : list cell) : cell * cell := (nth 0 row Blank, nth 1 row Blank).
(** extract_iscwsa_codes.py:53-73 extract_header *)
Definition iscwsa_header (rows : list (list cell)) : option (list (text * hvalue)) :=
  make_header_dict (filter (fun kv => negb (cell_eqb (fst kv) Blank)) (map two_columns rows)) [].
(** extract_owsg_codes_generic.py:69-72: radians(float(row[1].split(" ")[0])) *)
Definition gyro_value (py : python) (v : cell) : option hvalue :=
  match v with
  | Str t =>
      if contains (lit "deg") t then
        match float_of py (hd [] (split_on space t)) with
        | Some x => Some (HAngle (ext_mul_pos (PI / 180) x))
        | None => None
        end
      else Some (HCell v)
  | _ => None
  end.
(** extract_owsg_codes_generic.py:60-85 the loop: [tag] is the gyro heading in force, [d]
    the plain rows, [temp] the gyro headings with their parameters *)
Fixpoint header_loop (py : python) (rows : list (cell * cell)) (tag : option text) (d : list (cell * cell))
  (temp : list (text * list (text * hvalue))) : option (list (cell * cell) * list (text * list (text * hvalue))) :=
  match rows with
  | [] => Some (d, temp)
  | (a, b) :: r =>
      let plain :=
        match a with
        | Blank => header_loop py r None d temp
        | Str t =>
            if contains (lit "gyro") (lower_text t)
            then header_loop py r (Some (replace (lit ":") [] t)) d (dput text_eqb (replace (lit ":") [] t) [] temp)
            else header_loop py r None (d ++ [(a, b)]) temp
        | _ => None                         (* no attribute lower *)
        end in
      match tag with
      | None => plain
      | Some g =>
          match a with
          | Str (c :: t) =>                 (* row[0][0] *)
              if Ascii.eqb c space then
                match gyro_value py b with
                | None => None
                | Some v =>
                    let old := match dget text_eqb g temp with Some x => x | None => [] end in
                    header_loop py r tag d (dput text_eqb g (dput text_eqb (replace (lit ":") [] (lstrip (c :: t))) v old) temp)
                end
              else plain
          | _ => None
          end
      end
  end.
(** extract_owsg_codes_generic.py:54-92 extract_header *)
Definition owsg_header (py : python) (rows : list (list cell)) : option (list (text * hvalue)) :=
  match header_loop py (map two_columns rows) None [] [] with
  | None => None
  | Some (d, temp) =>
      match make_header_dict d [] with
      | None => None
      | Some h => Some (fold_left (fun h kv => dput text_eqb (fst kv) (HGyro (snd kv)) h) temp h)
      end
  end.

(** ** The index of the tools *)
(** s.split('_')[-1] *)
Definition last_part (s : text) : text := last (split_on "_"%char s) [].
(** extract_owsg_codes_generic.py:170-184 one row of the sheet Index: key and entry *)
Definition index_row (py : python) (fields row : list cell) : option (cell * list (cell * cell)) :=
  match nth_error row 2, nth_error row 1 with
  | Some (Str s), Some k =>
      Some (if text_eqb (last_part s) (lit "Fl") then Str (str py k ++ lit "_Fl") else k,
            fold_left (fun d kv => dput cell_eqb (fst kv) (snd kv) d) (combine fields row) [])
  | _, _ => None
  end.
(** extract_owsg_codes_generic.py:167-184 make_index *)
Definition make_index (py : python) (rows : list (list cell)) : option (list (cell * list (cell * cell))) :=
  match rows with
  | [] => Some []
  | fields :: r =>
      match all_some (map (index_row py fields) r) with
      | Some l => Some (fold_left (fun d kv => dput cell_eqb (fst kv) (snd kv) d) l [])
      | None => None
      end
  end.
Inductive found := Found (k : cell) | NoSuchTool | KeyError.
(** extract_owsg_codes_generic.py:187-192 get_index *)
Fixpoint get_index (name : cell) (d : list (cell * list (cell * cell))) : found :=
  match d with
  | [] => NoSuchTool
  | (k, v) :: r =>
      match dget cell_eqb (Str (lit "Short Name")) v with
      | None => KeyError
      | Some n => if cell_eqb n name then Found k else get_index name r
      end
  end.
(** extract_owsg_codes_generic.py:195-207 get_short_names of a dictionary *)
Definition get_short_names (d : list (cell * list (cell * cell))) : option (list (cell * cell)) :=
  all_some (map (fun kv => match dget cell_eqb (Str (lit "Short Name")) (snd kv) with
                           | Some n => Some (fst kv, n)
                           | None => None
                           end) d).

(** ** The run over the workbook *)
(** one pass of an inner for loop whose body may say continue: the loop ends normally
    either way *)
Inductive signal := Fallthrough | Continue.
Fixpoint for_each {A : Type} (body : A -> signal) (l : list A) : signal :=
  match l with
  | [] => Fallthrough
  | a :: r => match body a with Continue | Fallthrough => for_each body r end
  end.
(** extract_owsg_codes_generic.py:246-254: the loop over the index; [ignore] is
    sheet_ignore_list, [sheets] the sheets by name.  Both readers of a sheet must succeed
    (lines 32-51 extract_data) *)
Definition extract_data (py : python) (rows : list (list cell)) : option (list (text * hvalue) * list (cell * entry)) :=
  match extract_codes true rows with
  | Some e => match owsg_header py rows with Some h => Some (h, e) | None => None end
  | None => None
  end.
Fixpoint extract_tools (py : python) (ignore : list text) (sheets : list (text * list (list cell)))
  (index : list (cell * list (cell * cell))) : option (list (cell * (list (text * hvalue) * list (cell * entry)))) :=
  match index with
  | [] => Some []
  | (k, v) :: r =>
      match dget cell_eqb (Str (lit "Short Name")) v with
      | Some (Str name) =>
          match for_each (fun s => if contains s name then Continue else Fallthrough) ignore with
          | Continue => extract_tools py ignore sheets r
          | Fallthrough =>
              match dget text_eqb name sheets with
              | None => None
              | Some rows =>
                  match extract_data py rows, extract_tools py ignore sheets r with
                  | Some e, Some q => Some ((k, e) :: q)
                  | _, _ => None
                  end
              end
          end
      | _ => None
      end
  end.
