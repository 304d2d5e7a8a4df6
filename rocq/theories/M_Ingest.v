(** Model of /repo/welleng/errors/iscwsa_ingest.py: reading the sheets of an
    ISCWSA example workbook.  A sheet is its list of rows of cells, as openpyxl's
    iter_rows(values_only=True) gives them; opening the workbook (openpyxl) is not
    modelled.  Texts are lists of characters below 256. *)
Require Import Reals ZArith Ascii String List Bool.
Require Import Verif.Base Verif.NumPy Verif.M_Utils Verif.M_DmsText Verif.M_Text.
Import ListNotations.
Open Scope list_scope.
Local Open Scope nat_scope.

(** a cell: None, a number, a truth value, a text or a date (as its text) *)
Inductive cell := Blank | Num (x : R) | Flag (b : bool) | Str (t : text) | Date (t : text).
(** str() of a float and float() of a text, None = ValueError *)
Record python := mkPython { show : R -> text; float_of : text -> option ext }.

(** isinstance(v, (int, float)): bool is a subclass of int *)
Definition numeric (c : cell) : bool := match c with Num _ | Flag _ => true | _ => false end.
(** bool(v) *)
Definition truthy (c : cell) : bool :=
  match c with
  | Blank => false
  | Num x => if Req_EM_T x 0 then false else true
  | Flag b => b
  | Str t => match t with [] => false | _ => true end
  | Date _ => true
  end.
(** str(v) *)
Definition str (py : python) (c : cell) : text :=
  match c with
  | Blank => lit "None"
  | Num x => show py x
  | Flag b => lit (if b then "True" else "False")
  | Str t | Date t => t
  end.
(** iscwsa_ingest.py:196-202 _to_float *)
Definition to_float (py : python) (c : cell) : ext :=
  match c with
  | Num x => Fin x
  | Flag b => Fin (if b then 1 else 0)%R
  | Str t => match float_of py t with Some x => x | None => NaN end
  | Blank | Date _ => NaN
  end.
(** int(v) of a numeric cell: towards zero *)
Definition truncate (x : R) : Z := if Rle_dec 0 x then rfloor x else Z.opp (rfloor (- x)).
Definition int_cell (c : cell) : Z :=
  match c with Num x => truncate x | Flag true => 1%Z | _ => 0%Z end.

(** row[k] if len(row) > k else None *)
Definition at_or_none (k : nat) (row : list cell) : cell := nth k row Blank.
(** str(row[k]) if row[k] is not None else "" *)
Definition str_or_empty (py : python) (c : cell) : text := match c with Blank => [] | _ => str py c end.

(** a dictionary: entries in order of insertion, the value of a key replaced in place *)
Fixpoint dput {K V : Type} (eqb : K -> K -> bool) (k : K) (v : V) (d : list (K * V)) : list (K * V) :=
  match d with
  | [] => [(k, v)]
  | (k', v') :: r => if eqb k k' then (k', v) :: r else (k', v') :: dput eqb k v r
  end.
Fixpoint dget {K V : Type} (eqb : K -> K -> bool) (k : K) (d : list (K * V)) : option V :=
  match d with
  | [] => None
  | (k', v) :: r => if eqb k k' then Some v else dget eqb k r
  end.

(** ** the Model sheet *)
(** iscwsa_ingest.py:67-108 ErrorTerm *)
Record term := mkTerm {
  tm_no : Z; tm_code : text; tm_description : text; tm_wt_fn : text; tm_wt_fn_source : text; tm_type : text;
  tm_magnitude : ext; tm_unit : text; tm_propagation : text;
  tm_p1 : cell; tm_p2 : cell; tm_p3 : cell; tm_comment : cell;
  tm_depth : cell; tm_inc : cell; tm_azi : cell; tm_sing_n : cell; tm_sing_e : cell; tm_sing_v : cell;
  tm_convert : bool
}.
(** iscwsa_ingest.py:239-253 _HEADER_KEYMAP: the labels; the attribute is named after the label *)
Definition header_labels : list text :=
  map lit ["OWSG Prefix"; "Short Name"; "Long Name"; "Revision No"; "Revision Date"; "Revision Comment"; "Source";
           "Application"; "Tool Type"; "Status"; "Checked"; "Approved"; "Notes"]%string.
Definition known (l : text) : bool := existsb (text_eqb l) header_labels.
(** str(key).translate(_TRIM).strip(), lines 255 and 265 *)
Definition trimmed_char (c : ascii) : bool := existsb (Ascii.eqb c) (lit ":[]").
Definition norm_label (t : text) : text := strip (filter (fun c => negb (trimmed_char c)) t).

(** lines 272-299: the error term of a row; None = IndexError *)
Definition row_term (py : python) (row : list cell) : option (list term) :=
  let no := at_or_none 3 row in
  let code := at_or_none 4 row in
  if numeric no && truthy code then
    if Nat.ltb (length row) 12 then None
    else Some [mkTerm (int_cell no) (strip (str py code))
      (str_or_empty py (at_or_none 5 row)) (str_or_empty py (at_or_none 6 row)) (str_or_empty py (at_or_none 7 row))
      (str_or_empty py (at_or_none 8 row)) (to_float py (at_or_none 9 row)) (str_or_empty py (at_or_none 10 row))
      (match at_or_none 11 row with Blank => [] | c => strip (str py c) end)
      (at_or_none 12 row) (at_or_none 13 row) (at_or_none 14 row) (at_or_none 15 row)
      (at_or_none 16 row) (at_or_none 17 row) (at_or_none 18 row) (at_or_none 19 row) (at_or_none 20 row) (at_or_none 21 row)
      (truthy (at_or_none 22 row))]
  else Some [].
(** lines 262-270: the header entry of a row: (label, value); None = IndexError *)
Definition row_entry (py : python) (row : list cell) : option (list (text * cell)) :=
  match row with
  | [] => None
  | key :: r =>
      if truthy key then match r with [] => None | v :: _ => Some [(norm_label (str py key), v)] end
      else Some []
  end.
(** iscwsa_ingest.py:258-300 parse_model_sheet: attributes set (in [header_labels]),
    other labels (extras), terms; None = IndexError *)
Definition put_all (l : list (text * cell)) (d : list (text * cell)) : list (text * cell) :=
  fold_left (fun d kv => dput text_eqb (fst kv) (snd kv) d) l d.
Fixpoint parse_rows (py : python) (rows : list (list cell)) (header extras : list (text * cell)) (terms : list term)
  : option (list (text * cell) * list (text * cell) * list term) :=
  match rows with
  | [] => Some (header, extras, terms)
  | row :: r =>
      match row_entry py row with
      | None => None
      | Some e =>
          match row_term py row with
          | None => None
          | Some t =>
              parse_rows py r (put_all (filter (fun kv => known (fst kv)) e) header)
                (put_all (filter (fun kv => negb (known (fst kv))) e) extras) (terms ++ t)
          end
      end
  end.
Definition parse_model_sheet (py : python) (rows : list (list cell)) := parse_rows py rows [] [] [].

(** ** back to the dictionary of codes *)
(** s.replace(old, new) for a non-empty [old]: leftmost first, not overlapping *)
Fixpoint prefix_rest (p s : text) : option text :=
  match p, s with
  | [], _ => Some s
  | a :: p', b :: s' => if Ascii.eqb a b then prefix_rest p' s' else None
  | _ :: _, [] => None
  end.
Fixpoint replace_fuel (fuel : nat) (old new s : text) : text :=
  match fuel with
  | O => s
  | S f =>
      match prefix_rest old s with
      | Some r => new ++ replace_fuel f old new r
      | None => match s with [] => [] | a :: r => a :: replace_fuel f old new r end
      end
  end.
Definition replace (old new s : text) : text := replace_fuel (length s) old new s.
(** "w" in s *)
Fixpoint contains (w s : text) : bool :=
  match prefix_rest w s with
  | Some _ => true
  | None => match s with [] => false | _ :: r => contains w r end
  end.
(** iscwsa_ingest.py:95-108 magnitude_si and unit_si *)
Definition magnitude_si (t : term) : ext :=
  if contains (lit "deg") (tm_unit t) then ext_mul_pos (PI / 180) (tm_magnitude t) else tm_magnitude t.
Definition unit_si (t : term) : text := replace (lit "deg") (lit "rad") (tm_unit t).
(** iscwsa_ingest.py:57-62 PROPAGATION_MAP *)
Definition propagation_map : list (text * text) :=
  [(lit "R", lit "random"); (lit "S", lit "systematic"); (lit "G", lit "global"); (lit "W", lit "within_pad")]%string.
Definition propagation_or (default : text) (t : term) : text :=
  match dget text_eqb (tm_propagation t) propagation_map with Some p => p | None => default end.
(** lines 90-93 propagation_name *)
Definition propagation_name (t : term) : text := propagation_or (tm_propagation t) t.
Record code := mkCode { cd_function : text; cd_magnitude : ext; cd_unit : text; cd_propagation : text }.
(** iscwsa_ingest.py:541-580 to_legacy_codes_dict: the header (labels with a
    value other than None) and the codes *)
Definition legacy_name (t : term) : text := if text_eqb (tm_code t) (lit "XCLL") then lit "XCLA" else tm_code t.
Definition legacy_code (t : term) : code :=
  mkCode (replace (lit "-") (lit "_") (tm_wt_fn t)) (magnitude_si t) (unit_si t) (propagation_or (lit "systematic") t).
Definition legacy_codes (terms : list term) : list (text * code) :=
  fold_left (fun d t => dput text_eqb (legacy_name t) (legacy_code t) d) terms [].
Definition legacy_header (header : list (text * cell)) : list (text * cell) :=
  flat_map (fun l => match dget text_eqb l header with Some Blank | None => [] | Some v => [(l, v)] end) header_labels.

(** ** the Wellpath sheet *)
Record wellpath := mkWellpath {
  wp_name : text; wp_latitude : ext; wp_g : ext; wp_btotal : ext; wp_dip : ext; wp_declination : ext;
  wp_stations : list (list ext); wp_units : text; wp_ft_to_m : R
}.
Definition starts_with (p s : text) : bool := match prefix_rest p s with Some _ => true | None => false end.
Definition lower_text (t : text) : text := map lower t.
Definition number_of (c : cell) : option R :=
  match c with Num x => Some x | Flag b => Some (if b then 1 else 0)%R | _ => None end.
(** lines 309-329: name, units, factor and reference values after one row;
    None = IndexError *)
Definition refs_state := (text * text * R * list (text * R))%type.
Definition ref_row (py : python) (st : refs_state) (row : list cell) : option refs_state :=
  let '(name, units, ft, refs) := st in
  match row with
  | [] | Blank :: _ => Some st
  | [_] => None
  | l :: v :: _ =>
      let label := strip (str py l) in
      if text_eqb label (lit "Well") then Some (str_or_empty py v, units, ft, refs)
      else if starts_with (lit "depth units") (lower_text label) then
        Some (name, match v with Blank => units | _ => lower_text (strip (str py v)) end, ft, refs)
      else if starts_with (lit "feet to metres") (lower_text label) then
        Some (name, units, match number_of v with Some x => x | None => ft end, refs)
      else
        let key := lower_text (strip (hd [] (split_on "("%char label))) in
        Some (name, units, ft, match number_of v with Some x => dput text_eqb key x refs | None => refs end)
  end.
Fixpoint ref_rows (py : python) (rows : list (list cell)) (st : refs_state) : option refs_state :=
  match rows with
  | [] => Some st
  | row :: r => match ref_row py st row with None => None | Some st' => ref_rows py r st' end
  end.
(** row[k] if len(row) > k else 0 *)
Definition at_or_zero (k : nat) (row : list cell) : cell := nth k row (Num 0).
(** lines 331-348: the stations *)
Definition station_row (py : python) (row : list cell) : list (list ext) :=
  match number_of (at_or_none 4 row) with
  | None => []
  | Some md => [[Fin md; to_float py (at_or_zero 5 row); to_float py (at_or_zero 6 row); to_float py (at_or_zero 7 row); to_float py (at_or_none 8 row)]]
  end.
Definition ref_value (refs : list (text * R)) (k : string) : ext := match dget text_eqb (lit k) refs with Some x => Fin x | None => NaN end.
(** iscwsa_ingest.py:303-359 parse_wellpath_sheet; None = IndexError *)
Definition parse_wellpath_sheet (py : python) (rows : list (list cell)) : option wellpath :=
  match ref_rows py (firstn 12 rows) ([], lit "m", (3048 / 10000)%R, []) with
  | None => None
  | Some (name, units, ft, refs) =>
      Some (mkWellpath name (ref_value refs "latitude") (ref_value refs "g") (ref_value refs "btotal") (ref_value refs "dip")
              (ref_value refs "declination") (flat_map (station_row py) (skipn 2 rows)) units ft)
  end.

(** ** the TOTALS and Validation sheets *)
Definition is_label (l : string) (c : cell) : bool := match c with Str t => text_eqb t (lit l) | _ => false end.
(** tuple.index, None if it is not there *)
Fixpoint index_of (l : string) (row : list cell) : option nat :=
  match row with
  | [] => None
  | c :: r => if is_label l c then Some 0 else option_map S (index_of l r)
  end.
(** iscwsa_ingest.py:367-374 _extract_cov_columns *)
Definition cov_value (py : python) (header : list cell) (row : list cell) (l : string) : ext :=
  match index_of l header with
  | Some i => if Nat.ltb i (length row) then to_float py (at_or_none i row) else NaN
  | None => NaN
  end.
Definition nev_cols : list string := ["NN"; "EE"; "VV"; "NE"; "NV"; "EV"]%string.
Definition hla_cols : list string := ["HH"; "LL"; "AA"; "HL"; "HA"; "LA"]%string.
Record covariances := mkCov { cs_md : list ext; cs_nev : list (list ext); cs_hla : list (list ext) }.
(** np.asarray([..], dtype=float) of one cell: None is nan, a text is converted;
    None = ValueError or TypeError *)
Definition as_float (py : python) (c : cell) : option ext :=
  match c with
  | Blank => Some NaN
  | Num x => Some (Fin x)
  | Flag b => Some (Fin (if b then 1 else 0)%R)
  | Str t => float_of py t
  | Date _ => None
  end.
Fixpoint all_some {A : Type} (l : list (option A)) : option (list A) :=
  match l with
  | [] => Some []
  | o :: r => match o, all_some r with Some a, Some q => Some (a :: q) | _, _ => None end
  end.
Definition data_rows (rows : list (list cell)) : list (list cell) :=
  filter (fun r => match r with c :: _ => numeric c | [] => false end) (skipn 2 rows).
(** iscwsa_ingest.py:377-389 parse_totals_sheet; None = IndexError, ValueError or TypeError *)
Definition parse_totals_sheet (py : python) (rows : list (list cell)) : option covariances :=
  match nth_error rows 1 with
  | None => None
  | Some colnames =>
      let md_idx := match index_of "Md" colnames with Some i => i | None => 0 end in
      let data := data_rows rows in
      match all_some (map (fun r => match nth_error r md_idx with Some c => as_float py c | None => None end) data) with
      | None => None
      | Some md => Some (mkCov md (map (fun r => map (cov_value py colnames r) nev_cols) data)
                           (map (fun r => map (cov_value py colnames r) hla_cols) data))
      end
  end.

(** positions of the cells of a row that satisfy [p], counted from [k] *)
Fixpoint positions (p : cell -> bool) (k : nat) (row : list cell) : list nat :=
  match row with
  | [] => []
  | c :: r => if p c then k :: positions p (S k) r else positions p (S k) r
  end.
Definition is_nev (c : cell) : bool := existsb (fun l => is_label l c) nev_cols.
Record validation := mkVal { vl_md : ext; vl_source : text; vl_diagnostic : list ext; vl_calculated : list ext }.
(** float(md) *)
Definition float_cell (py : python) (c : cell) : option ext :=
  match c with Blank => None | _ => as_float py c end.
(** one row of lines 405-412; None = an exception *)
Definition validation_row (py : python) (md_idx src_idx : nat) (diag calc : list nat) (r : list cell) : option (list validation) :=
  match nth_error r md_idx, nth_error r src_idx with
  | Some md, Some src =>
      match md, src with
      | Blank, _ | _, Blank => Some []
      | _, _ =>
          match all_some (map (fun i => option_map (to_float py) (nth_error r i)) diag),
                all_some (map (fun i => option_map (to_float py) (nth_error r i)) calc), float_cell py md with
          | Some d, Some c, Some m => Some [mkVal m (str py src) d c]
          | _, _, _ => None
          end
      end
  | _, _ => None
  end.
(** iscwsa_ingest.py:392-414 parse_validation_sheet; None = IndexError, ValueError or TypeError *)
Definition parse_validation_sheet (py : python) (rows : list (list cell)) : option (list validation) :=
  if Nat.ltb (length rows) 3 then Some []
  else
    let colnames := nth 1 rows [] in
    let nev_positions := positions is_nev 0 colnames in
    let md_idx := match index_of "MD" colnames with Some i => i | None => 0 end in
    let src_idx := match index_of "Source" colnames with Some i => i | None => 1 end in
    option_map (@concat validation)
      (all_some (map (validation_row py md_idx src_idx (firstn 6 nev_positions) (firstn 6 (skipn 6 nev_positions))) (skipn 2 rows))).

(** ** the Readme sheet *)
(** iscwsa_ingest.py:26, used with match(): anchored at the start *)
Fixpoint word_re (t : text) (r : re) : re := match t with [] => r | c :: q => Cat (chr c) (word_re q r) end.
Definition revision_re : re :=
  Cat (Many M_DmsText.space) (word_re (lit "Revision") (Cat (many1 M_DmsText.space)
    (Cat (Grp 1 (many1 M_DmsText.digit)) (Cat (chr ".") (Cat (Grp 2 (many1 M_DmsText.digit)) (Cat (Many M_DmsText.space) Eos)))))).
Definition revision_key (t : text) : option (Z * Z) :=
  match run revision_re t [] (fun _ c => Some c) with
  | Some c => Some (int_of (group 1 c), int_of (group 2 c))
  | None => None
  end.
(** comparison of tuples *)
Definition newer (a b : Z * Z) : bool := (Z.ltb (fst b) (fst a) || (Z.eqb (fst a) (fst b) && Z.ltb (snd b) (snd a)))%bool.
(** iscwsa_ingest.py:29-48 _latest_readme_revision, given column A *)
Fixpoint latest_from (py : python) (cells : list cell) (best : option ((Z * Z) * text)) : option ((Z * Z) * text) :=
  match cells with
  | [] => best
  | c :: r =>
      match c with
      | Blank => latest_from py r best
      | _ =>
          match revision_key (str py c) with
          | None => latest_from py r best
          | Some k =>
              if match best with None => true | Some (b, _) => newer k b end
              then latest_from py r (Some (k, strip (str py c))) else latest_from py r best
          end
      end
  end.
Definition latest_readme_revision (py : python) (cells : list cell) : option text := option_map snd (latest_from py cells None).

(** ** the sheet of one error source *)
(** rows and merged ranges (min_row, max_row, min_col, max_col), counted from 1 *)
Record sheet := mkSheet { sh_rows : list (list cell); sh_merged : list (nat * nat * nat * nat) }.
Definition span := (text * nat)%type.
(** iscwsa_ingest.py:205-230 _merged_header_spans for header_row = 1 *)
Definition merged_spans (py : python) (s : sheet) : list (nat * span) :=
  fold_left (fun d m => let '(r0, r1, c0, c1) := m in
    if (Nat.eqb r0 1 && Nat.eqb r1 1)%bool then
      match at_or_none (c0 - 1) (hd [] (sh_rows s)) with
      | Blank => d
      | l => dput Nat.eqb (c0 - 1) (str py l, c1 - c0 + 1) d
      end
    else d) (sh_merged s) [].
Definition inside (i : nat) (d : list (nat * span)) : bool :=
  existsb (fun kv => (Nat.leb (fst kv) i && Nat.ltb i (fst kv + snd (snd kv)))%bool) d.
Fixpoint single_spans (py : python) (i : nat) (row : list cell) (d : list (nat * span)) : list (nat * span) :=
  match row with
  | [] => d
  | Blank :: r => single_spans py (S i) r d
  | c :: r =>
      single_spans py (S i) r
        (match dget Nat.eqb i d with
         | Some _ => d
         | None => if inside i d then d else dput Nat.eqb i (str py c, 1) d
         end)
  end.
Definition header_spans (py : python) (s : sheet) : list (nat * span) := single_spans py 0 (hd [] (sh_rows s)) (merged_spans py s).
(** sorted(spans) *)
Fixpoint insert_span (x : nat * span) (l : list (nat * span)) : list (nat * span) :=
  match l with [] => [x] | y :: r => if Nat.leb (fst x) (fst y) then x :: l else y :: insert_span x r end.
Definition sort_spans (l : list (nat * span)) : list (nat * span) := fold_right insert_span [] l.

Definition block := list (text * list ext).
Record source_tab := mkTab { tb_md : list ext; tb_blocks : list (text * block) }.
(** the values of one column: nan where the row is too short or the cell is no number *)
Definition column (py : python) (data : list (list cell)) (i : nat) : list ext :=
  map (fun r => match nth_error r i with Some c => to_float py c | None => NaN end) data.
Definition read_block (py : python) (subcols : list cell) (data : list (list cell)) (start width : nat) : block :=
  fold_left (fun b i => match at_or_none i subcols with Blank => b | c => dput text_eqb (str py c) (column py data i) b end) (seq start width) [].
Definition block_name (label : text) (count : nat) : text :=
  match count with O => label | _ => label ++ lit "_" ++ show_int (Z.of_nat (count + 1)) end.
Fixpoint read_blocks (py : python) (subcols : list cell) (data : list (list cell)) (spans : list (nat * span))
  (seen : list (text * nat)) (blocks : list (text * block)) : list (text * block) :=
  match spans with
  | [] => blocks
  | (start, (label, width)) :: r =>
      if match subcols with Str t :: _ => text_eqb label t | _ => false end then read_blocks py subcols data r seen blocks
      else
        let count := match dget text_eqb label seen with Some n => n | None => 0 end in
        read_blocks py subcols data r (dput text_eqb label (count + 1) seen)
          (match read_block py subcols data start width with [] => blocks | b => dput text_eqb (block_name label count) b blocks end)
  end.
(** iscwsa_ingest.py:417-459 parse_error_source_sheet (a sheet whose second row has
    no cells, which openpyxl does not give, reads as one without blocks) *)
Definition md_of (c : cell) : ext := match number_of c with Some x => Fin x | None => NaN end.
Definition parse_error_source_sheet (py : python) (s : sheet) : source_tab :=
  if Nat.ltb (length (sh_rows s)) 3 then mkTab [] []
  else
    let subcols := nth 1 (sh_rows s) [] in
    let data := data_rows (sh_rows s) in
    mkTab (map (fun r => md_of (at_or_none 0 r)) data)
      (read_blocks py subcols data (sort_spans (header_spans py s)) [] []).

(** ** the workbook *)
Definition non_source_sheets : list text := map lit ["Readme"; "Model"; "Wellpath"; "Validation"; "CovChart"; "TOTALS"; "drdp"]%string.
Record example := mkExample {
  ex_revision : option text; ex_header : list (text * cell); ex_extras : list (text * cell); ex_terms : list term;
  ex_wellpath : wellpath; ex_totals : covariances; ex_validation : list validation; ex_sources : list (text * source_tab)
}.
Definition truncate_tab (n : nat) (t : source_tab) : source_tab :=
  if (Nat.ltb 0 n && Nat.ltb n (length (tb_md t)))%bool
  then mkTab (firstn n (tb_md t)) (map (fun gb => (fst gb, map (fun ca => (fst ca, firstn n (snd ca))) (snd gb))) (tb_blocks t))
  else t.
(** iscwsa_ingest.py:471-521 load_iscwsa_example, given the sheets; None = an exception *)
Definition load_iscwsa_example (py : python) (wb : list (text * sheet)) : option example :=
  let get n := dget text_eqb (lit n) wb in
  match get "Model"%string, get "Wellpath"%string, get "TOTALS"%string with
  | Some m, Some w, Some t =>
      match parse_model_sheet py (sh_rows m), parse_wellpath_sheet py (sh_rows w), parse_totals_sheet py (sh_rows t),
            match get "Validation"%string with Some v => parse_validation_sheet py (sh_rows v) | None => Some [] end with
      | Some (h, x, terms), Some wp, Some tot, Some val =>
          let n := length (wp_stations wp) in
          let codes := map tm_code terms in
          Some (mkExample
            (match get "Readme"%string with Some r => latest_readme_revision py (map (at_or_none 0) (sh_rows r)) | None => None end)
            h x terms wp tot val
            (fold_left (fun d ns => if existsb (text_eqb (fst ns)) non_source_sheets then d
                          else if existsb (text_eqb (fst ns)) codes
                               then dput text_eqb (fst ns) (truncate_tab n (parse_error_source_sheet py (snd ns))) d else d) wb []))
      | _, _, _, _ => None
      end
  | _, _, _ => None
  end.
