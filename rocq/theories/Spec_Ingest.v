(** Vocabulary for reading the sheets of an example workbook. *)
Require Import Reals ZArith Ascii String List Bool.
Require Import Verif.Base Verif.NumPy Verif.M_Utils Verif.M_Text Verif.Spec_Text Verif.M_Ingest.
Import ListNotations.
Open Scope list_scope.
Local Open Scope nat_scope.

(** [l] is [t] without the white space around it *)
Definition blanks (t : text) : Prop := Forall (fun c => is_space c = true) t.
Definition stripped (t l : text) : Prop := exists p q, t = p ++ l ++ q /\ blanks p /\ blanks q /\ trimmed l.
(** the cell in column [k] of a row, counted from 0: empty beyond the end *)
Definition col (k : nat) (row : list cell) : cell := nth k row Blank.
Definition is_number (c : cell) : Prop := (exists x, c = Num x) \/ exists b, c = Flag b.
Definition filled (c : cell) : Prop := c <> Blank /\ c <> Num 0 /\ c <> Flag false /\ c <> Str [].

(** a cell as text, and as a number: what cannot be read is not a number *)
Definition cell_text (py : python) (c : cell) : text :=
  match c with
  | Blank => lit "None"
  | Num x => show py x
  | Flag b => lit (if b then "True" else "False")
  | Str t | Date t => t
  end.
Definition cell_number (py : python) (c : cell) : ext :=
  match c with
  | Num x => Fin x
  | Flag b => Fin (if b then 1 else 0)%R
  | Str t => match float_of py t with Some x => x | None => NaN end
  | Blank | Date _ => NaN
  end.
(** float() of a cell: blank cells count as missing numbers, what cannot be read is refused *)
Definition cell_float (py : python) (c : cell) : option ext :=
  match c with
  | Blank => Some NaN
  | Num x => Some (Fin x)
  | Flag b => Some (Fin (if b then 1 else 0)%R)
  | Str t => float_of py t
  | Date _ => None
  end.
(** a text in small letters *)
Definition small_letter (c : ascii) : ascii :=
  if (Nat.leb 65 (nat_of_ascii c) && Nat.leb (nat_of_ascii c) 90)%bool then ascii_of_nat (nat_of_ascii c + 32) else c.
Definition small_text (t : text) : text := map small_letter t.
(** the labels of the header that become attributes of the model *)
Definition field_labels : list text :=
  map lit ["OWSG Prefix"; "Short Name"; "Long Name"; "Revision No"; "Revision Date"; "Revision Comment"; "Source";
           "Application"; "Tool Type"; "Status"; "Checked"; "Approved"; "Notes"]%string.

(** ** the Model sheet: a row with a number in column D and something in column E
    is an error term *)
Definition term_row (row : list cell) : Prop := is_number (col 3 row) /\ filled (col 4 row).
Definition shown_text (py : python) (c : cell) (t : text) : Prop := (c = Blank /\ t = []) \/ (c <> Blank /\ t = cell_text py c).
Definition whole_part (x : R) (z : Z) : Prop :=
  ((0 <= x -> IZR z <= x < IZR z + 1) /\ (x < 0 -> IZR z - 1 < x <= IZR z))%R.
Definition describes_term (py : python) (row : list cell) (t : term) : Prop :=
  match col 3 row with Num x => whole_part x (tm_no t) | Flag b => tm_no t = (if b then 1 else 0)%Z | _ => False end /\
  stripped (cell_text py (col 4 row)) (tm_code t) /\
  shown_text py (col 5 row) (tm_description t) /\ shown_text py (col 6 row) (tm_wt_fn t) /\
  shown_text py (col 7 row) (tm_wt_fn_source t) /\ shown_text py (col 8 row) (tm_type t) /\
  tm_magnitude t = cell_number py (col 9 row) /\ shown_text py (col 10 row) (tm_unit t) /\
  (exists s, shown_text py (col 11 row) s /\ stripped s (tm_propagation t)) /\
  [tm_p1 t; tm_p2 t; tm_p3 t; tm_comment t; tm_depth t; tm_inc t; tm_azi t; tm_sing_n t; tm_sing_e t; tm_sing_v t]
    = map (fun k => col k row) [12; 13; 14; 15; 16; 17; 18; 19; 20; 21] /\
  (tm_convert t = true <-> filled (col 22 row)).
Inductive terms_of (py : python) : list (list cell) -> list term -> Prop :=
| no_rows : terms_of py [] []
| a_term : forall row rows t ts, term_row row -> describes_term py row t -> terms_of py rows ts -> terms_of py (row :: rows) (t :: ts)
| other_row : forall row rows ts, ~ term_row row -> terms_of py rows ts -> terms_of py (row :: rows) ts.
(** a sheet that can be read: a label has a cell beside it, a term has twelve columns *)
Definition readable_row (row : list cell) : Prop :=
  row <> [] /\ (filled (col 0 row) -> 2 <= length row) /\ (term_row row -> 12 <= length row).
(** a row that gives the value [v] to the label [l]: colons and square brackets do not count *)
Definition kept (c : ascii) : bool := negb (Ascii.eqb c ":" || Ascii.eqb c "[" || Ascii.eqb c "]").
Definition gives (py : python) (row : list cell) (l : text) (v : cell) : Prop :=
  exists key rest, row = key :: v :: rest /\ filled key /\ stripped (filter kept (cell_text py key)) l.
Definition last_given (py : python) (rows : list (list cell)) (l : text) (v : cell) : Prop :=
  exists a row b, rows = a ++ row :: b /\ gives py row l v /\ forall row' w, In row' b -> ~ gives py row' l w.

(** ** the dictionary of codes *)
Definition in_degrees (unit : text) : Prop := exists u v, unit = u ++ lit "deg" ++ v.
Definition named (t : term) (n : text) : Prop :=
  (tm_code t = lit "XCLL" /\ n = lit "XCLA") \/ (tm_code t <> lit "XCLL" /\ n = tm_code t).
Definition propagates (t : term) (p : text) : Prop :=
  (tm_propagation t = lit "R" /\ p = lit "random") \/ (tm_propagation t = lit "G" /\ p = lit "global") \/
  (tm_propagation t = lit "W" /\ p = lit "within_pad") \/
  (~ In (tm_propagation t) [lit "R"; lit "G"; lit "W"] /\ p = lit "systematic").
Definition propagation_in_full (p n : text) : Prop :=
  (p = lit "R" /\ n = lit "random") \/ (p = lit "S" /\ n = lit "systematic") \/ (p = lit "G" /\ n = lit "global") \/
  (p = lit "W" /\ n = lit "within_pad") \/ (~ In p [lit "R"; lit "S"; lit "G"; lit "W"] /\ n = p).
Definition describes_code (t : term) (c : code) : Prop :=
  cd_function c = map (fun a => if Ascii.eqb a "-" then "_"%char else a) (tm_wt_fn t) /\
  (in_degrees (tm_unit t) -> forall m, tm_magnitude t = Fin m -> cd_magnitude c = Fin (m * (PI / 180))) /\
  (~ in_degrees (tm_unit t) -> cd_magnitude c = tm_magnitude t /\ cd_unit c = tm_unit t) /\
  (forall u v, tm_unit t = u ++ lit "deg" ++ v -> ~ in_degrees u -> ~ in_degrees v -> cd_unit c = u ++ lit "rad" ++ v) /\
  propagates t (cd_propagation c).
Definition last_named (terms : list term) (n : text) (t : term) : Prop :=
  exists a b, terms = a ++ t :: b /\ named t n /\ forall t', In t' b -> ~ named t' n.

(** ** the Readme sheet: a line naming a revision *)
Definition number_text (s : text) (z : Z) : Prop := s <> [] /\ Forall is_digit s /\ digits_value s = z.
Definition names_revision (t : text) (k : Z * Z) : Prop :=
  exists p q a b r, t = p ++ lit "Revision" ++ q ++ a ++ lit "." ++ b ++ r /\ blanks p /\ blanks q /\ q <> [] /\ blanks r /\
    number_text a (fst k) /\ number_text b (snd k).
Definition later (k k' : Z * Z) : Prop := (fst k' < fst k \/ (fst k = fst k' /\ snd k' < snd k))%Z.

(** ** the Wellpath sheet *)
(** the number in a cell *)
Definition holds (c : cell) (x : R) : Prop := c = Num x \/ (c = Flag true /\ x = 1%R) \/ (c = Flag false /\ x = 0%R).
Inductive stations_of (py : python) : list (list cell) -> list (list ext) -> Prop :=
| no_stations : stations_of py [] []
| a_station : forall row rows md inc azi tvd tf ss, holds (col 4 row) md ->
    (forall k v, In (k, v) [(5, inc); (6, azi); (7, tvd)] -> v = (if Nat.ltb k (length row) then cell_number py (col k row) else Fin 0)) ->
    tf = cell_number py (col 8 row) -> stations_of py rows ss -> stations_of py (row :: rows) ([Fin md; inc; azi; tvd; tf] :: ss)
| no_station : forall row rows ss, ~ is_number (col 4 row) -> stations_of py rows ss -> stations_of py (row :: rows) ss.

(** ** columns found by their name *)
Definition first_column (header : list cell) (l : string) (i : nat) : Prop :=
  nth_error header i = Some (Str (lit l)) /\ forall j, j < i -> nth_error header j <> Some (Str (lit l)).
Definition column_missing (header : list cell) (l : string) : Prop := ~ In (Str (lit l)) header.
(** the value of a row in the first column of that name *)
Definition named_value (py : python) (header row : list cell) (l : string) (x : ext) : Prop :=
  (exists i, first_column header l i /\ x = cell_number py (col i row)) \/ (column_missing header l /\ x = NaN).

(** the members of a list that satisfy [P], in order *)
Inductive selects {A : Type} (P : A -> Prop) : list A -> list A -> Prop :=
| sel_nil : selects P [] []
| sel_keep : forall x l k, P x -> selects P l k -> selects P (x :: l) (x :: k)
| sel_drop : forall x l k, ~ P x -> selects P l k -> selects P (x :: l) k.
(** the value given by the last row that gives one, [d] if none does *)
Definition last_of {A B : Type} (f : A -> B -> Prop) (rows : list A) (d v : B) : Prop :=
  (exists a r b, rows = a ++ r :: b /\ f r v /\ forall r' v', In r' b -> ~ f r' v') \/
  (v = d /\ forall r v', In r rows -> ~ f r v').

(** ** the reference values of the Wellpath sheet: label in column A, value in column B *)
Definition labelled (py : python) (row : list cell) (lab : text) (v : cell) : Prop :=
  exists l rest, row = l :: v :: rest /\ l <> Blank /\ stripped (cell_text py l) lab.
Definition begins (p : string) (t : text) : Prop := exists r, small_text t = lit p ++ r.
Definition well_named (py : python) (row : list cell) (t : text) : Prop := exists v, labelled py row (lit "Well") v /\ shown_text py v t.
Definition units_named (py : python) (row : list cell) (t : text) : Prop :=
  exists lab v s, labelled py row lab v /\ begins "depth units" lab /\ v <> Blank /\ stripped (cell_text py v) s /\ t = small_text s.
Definition factor_given (py : python) (row : list cell) (x : R) : Prop :=
  exists lab v, labelled py row lab v /\ begins "feet to metres" lab /\ holds v x.
(** the name of a reference value stands before the unit in brackets *)
Definition ref_given (py : python) (key : string) (row : list cell) (e : ext) : Prop :=
  exists lab v x name s, labelled py row lab v /\ holds v x /\ e = Fin x /\
    lab <> lit "Well" /\ ~ begins "depth units" lab /\ ~ begins "feet to metres" lab /\
    ~ In "("%char name /\ (lab = name \/ exists r, lab = name ++ "("%char :: r) /\ stripped name s /\ small_text s = lit key.

(** ** the TOTALS and Validation sheets *)
Definition starts_with_number (row : list cell) : Prop := exists c r, row = c :: r /\ is_number c.
Definition named_or (header : list cell) (l : string) (d i : nat) : Prop := first_column header l i \/ (column_missing header l /\ i = d).
Definition covariance_name (c : cell) : Prop := exists l, In l nev_cols /\ c = Str (lit l).
(** column [i] is number [k] of the columns that have a covariance name *)
Definition kth_covariance (header : list cell) (k i : nat) : Prop :=
  (exists c, nth_error header i = Some c /\ covariance_name c) /\
  exists before, selects covariance_name (firstn i header) before /\ length before = k.
Definition describes_validation (py : python) (header row : list cell) (v : validation) : Prop :=
  exists i j md src, named_or header "MD" 0 i /\ named_or header "Source" 1 j /\
    nth_error row i = Some md /\ nth_error row j = Some src /\ md <> Blank /\ src <> Blank /\
    cell_float py md = Some (vl_md v) /\ vl_source v = cell_text py src /\
    (forall k x, nth_error (vl_diagnostic v) k = Some x <-> k < 6 /\ exists c, kth_covariance header k c /\ x = cell_number py (col c row)) /\
    (forall k x, nth_error (vl_calculated v) k = Some x <-> k < 6 /\ exists c, kth_covariance header (6 + k) c /\ x = cell_number py (col c row)).
Definition validated (header row : list cell) : Prop :=
  exists i j, named_or header "MD" 0 i /\ named_or header "Source" 1 j /\ col i row <> Blank /\ col j row <> Blank.

(** ** the sheet of an error source: the groups of columns named in its first row *)
Definition merged_group (py : python) (s : sheet) (g : nat * span) : Prop :=
  exists c0 c1, In (1, 1, c0, c1) (sh_merged s) /\ col (c0 - 1) (hd [] (sh_rows s)) <> Blank /\
    g = (c0 - 1, (cell_text py (col (c0 - 1) (hd [] (sh_rows s))), c1 - c0 + 1)).
Definition covers (g : nat * span) (i : nat) : Prop := fst g <= i < fst g + snd (snd g).
Definition single_group (py : python) (s : sheet) (g : nat * span) : Prop :=
  exists i, col i (hd [] (sh_rows s)) <> Blank /\ (forall g', merged_group py s g' -> ~ covers g' i) /\
    g = (i, (cell_text py (col i (hd [] (sh_rows s))), 1)).
Definition group_of (py : python) (s : sheet) (g : nat * span) : Prop := merged_group py s g \/ single_group py s g.
(** ranges of the workbook do not overlap *)
Definition well_merged (s : sheet) : Prop :=
  (forall r0 r1 c0 c1, In (r0, r1, c0, c1) (sh_merged s) -> 1 <= c0 <= c1) /\
  (forall c0 c1 d0 d1, In (1, 1, c0, c1) (sh_merged s) -> In (1, 1, d0, d1) (sh_merged s) -> c0 = d0 -> c1 = d1).
Fixpoint occurrences (l : text) (ls : list text) : nat :=
  match ls with [] => 0 | a :: r => (if text_eqb l a then 1 else 0) + occurrences l r end.
(** the name of a group after groups with the labels [before]: label, label_2, label_3, ... *)
Definition group_name (label : text) (before : list text) (n : text) : Prop :=
  match occurrences label before with O => n = label | S k => n = label ++ lit "_" ++ show_int (Z.of_nat (S (S k))) end.
(** the columns of a group: the last one with that name *)
Definition column_of (py : python) (subcols : list cell) (g : nat * span) (sub : text) (i : nat) : Prop :=
  covers g i /\ col i subcols <> Blank /\ cell_text py (col i subcols) = sub /\
  forall j, i < j -> covers g j -> col j subcols <> Blank -> cell_text py (col j subcols) <> sub.
Definition column_values (py : python) (data : list (list cell)) (i : nat) (xs : list ext) : Prop :=
  Forall2 (fun row x => x = cell_number py (col i row)) data xs.
(** the columns of a group are read under their names *)
Definition block_reads (py : python) (subcols : list cell) (data : list (list cell)) (g : nat * span) (b : block) : Prop :=
  forall sub xs, dget text_eqb sub b = Some xs <-> exists i, column_of py subcols g sub i /\ column_values py data i xs.
Definition label_of (g : nat * span) : text := fst (snd g).
(** a group whose label repeats the name of the first column is skipped *)
Definition counted (subcols : list cell) (g : nat * span) : Prop := col 0 subcols <> Str (label_of g).
(** groups from left to right *)
Fixpoint left_to_right (gs : list (nat * span)) : Prop :=
  match gs with [] => True | g :: r => (forall g', In g' r -> fst g < fst g') /\ left_to_right r end.
(** a sheet cut to the number of stations *)
Definition cut_to (n : nat) (full tab : source_tab) : Prop :=
  (n = 0 -> tab = full) /\
  (0 < n -> tb_md tab = firstn n (tb_md full) /\
     Forall2 (fun fb tb => fst tb = fst fb /\ Forall2 (fun fc tc => fst tc = fst fc /\ snd tc = firstn n (snd fc)) (snd fb) (snd tb))
       (tb_blocks full) (tb_blocks tab)).

(** ** concrete sheets for the claims that fail *)
(** a python that cannot read numbers from texts *)
Definition no_text : python := mkPython (fun _ => lit "0") (fun _ => None).
Definition S_ (s : string) : cell := Str (lit s).
(** covariances listed in another order than expected *)
Definition swapped_sheet : list (list cell) :=
  [[]; [S_ "MD"; S_ "Source"; S_ "EE"; S_ "NN"]; [Num 30; S_ "TOTALS"; Num 1; Num 2]].
(** a label repeated, and a label that looks like the name made for the repetition *)
Definition clash_sheet : sheet :=
  mkSheet [[S_ "Md"; S_ "A"; S_ "A"; S_ "A_2"]; [S_ "Md"; S_ "x"; S_ "x"; S_ "x"]; [Num 0; Num 1; Num 2; Num 3]] [].
