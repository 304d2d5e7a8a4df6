(** Model of welleng/exchange/wbp.py: reading and writing of .wbp files.

    None stands for any exception.  Conversion of text to numbers is a parameter
    ([reader]); numbers are reals.  A file is its list of lines; open() and the
    line iterator are not modelled. *)
Require Import Reals ZArith Ascii String List Bool.
Require Import Verif.Base Verif.M_Text.
Import ListNotations.
Open Scope list_scope.
Local Open Scope nat_scope.

Record reader := mkReader { to_float : text -> option R; to_int : text -> option Z }.
Definition ob {A B : Type} (o : option A) (f : A -> option B) : option B :=
  match o with Some a => f a | None => None end.
Notation "'do' x <- a ;; b" := (ob a (fun x => b)) (at level 200, x pattern, a at level 100, b at level 200).

(** ** Dictionaries of wbp.yaml *)
Inductive unit := Meters | Feet.
Definition unit_eqb (a b : unit) : bool := match a, b with Meters, Meters | Feet, Feet => true | _, _ => false end.
(** wbp.yaml:1-13 DEPTH: key, (surface, depth) *)
Definition depth_dict : list (ascii * (unit * unit)) :=
  [("1"%char, (Feet, Feet)); ("2"%char, (Meters, Meters)); ("3"%char, (Feet, Meters)); ("4"%char, (Meters, Feet))].
(** wbp.yaml:21-46 LOCATION *)
Definition type_dict : list (ascii * string) :=
  [("0"%char, "unknown"); ("1"%char, "surface"); ("2"%char, "ow_sidetrack"); ("3"%char, "wp_sidetrack");
   ("4"%char, "look_ahead"); ("5"%char, "ow_well"); ("6"%char, "complex_extension"); ("7"%char, "site");
   ("8"%char, "site_based_plan"); ("9"%char, "compass_well")]%string.
Definition method_dict : list (ascii * string) :=
  [("0"%char, "curve_only"); ("1"%char, "curve_hold"); ("2"%char, "opt_align"); ("9"%char, "something_special")]%string.
Definition dirty_dict : list (ascii * string) := [("0"%char, "None"); ("4"%char, "locked_plan")]%string.
(** d[key]; None = KeyError *)
Fixpoint look {V : Type} (k : ascii) (d : list (ascii * V)) : option V :=
  match d with [] => None | (k', v) :: r => if Ascii.eqb k k' then Some v else look k r end.
(** wbp.py:585-591 get_key: the first key with the value; None = IndexError *)
Fixpoint get_key (d : list (ascii * string)) (v : string) : option ascii :=
  match d with [] => None | (k, v') :: r => if String.eqb v' v then Some k else get_key r v end.
(** wbp.py:575-582 get_unit_key *)
Fixpoint unit_key (d : list (ascii * (unit * unit))) (depth surface : unit) : option ascii :=
  match d with
  | [] => None
  | (k, (s, e)) :: r => if (unit_eqb e depth && unit_eqb s surface)%bool then Some k else unit_key r depth surface
  end.
(** wbp.py:128 and 377-387 string_strip: None for blank text *)
Definition string_strip (s : text) : option text := match strip s with [] => None | t => Some t end.
(** string_strip(s, is_float=True); the outer option is the ValueError *)
Definition float_strip (rd : reader) (s : text) : option (option R) :=
  match strip s with [] => Some None | t => do x <- to_float rd t ;; Some (Some x) end.

(** ** Objects *)
Definition loc := (R * R * R)%type.
(** survey.py:1720 TurnPoint with its rates set *)
Record turn := mkTurn { t_md : R; t_azi : R; t_inc : R; t_build : R; t_turn : R; t_dls : R; t_face : R;
  t_method : option text; t_target : option text; t_tie : bool; t_loc : option loc }.
(** wbp.py:61-96 SurveyPoint: the nine numbers of the X line, the tool, (md, azi, inc) and the location *)
Record point := mkPoint { x_nums : list R; x_tool : text; x_sta : option (R * R * R); x_loc : option loc }.
Inductive step := Turn (t : turn) | Point (p : point).
(** header attributes (wbp.py:318-332) *)
Record header := mkHead { h_type : string; h_method : string; h_dirty : option string; h_sidetrack : option text;
  h_name : option text; h_parent : option text; h_dls : option R; h_ext : option R; h_kick : option R }.
(** a target: name and location.  Its geometry is the default argument of
    Target.__init__ (wbp.py:31-59), one dictionary shared by all targets: the
    colour lives in the state [cell]. *)
Definition target := (text * option loc)%type.
Inductive flag := NoFlag | Targets | Wellplans | Done.
Record plan := mkPlan { p_depth : option unit; p_surface : option unit; p_targets : list target;
  p_head : option header; p_steps : list step; p_flag : flag; p_tie : bool }.
(** colour of the shared geometry and its three descriptions *)
Record cell := mkCell { c_colour : option Z; c_text : option (text * text * text) }.

(** ** Reading *)
(** wbp.py:314-316, 366-368 x, y, z = data.split() *)
Definition read_loc (rd : reader) (s : text) : option loc :=
  match words s with
  | [a; b; c] => do x <- to_float rd a ;; do y <- to_float rd b ;; do z <- to_float rd c ;; Some (x, y, z)
  | _ => None
  end.
(** wbp.py:318-332 _add_wellplan_header *)
Definition read_header (rd : reader) (s : text) : option header :=
  do t <- char_at 2 s ;; do ty <- look t type_dict ;;
  do m <- char_at 4 s ;; do me <- look m method_dict ;;
  do d <- char_at 5 s ;;
  do dls <- float_strip rd (slice 144 151 s) ;;
  do ext <- float_strip rd (slice 151 160 s) ;;
  do kick <- float_strip rd (slice 160 171 s) ;;
  Some (mkHead ty me (look d dirty_dict) (string_strip (slice 14 22 s)) (string_strip (slice 23 84 s))
         (string_strip (slice 84 144 s)) dls ext kick).
(** wbp.py:334-352 _add_turn_point *)
Definition read_turn (rd : reader) (tie : bool) (s : text) : option turn :=
  do body <- nth_error (split_on colon s) 1 ;;
  match words body with
  | a :: b :: c :: d :: e :: f :: g :: rest =>
      do md <- to_float rd a ;; do azi <- to_float rd b ;; do inc <- to_float rd c ;;
      do br <- to_float rd d ;; do tr <- to_float rd e ;; do dls <- to_float rd f ;; do tf <- to_float rd g ;;
      if tie then Some (mkTurn md azi inc br tr dls tf None None true None)
      else match rest with
           | [] => None
           | m :: rest' => Some (mkTurn md azi inc br tr dls tf (string_strip m)
                                  (match rest' with t :: _ => string_strip t | [] => None end) false None)
           end
  | _ => None
  end.
(** a list of floats *)
Fixpoint floats (rd : reader) (l : list text) : option (list R) :=
  match l with [] => Some [] | a :: r => do x <- to_float rd a ;; do xs <- floats rd r ;; Some (x :: xs) end.
(** wbp.py:354-366 _add_extended_survey_point *)
Definition read_point (rd : reader) (data : list text) : option point :=
  if length data <? 9 then None
  else do xs <- floats rd (firstn 9 data) ;; Some (mkPoint xs (join [space] (skipn 9 data)) None None).
(** steps[-1] updated; None = IndexError *)
Fixpoint upd_last {A : Type} (f : A -> A) (l : list A) : option (list A) :=
  match l with
  | [] => None
  | [a] => Some [f a]
  | a :: r => do r' <- upd_last f r ;; Some (a :: r')
  end.
Definition set_loc (q : loc) (s : step) : step :=
  match s with
  | Turn t => Turn (mkTurn (t_md t) (t_azi t) (t_inc t) (t_build t) (t_turn t) (t_dls t) (t_face t) (t_method t) (t_target t) (t_tie t) (Some q))
  | Point p => Point (mkPoint (x_nums p) (x_tool p) (x_sta p) (Some q))
  end.
(** wbp.py:368-370 _add_survey_data *)
Definition set_sta (q : R * R * R) (s : step) : step :=
  let '(md, azi, inc) := q in
  match s with
  | Turn t => Turn (mkTurn md azi inc (t_build t) (t_turn t) (t_dls t) (t_face t) (t_method t) (t_target t) (t_tie t) (t_loc t))
  | Point p => Point (mkPoint (x_nums p) (x_tool p) (Some q) (x_loc p))
  end.
(** wbp.py:307-316 _add_target_color *)
Definition read_colour (rd : reader) (s : text) (c : cell) : option cell :=
  if 5 <? length s then
    do k <- to_int rd (slice 2 5 s) ;; Some (mkCell (Some k) (Some (slice 5 10 s, slice 11 21 s, slice 22 64 s)))
  else do k <- to_int rd (skipn 2 s) ;; Some (mkCell (Some k) (c_text c)).
Definition set_flag (f : flag) (p : plan) : plan :=
  mkPlan (p_depth p) (p_surface p) (p_targets p) (p_head p) (p_steps p) f (p_tie p).
Definition set_tie (b : bool) (p : plan) : plan :=
  mkPlan (p_depth p) (p_surface p) (p_targets p) (p_head p) (p_steps p) (p_flag p) b.
Definition set_steps (l : list step) (p : plan) : plan :=
  mkPlan (p_depth p) (p_surface p) (p_targets p) (p_head p) l (p_flag p) (p_tie p).
Definition set_targets (l : list target) (p : plan) : plan :=
  mkPlan (p_depth p) (p_surface p) l (p_head p) (p_steps p) (p_flag p) (p_tie p).
Definition set_head (h : header) (p : plan) : plan :=
  mkPlan (p_depth p) (p_surface p) (p_targets p) (Some h) (p_steps p) (p_flag p) (p_tie p).
Definition set_units (d s : unit) (p : plan) : plan :=
  mkPlan (Some d) (Some s) (p_targets p) (p_head p) (p_steps p) (p_flag p) (p_tie p).
(** wbp.py:247-286: one line; [Stop] is the break *)
Inductive outcome := Next (p : plan) (c : cell) | Stop.
Definition is_word (s : string) (w : text) : bool := text_eqb w (lit s).
Definition read_line (rd : reader) (p : plan) (c : cell) (line : text) : option outcome :=
  let m0 := match split_on colon line with f :: _ => f | [] => [] end in
  match words line with
  | [] => None
  | l0 :: lr =>
      if is_word "!" l0 then Some (Next p c)
      else if is_word "DEPTH" l0 then
        (** wbp.py:372-374 _get_units: the key is the whole word *)
        match lr with
        | [k] :: _ => do (s, d) <- look k depth_dict ;; Some (Next (set_flag NoFlag (set_units d s p)) c)
        | _ => None
        end
      else if is_word "TARGETS:" l0 then Some (Next (set_flag Targets p) c)
      else if is_word "WELLPLANS:" l0 then Some (Next (set_tie true (set_flag Wellplans p)) c)
      else match p_flag p with
      | Targets =>
          if is_word "T" m0 then
            do name <- nth_error (split_on colon line) 1 ;; Some (Next (set_targets (p_targets p ++ [(name, None)]) p) c)
          else if is_word "L" m0 then
            do body <- nth_error (split_on colon line) 1 ;; do q <- read_loc rd body ;;
            do ts <- upd_last (fun t => (fst t, Some q)) (p_targets p) ;; Some (Next (set_targets ts p) c)
          else if is_word "C" m0 then
            match p_targets p with
            | [] => None
            | _ => do c' <- read_colour rd line c ;; Some (Next p c')
            end
          (** wbp.py:301-305 _add_target_geometry assigns attributes of a dict:
              AttributeError, if nothing was raised before *)
          else if is_word "G" m0 then None
          else Some (Next p c)
      | _ =>
          if is_word "W" m0 then
            match p_flag p with
            | Done => Some Stop
            | _ => do h <- read_header rd line ;; Some (Next (set_head h (set_tie true (set_flag Done p))) c)
            end
          else if is_word "P" m0 then
            do t <- read_turn rd (p_tie p) line ;; Some (Next (set_steps (p_steps p ++ [Turn t]) p) c)
          else if is_word "L" m0 then
            do body <- nth_error (split_on colon line) 1 ;; do q <- read_loc rd body ;;
            do ss <- upd_last (set_loc q) (p_steps p) ;; Some (Next (set_tie false (set_steps ss p)) c)
          else if is_word "X" m0 then
            do x <- read_point rd lr ;; Some (Next (set_steps (p_steps p ++ [Point x]) p) c)
          else if is_word "S" m0 then
            match lr with
            | [a; b; d] =>
                do md <- to_float rd a ;; do azi <- to_float rd b ;; do inc <- to_float rd d ;;
                do ss <- upd_last (set_sta (md, azi, inc)) (p_steps p) ;; Some (Next (set_steps ss p) c)
            | _ => None
            end
          else Some (Next p c)
      end
  end.
(** wbp.py:235-288 _process_wbp_data from the first line not yet read: the plan,
    the shared geometry, and the lines left *)
Fixpoint read_plan (rd : reader) (p : plan) (c : cell) (lines : list text) : option (plan * cell * list text) :=
  match lines with
  | [] => Some (p, c, [])
  | l :: r =>
      do o <- read_line rd p c l ;;
      match o with
      | Stop => Some (p, c, l :: r)
      | Next p' c' => read_plan rd p' c' r
      end
  end.
(** wbp.py:165-194: the state before the first line *)
Definition fresh (depth surface : option unit) : plan := mkPlan depth surface [] None [] NoFlag false.
(** wbp.py:431-452 the loop of load; [None] with fuel left is an exception *)
Inductive loaded := Plans (l : list plan) (c : cell) | Raised | OutOfFuel.
Fixpoint load_loop (fuel : nat) (rd : reader) (depth surface : option unit) (c : cell) (lines : list text) : loaded :=
  match fuel with
  | O => OutOfFuel
  | S n =>
      match read_plan rd (fresh depth surface) c lines with
      | None => Raised
      | Some (p, c', []) => Plans [p] c'
      | Some (p, c', rest) =>
          match load_loop n rd (p_depth p) (p_surface p) c' rest with
          | Plans ps c'' => Plans (p :: ps) c''
          | x => x
          end
      end
  end.
(** wbp.py:407-431: rstrip of every line *)
Definition load (fuel : nat) (rd : reader) (c : cell) (lines : list text) : loaded :=
  load_loop fuel rd None None c (map rstrip lines).

(** ** Writing *)
(** wbp.py:465-473 add_location *)
Definition location_line (q : loc) : text :=
  let '(x, y, z) := q in lit "L:" ++ rjust 13 (fixed 2 x) ++ rjust 13 (fixed 2 y) ++ rjust 11 (fixed 2 z).
(** str(color): an integer or None *)
Definition show_colour (c : option Z) : text := match c with Some z => show_int z | None => lit "None" end.
(** wbp.py:455-463 add_targets; a target of the plan to write has its own colour *)
Definition target_lines (t : target * option Z) : option (list text) :=
  do q <- snd (fst t) ;; Some [lit "T:" ++ fst (fst t); location_line q; lit "C:" ++ rjust 3 (show_colour (snd t))].
Fixpoint concat_all (l : list (option (list text))) : option (list text) :=
  match l with [] => Some [] | o :: r => do a <- o ;; do b <- concat_all r ;; Some (a ++ b) end.
(** wbp.py:476-498 add_header *)
Definition header_line (depth surface : option unit) (h : header) : option text :=
  do t <- get_key type_dict (h_type h) ;;
  do de <- depth ;; do su <- surface ;; do u <- unit_key depth_dict de su ;;
  do m <- get_key method_dict (h_method h) ;;
  do di <- h_dirty h ;; do d <- get_key dirty_dict di ;;
  do si <- h_sidetrack h ;; do dls <- h_dls h ;; do ext <- h_ext h ;;
  Some (lit "W:" ++ [t; u; m; d] ++ lit "   0" ++ lit " 123" ++ [space] ++ rjust 7 si ++
        [space] ++ ljust 60 (match h_name h with Some n => n | None => [] end) ++
        [space] ++ ljust 60 (match h_parent h with Some n => n | None => [] end) ++
        [space] ++ rjust 6 (fixed 2 dls) ++ [space] ++ rjust 7 (fixed 5 ext)).
(** wbp.py:509-536 add_turn_point *)
Definition turn_line (t : turn) : text :=
  let method := if t_tie t then [] else match t_method t with Some m => m | None => lit "0" end in
  let target := match t_target t with Some g => g | None => [] end in
  let face := if Rlt_dec (t_face t) (-99) then rjust 7 (fixed 2 (t_face t)) else rjust 7 (fixed 3 (t_face t)) in
  lit "P:" ++ [space] ++ rjust 7 (fixed 2 (t_md t)) ++ [space] ++ rjust 7 (fixed 3 (t_azi t)) ++
  [space] ++ rjust 7 (fixed 3 (t_inc t)) ++ [space] ++ rjust 7 (fixed 3 (t_build t)) ++
  [space] ++ rjust 7 (fixed 3 (t_turn t)) ++ [space] ++ rjust 7 (fixed 3 (t_dls t)) ++
  [space] ++ face ++ [space] ++ rjust 4 method ++ [space] ++ rjust 10 target.
(** wbp.py:539-561 add_survey_point: six covariances with one decimal, three biases with two *)
Definition point_line (p : point) : text :=
  lit "X:" ++ flat_map (fun v => [space] ++ rjust 8 (fixed 1 v)) (firstn 6 (x_nums p)) ++
  flat_map (fun v => [space] ++ rjust 7 (fixed 2 v)) (skipn 6 (x_nums p)) ++ [space] ++ ljust 38 (x_tool p).
Definition station_line (q : R * R * R) : text :=
  let '(md, azi, inc) := q in
  lit "S:" ++ [space] ++ rjust 7 (fixed 2 md) ++ [space] ++ rjust 7 (fixed 3 azi) ++ [space] ++ rjust 7 (fixed 3 inc).
(** wbp.py:501-507 add_step *)
Definition step_lines (s : step) : option (list text) :=
  match s with
  | Turn t => do q <- t_loc t ;; Some [turn_line t; location_line q]
  | Point p => do st <- x_sta p ;; do q <- x_loc p ;; Some [point_line p; station_line st; location_line q]
  end.
Definition body_lines (p : plan) : option (list text) :=
  do h <- p_head p ;; do w <- header_line (p_depth p) (p_surface p) h ;;
  do ss <- concat_all (map step_lines (p_steps p)) ;; Some (w :: ss).
(** wbp.py:594-640 export, and 643-652 add_comments; [colours] are the colours of
    the targets of the first plan, [comments] the texts after "! ", of which the
    first is the time stamp, [parent] the lines of a parent file *)
Definition export (ps : list plan) (colours : list (option Z)) (comments : list text) (parent : list text)
  : option (list text) :=
  match ps with
  | [] => Some []
  | p :: _ =>
      do de <- p_depth p ;; do su <- p_surface p ;; do u <- unit_key depth_dict de su ;;
      do ts <- concat_all (map target_lines (combine (p_targets p) colours)) ;;
      do bs <- concat_all (map body_lines ps) ;;
      Some ((lit "DEPTH " ++ [u]) :: map (fun c => lit "! " ++ c) comments ++ [lit "TARGETS:"] ++ ts ++
            [lit "WELLPLANS:"] ++ parent ++ bs)
  end.

(** ** strip_duplicates (wbp.py:756-805): the rows (md, inc, azi, radius) kept *)
Definition srow := (R * R * R * R)%type.
Definition row_inc (r : srow) : R := snd (fst (fst r)).
Definition strip_duplicates (rows : list srow) : list srow :=
  match rows with
  | [] => []
  | r :: rs => fst (fold_left (fun '(temp, last) s =>
      if Req_EM_T (row_inc s) (row_inc last) then (temp, last) else (temp ++ [s], s)) rs ([r], r))
  end.
