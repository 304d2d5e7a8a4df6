(** Vocabulary of the .wbp properties. *)
Require Import Reals ZArith Ascii String List Bool.
Require Import Verif.M_Text Verif.Spec_Text Verif.M_Wbp.
Import ListNotations.
Local Open Scope nat_scope.

(** ** Lines *)
(** the first word of a line *)
Definition begins (l : text) (w : string) : Prop := exists ws, words l = lit w :: ws.
Definition section_line (l : text) : Prop := begins l "DEPTH" \/ begins l "TARGETS:" \/ begins l "WELLPLANS:".
Definition blank (l : text) : Prop := words l = [].
(** a line that starts a plan: W, alone or before a colon *)
Definition plan_line (l : text) : bool :=
  match split_on colon l with f :: _ => text_eqb f (lit "W") | [] => false end.
(** the lines before the first plan leave no open TARGETS section *)
Definition targets_closed (front : list text) : Prop :=
  Forall (fun l => ~ begins l "TARGETS:") front \/
  exists a s b, front = a ++ s :: b /\ (begins s "DEPTH" \/ begins s "WELLPLANS:") /\ Forall (fun l => ~ begins l "TARGETS:") b.
(** [ps] are the plans of consecutive blocks of lines, each read on its own, with
    the units of the plan before and the colour left by the blocks before *)
Inductive read_blocks (rd : reader) : option unit -> option unit -> cell -> list (list text) -> list plan -> cell -> Prop :=
| rb_last : forall d s c b p c', load_loop 1 rd d s c b = Plans [p] c' -> read_blocks rd d s c [b] [p] c'
| rb_cons : forall d s c b p c' bs ps c'', load_loop 1 rd d s c b = Plans [p] c' ->
    read_blocks rd (p_depth p) (p_surface p) c' bs ps c'' -> read_blocks rd d s c (b :: bs) (p :: ps) c''.

(** ** What writing and reading back preserves *)
(** the conversion of text to numbers understands decimal notation *)
Definition reads_numbers (rd : reader) : Prop :=
  (forall s r, decimal s r -> to_float rd s = Some r) /\
  (forall s z, decimal_int (strip s) z -> to_int rd s = Some z).
(** a header that fits the columns *)
Definition fits (n : nat) (s : text) : Prop := trimmed s /\ length s <= n.
Definition text_or_blank (o : option text) : text := match o with Some s => s | None => [] end.
Definition blank_none (s : text) : option text := match s with [] => None | _ => Some s end.
Record header_fits (h : header) : Prop := {
  hf_type : In (h_type h) (map snd type_dict);
  hf_method : In (h_method h) (map snd method_dict);
  hf_dirty : exists d, h_dirty h = Some d /\ In d (map snd dirty_dict);
  hf_side : exists s, h_sidetrack h = Some s /\ fits 7 s;
  hf_name : fits 60 (text_or_blank (h_name h));
  hf_parent : fits 60 (text_or_blank (h_parent h));
  hf_dls : exists x, h_dls h = Some x /\ length (fixed 2 x) <= 6;
  hf_ext : exists x, h_ext h = Some x /\ length (fixed 5 x) <= 8 }.
(** the header that comes back: blank texts are None, numbers are rounded, no kick-off dls *)
Definition header_back (h h' : header) : Prop :=
  h_type h' = h_type h /\ h_method h' = h_method h /\ h_dirty h' = h_dirty h /\
  h_sidetrack h' = blank_none (text_or_blank (h_sidetrack h)) /\
  h_name h' = blank_none (text_or_blank (h_name h)) /\ h_parent h' = blank_none (text_or_blank (h_parent h)) /\
  (forall x, h_dls h = Some x -> h_dls h' = Some (rounded 2 x)) /\
  (forall x, h_ext h = Some x -> h_ext h' = Some (rounded 5 x)) /\ h_kick h' = None.
(** a location whose columns do not run into each other *)
Definition loc_fits (q : loc) : Prop := let '(x, y, z) := q in length (fixed 2 y) <= 12 /\ length (fixed 2 z) <= 10.
Definition loc_round (q : loc) : loc := let '(x, y, z) := q in (rounded 2 x, rounded 2 y, rounded 2 z).
Definition word_or_none (o : option text) : Prop := match o with Some w => token w /\ no_colon w | None => True end.
(** a step in a position of a plan ([first]: the tie-on) that can be written and read *)
Definition step_fits (first : bool) (s : step) : Prop :=
  match s with
  | Turn t => t_tie t = first /\ (exists q, t_loc t = Some q /\ loc_fits q) /\
      (if first then t_method t = None /\ t_target t = None else word_or_none (t_method t) /\ word_or_none (t_target t))
  | Point p => length (x_nums p) = 9 /\ (exists ws, Forall token ws /\ x_tool p = join [space] ws) /\
      (exists st, x_sta p = Some st) /\ exists q, x_loc p = Some q /\ loc_fits q
  end.
Definition face_round (x : R) : R := if Rlt_dec x (-99) then rounded 2 x else rounded 3 x.
(** the step that comes back: numbers are rounded, a missing method is 0 *)
Definition step_round (s : step) : step :=
  match s with
  | Turn t => Turn (mkTurn (rounded 2 (t_md t)) (rounded 3 (t_azi t)) (rounded 3 (t_inc t)) (rounded 3 (t_build t))
      (rounded 3 (t_turn t)) (rounded 3 (t_dls t)) (face_round (t_face t))
      (if t_tie t then None else Some (match t_method t with Some m => m | None => lit "0" end)) (t_target t) (t_tie t)
      (option_map loc_round (t_loc t)))
  | Point p => Point (mkPoint (map (rounded 1) (firstn 6 (x_nums p)) ++ map (rounded 2) (skipn 6 (x_nums p))) (x_tool p)
      (option_map (fun '(md, azi, inc) => (rounded 2 md, rounded 3 azi, rounded 3 inc)) (x_sta p)) (option_map loc_round (x_loc p)))
  end.
Fixpoint steps_fit (first : bool) (l : list step) : Prop :=
  match l with [] => True | s :: r => step_fits first s /\ steps_fit false r end.
Definition target_fits (t : target) : Prop :=
  no_colon (fst t) /\ no_trailing (fst t) /\ exists q, snd t = Some q /\ loc_fits q.
Definition colour_fits (c : option Z) : Prop := exists z, c = Some z /\ length (show_int z) <= 3.
Definition target_round (t : target) : target := (fst t, option_map loc_round (snd t)).
Definition plan_fits (p : plan) : Prop :=
  p_depth p <> None /\ p_surface p <> None /\ (exists h, p_head p = Some h /\ header_fits h) /\ steps_fit true (p_steps p).
(** the plan [p'] is [p] read back in a file with units [d], [s] *)
Definition plan_back (d s : option unit) (p p' : plan) : Prop :=
  p_depth p' = d /\ p_surface p' = s /\ p_steps p' = map step_round (p_steps p) /\
  exists h h', p_head p = Some h /\ p_head p' = Some h' /\ header_back h h'.
(** the shared colour after the colour lines of a file *)
Definition last_colour (cs : list (option Z)) (c : cell) : cell := match cs with [] => c | _ => mkCell (last cs None) (c_text c) end.

(** ** strip_duplicates *)
(** [kept] are the first row and every row whose inclination differs from that of the row before *)
Inductive changes : list srow -> list srow -> Prop :=
| ch_nil : changes [] []
| ch_one : forall r, changes [r] [r]
| ch_same : forall rs r s kept, changes (rs ++ [r]) kept -> row_inc s = row_inc r -> changes (rs ++ [r; s]) kept
| ch_new : forall rs r s kept, changes (rs ++ [r]) kept -> row_inc s <> row_inc r -> changes (rs ++ [r; s]) (kept ++ [s]).

(** ** Writing that fails *)
(** a number is one word: float() raises on inner blanks *)
Definition one_word (rd : reader) : Prop := forall s, length (words s) <> 1 -> to_float rd s = None.
(** a header that can be written *)
Definition writable (h : header) : Prop :=
  In (h_type h) (map snd type_dict) /\ In (h_method h) (map snd method_dict) /\
  (exists d, h_dirty h = Some d /\ In d (map snd dirty_dict)) /\
  h_sidetrack h <> None /\ h_dls h <> None /\ h_ext h <> None.
(** fits, but for a plan name [k] characters too long *)
Definition name_too_long (k : nat) (h : header) : Prop :=
  writable h /\ (exists s, h_sidetrack h = Some s /\ length s <= 7) /\
  (exists n, h_name h = Some n /\ length n = 60 + k) /\ length (text_or_blank (h_parent h)) <= 60 /\
  (exists x, h_dls h = Some x /\ length (fixed 2 x) <= 6).
(** the first field of a line *)
Definition field (l : text) (s : string) : Prop := exists fs, split_on colon l = lit s :: fs.

(** ** Survey data of a step *)
(** [x'] is [x] with the depth, azimuth and inclination of a line of survey data *)
Definition with_station (md azi inc : R) (x x' : step) : Prop :=
  match x, x' with
  | Turn t, Turn u => t_md u = md /\ t_azi u = azi /\ t_inc u = inc /\ t_build u = t_build t /\ t_turn u = t_turn t /\ t_dls u = t_dls t /\
      t_face u = t_face t /\ t_method u = t_method t /\ t_target u = t_target t /\ t_tie u = t_tie t /\ t_loc u = t_loc t
  | Point p, Point q => x_sta q = Some (md, azi, inc) /\ x_nums q = x_nums p /\ x_tool q = x_tool p /\ x_loc q = x_loc p
  | _, _ => False
  end.
