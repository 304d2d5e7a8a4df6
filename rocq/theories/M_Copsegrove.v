(** Model of /repo/welleng/errors/copsegrove.py, copsegrove_validate.py and
    conformance.py: reading diagnostic files, and the verdicts on formulas.  The
    lines of a file are texts of Latin-1 characters; the numbers read are taken
    exactly.  Evaluating a formula is a parameter (M_Interpreter models it). *)
Require Import Reals ZArith Ascii String List Bool.
Require Import Verif.Base Verif.NumPy Verif.M_Utils Verif.M_DmsText Verif.M_Text Verif.M_Ingest Verif.M_Validate.
Import ListNotations.
Open Scope list_scope.
Local Open Scope nat_scope.

(** ** copsegrove.py:62-71 the two patterns, used with match() *)
Definition upper (c : ascii) : bool := between 65 90 c.
Definition code_char (c : ascii) : bool := (upper c || M_DmsText.digit c || Ascii.eqb c "-")%bool.
Definition unsigned_re : re := Cat (many1 M_DmsText.digit) (Cat (chr ".") (many1 M_DmsText.digit)).
Definition signed_re : re := Cat (Opt (chr "-")) unsigned_re.
Definition blank1 (r : re) : re := Cat (many1 M_DmsText.space) r.
Definition sig_line_re : re :=
  Cat (Many M_DmsText.space) (Cat (Grp 1 (Cat (Cls upper) (Many code_char))) (blank1 (word_re (lit "svy")
    (blank1 (Cat (Grp 2 signed_re) (blank1 (Cat (Grp 3 signed_re) (blank1 (Grp 4 signed_re))))))))).
Definition station_re : re :=
  Cat (Many M_DmsText.space) (Cat (Grp 1 unsigned_re) (blank1 (word_re (lit "Inc:")
    (blank1 (Cat (Grp 2 signed_re) (blank1 (word_re (lit "Az")
      (Cat (Many M_DmsText.space) (word_re (lit "(True):") (blank1 (Grp 3 signed_re))))))))))).
(** float() of such a text *)
Fixpoint until_dot (s : text) : text * text :=
  match s with [] => ([], []) | c :: r => if Ascii.eqb c "." then ([], r) else let '(a, b) := until_dot r in (c :: a, b) end.
Definition unsigned_value (s : text) : R := let '(a, b) := until_dot s in (IZR (int_of (a ++ b)) / 10 ^ length b)%R.
Definition float_value (s : text) : R :=
  match s with c :: r => if Ascii.eqb c "-" then (- unsigned_value r)%R else unsigned_value s | [] => 0%R end.
Definition sigmas := (R * R * R)%type.
Definition sig_match (line : text) : option (text * sigmas) :=
  match run sig_line_re line [] (fun _ c => Some c) with
  | Some c => Some (group 1 c, (float_value (group 2 c), float_value (group 3 c), float_value (group 4 c)))
  | None => None
  end.
Definition station_match (line : text) : option (R * R * R) :=
  match run station_re line [] (fun _ c => Some c) with
  | Some c => Some (float_value (group 1 c), float_value (group 2 c), float_value (group 3 c))
  | None => None
  end.
(** copsegrove.py:31-52 StationDiagnostic *)
Record station := mkStation { st_md : R; st_inc : R; st_azi : R; st_sigmas : list (text * sigmas) }.
(** lines 90-91: labels that are passed over *)
Definition aggregate_labels : list text := map lit ["Sensor"; "Az"; "Magnetic"; "Align"; "Reading"; "Depth"; "Totals"; "Total"]%string.
(** copsegrove.py:74-106 parse_copsegrove, given the lines of the file *)
Fixpoint parse_lines (lines : list text) (pending : list (text * sigmas)) : list station :=
  match lines with
  | [] => []
  | line :: r =>
      match sig_match line with
      | Some (code, v) =>
          if existsb (text_eqb code) aggregate_labels then parse_lines r pending
          else parse_lines r (dput text_eqb code v pending)
      | None =>
          match station_match line with
          | Some (md, inc, azi) => mkStation md inc azi pending :: parse_lines r []
          | None => parse_lines r pending
          end
      end
  end.
Definition parse_copsegrove (lines : list text) : list station := parse_lines lines [].
(** copsegrove.py:114-134 per_term_sigmas *)
Definition per_term_sigmas (stations : list station) (term : text) : list R * list R * list R * list sigmas :=
  fold_right (fun s acc => let '(md, inc, azi, sig) := acc in
    match dget text_eqb term (st_sigmas s) with
    | Some v => (st_md s :: md, st_inc s :: inc, st_azi s :: azi, v :: sig)
    | None => acc
    end) ([], [], [], []) stations.

(** ** copsegrove_validate.py *)
Inductive verdict := MATCH | NEAR_MATCH | DIFFER | DEFERRED | UNKNOWN_PROP | INTERP_FAIL | NOT_IN_COPSEGROVE.
Record json_term := mkJson {
  jt_name : text; jt_value : R; jt_mode : text; jt_depth : text; jt_inc : text; jt_azi : text; jt_unit : option text; jt_wt_fn : option text
}.
Record validation_result := mkResult { vr_name : text; vr_stations : nat; vr_max_abs : ext; vr_verdict : verdict }.
(** max() of a list: y replaces x if y > x, which is false of nan; None = ValueError *)
Definition greater (y x : ext) : bool :=
  match y, x with
  | NaN, _ | _, NaN => false
  | PInf, PInf => false | PInf, _ => true | _, PInf => false
  | NInf, _ => false | _, NInf => true
  | Fin a, Fin b => if Rlt_dec b a then true else false
  end.
Definition py_max (l : list ext) : option ext :=
  match l with [] => None | x :: r => Some (fold_left (fun m y => if greater y m then y else m) r x) end.
Definition eabs (x : ext) : ext := match x with Fin r => Fin (Rabs r) | PInf | NInf => PInf | NaN => NaN end.
(** abs(v - c) with c finite *)
Definition distance_to (c : R) (v : ext) : ext := match v with Fin r => Fin (Rabs (r - c)) | PInf | NInf => PInf | NaN => NaN end.
(** lines 155-178: the differences at the stations that report the term *)
Fixpoint term_diffs (name : text) (mag : R) (stations : list station) (d i a : list ext) : list ext * nat :=
  match stations, d, i, a with
  | s :: ss, dk :: d', ik :: i', ak :: a' =>
      let '(l, n) := term_diffs name mag ss d' i' a' in
      match dget text_eqb name (st_sigmas s) with
      | None => (l, n)
      | Some (hs, lat, ah) =>
          (distance_to hs (scaled_by mag (eabs ik)) :: distance_to lat (scaled_by mag (eabs ak)) ::
           distance_to ah (scaled_by mag (eabs dk)) :: l, S n)
      end
  | _, _, _, _ => ([], 0)
  end.
(** lines 110-205 of validate_random_terms, one term; [eval f] = the values of the
    formula at the stations, None = an exception *)
Definition validate_term (eval : text -> option (list ext)) (stations : list station) (tol : R) (t : json_term) : validation_result :=
  let n := length stations in
  if existsb (text_eqb (jt_mode t)) [lit "Systematic"; lit "Global"; lit "Well"] then mkResult (jt_name t) n NaN DEFERRED
  else if negb (text_eqb (jt_mode t) (lit "Random")) then mkResult (jt_name t) n NaN UNKNOWN_PROP
  else
    match eval (jt_depth t), eval (jt_inc t), eval (jt_azi t) with
    | Some d, Some i, Some a =>
        let '(diffs, compared) := term_diffs (jt_name t) (jt_value t) stations d i a in
        match py_max diffs with
        | None => mkResult (jt_name t) n NaN NOT_IN_COPSEGROVE
        | Some m =>
            mkResult (jt_name t) compared m
              (if at_most m tol then MATCH else if at_most m (5 * tol) then NEAR_MATCH else DIFFER)
        end
    | _, _, _ => mkResult (jt_name t) n NaN INTERP_FAIL
    end.
(** copsegrove_validate.py:52-71 _bindings_for_station is part of [eval], which depends on the stations only *)
Definition validate_random_terms (eval : list station -> text -> option (list ext)) (lines : list text) (terms : list json_term) (tol : R)
  : list validation_result :=
  let stations := parse_copsegrove lines in map (validate_term (eval stations) stations tol) terms.

(** ** conformance.py *)
(** lines 44-50 _MAG_UNIT_TO_BASE and line 163 *)
Definition unit_factor (u : option text) : R :=
  match u with
  | Some t => if existsb (text_eqb t) [lit "deg"; lit "deg/hr"; lit "deg/nT"] then (PI / 180)%R else 1%R
  | None => 1%R
  end.
(** lines 30-35 PROP_MODE_REVERSE and line 165 *)
Definition legacy_mode (m : text) : text :=
  if text_eqb m (lit "Random") then lit "random" else if text_eqb m (lit "Global") then lit "global"
  else if text_eqb m (lit "Well") then lit "well" else lit "systematic".
(** lines 170-171 *)
Definition legacy_fn_name (t : json_term) : text :=
  replace (lit "-") (lit "_") (match jt_wt_fn t with Some (c :: r) => c :: r | _ => jt_name t end).
Inductive term_verdict := INTERP_FAILED | NO_LEGACY | T_MATCH | T_NEAR_MATCH | T_DIFFER.
Record term_result := mkTermResult { tr_name : text; tr_function : text; tr_legacy : bool; tr_interp : bool; tr_max_abs : ext }.
(** a - b on arrays of the values (depth, inclination, azimuth) of every station *)
Definition esub (a b : ext) : ext :=
  match a, b with
  | NaN, _ | _, NaN => NaN
  | Fin x, Fin y => Fin (x - y)
  | PInf, PInf | NInf, NInf => NaN
  | PInf, _ | _, NInf => PInf
  | NInf, _ | _, PInf => NInf
  end.
Fixpoint flat_rows (d i a : list ext) : list ext :=
  match d, i, a with dk :: d', ik :: i', ak :: a' => dk :: ik :: ak :: flat_rows d' i' a' | _, _, _ => [] end.
(** conformance.py:135-196 compare_model, one term; [legacy name fn mag_si mode] = the
    values recorded from the weight function (None: there is no such function or it
    failed), in the order of [flat_rows]; None = ValueError (no stations) *)
Definition compare_term (eval : text -> option (list ext)) (legacy : text -> text -> R -> text -> option (list ext)) (t : json_term) : option term_result :=
  let fn := legacy_fn_name t in
  let mag_si := (jt_value t * unit_factor (jt_unit t))%R in
  match eval (jt_depth t), eval (jt_inc t), eval (jt_azi t) with
  | Some d, Some i, Some a =>
      let interp := map (scaled_by mag_si) (flat_rows d i a) in
      match legacy (jt_name t) fn mag_si (legacy_mode (jt_mode t)) with
      | None => Some (mkTermResult (jt_name t) fn false true NaN)
      | Some l =>
          match np_max (map (fun xy => eabs (esub (fst xy) (snd xy))) (combine l interp)) with
          | None => None
          | Some m => Some (mkTermResult (jt_name t) fn true true m)
          end
      end
  | _, _, _ => Some (mkTermResult (jt_name t) fn false false NaN)
  end.
(** x < tol *)
Definition below (x : ext) (tol : R) : bool := match x with Fin r => if Rlt_dec r tol then true else false | NInf => true | PInf | NaN => false end.
(** conformance.py:227-236 _classify *)
Definition classify (r : term_result) : term_verdict :=
  if negb (tr_interp r) then INTERP_FAILED
  else if negb (tr_legacy r) then NO_LEGACY
  else if below (tr_max_abs r) (1 / 10 ^ 10) then T_MATCH
  else if below (tr_max_abs r) (1 / 10 ^ 6) then T_NEAR_MATCH
  else T_DIFFER.
