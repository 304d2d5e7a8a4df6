(** Vocabulary for diagnostic files and the verdicts on formulas. *)
Require Import Reals ZArith Ascii String List Bool.
Require Import Verif.Base Verif.NumPy Verif.M_Utils Verif.M_Text Verif.Spec_Text Verif.M_Ingest Verif.Spec_Ingest Verif.M_Validate Verif.Spec_Validate Verif.M_Copsegrove.
Import ListNotations.
Open Scope list_scope.
Local Open Scope nat_scope.

(** ** lines *)
Definition gap_text (q : text) : Prop := q <> [] /\ blanks q.
Definition is_upper (c : ascii) : Prop := 65 <= nat_of_ascii c <= 90.
(** a code: a capital letter, then capital letters, digits and hyphens *)
Definition code_text (s : text) : Prop :=
  exists c r, s = c :: r /\ is_upper c /\ Forall (fun a => is_upper a \/ is_digit a \/ a = "-"%char) r.
Definition no_digit_first (s : text) : Prop := forall c r, s = c :: r -> ~ is_digit c.
Definition unsigned_decimal (s : text) (r : R) : Prop := decimal s r /\ ~ exists t, s = minus :: t.
(** "CODE svy 0.1 -0.2 0.3 ...": the code and the first three numbers *)
Definition sig_line (line code : text) (v : sigmas) : Prop :=
  exists p q1 q2 q3 q4 x y z rest,
    line = p ++ code ++ q1 ++ lit "svy" ++ q2 ++ x ++ q3 ++ y ++ q4 ++ z ++ rest /\
    blanks p /\ gap_text q1 /\ gap_text q2 /\ gap_text q3 /\ gap_text q4 /\ code_text code /\ no_digit_first rest /\
    decimal x (fst (fst v)) /\ decimal y (snd (fst v)) /\ decimal z (snd v).
(** "30.00 Inc: 0.00 Az (True): 0.00 ...": depth, inclination and azimuth *)
Definition station_line (line : text) (md inc azi : R) : Prop :=
  exists p q1 q2 q3 q4 q5 x y z rest,
    line = p ++ x ++ q1 ++ lit "Inc:" ++ q2 ++ y ++ q3 ++ lit "Az" ++ q4 ++ lit "(True):" ++ q5 ++ z ++ rest /\
    blanks p /\ gap_text q1 /\ gap_text q2 /\ gap_text q3 /\ blanks q4 /\ gap_text q5 /\ no_digit_first rest /\
    unsigned_decimal x md /\ decimal y inc /\ decimal z azi.

(** ** files: the lines up to a station line belong to that station *)
Definition last_sigmas (lines : list text) (code : text) (v : sigmas) : Prop :=
  exists a l b, lines = a ++ l :: b /\ sig_line l code v /\ forall l' v', In l' b -> ~ sig_line l' code v'.
Definition is_station_line (l : text) : Prop := exists md inc azi, station_line l md inc azi.
Inductive stations_in : list text -> list station -> Prop :=
| no_more : forall lines, (forall l, In l lines -> ~ is_station_line l) -> stations_in lines []
| next_station : forall before line after st sts, (forall l, In l before -> ~ is_station_line l) ->
    station_line line (st_md st) (st_inc st) (st_azi st) -> NoDup (map fst (st_sigmas st)) ->
    (forall code v, dget text_eqb code (st_sigmas st) = Some v <-> last_sigmas before code v) ->
    stations_in after sts -> stations_in (before ++ line :: after) (st :: sts).

(** ** verdicts *)
(** the value of a formula at a station, times the magnitude, beside the sigma of the file:
    inclination with high side, azimuth with lateral, depth with along hole *)
Definition reading (name : text) (stations : list station) (d i a : list ext) (v : ext) (s : R) : Prop :=
  exists k st hs lat ah, nth_error stations k = Some st /\ dget text_eqb name (st_sigmas st) = Some (hs, lat, ah) /\
    ((nth_error i k = Some v /\ s = hs) \/ (nth_error a k = Some v /\ s = lat) \/ (nth_error d k = Some v /\ s = ah)).
(** the first value compared *)
Definition first_reading (name : text) (stations : list station) (i : list ext) (v : ext) : Prop :=
  exists k st, nth_error stations k = Some st /\ (exists w, dget text_eqb name (st_sigmas st) = Some w) /\ nth_error i k = Some v /\
    forall j st', j < k -> nth_error stations j = Some st' -> dget text_eqb name (st_sigmas st') = None.
Definition mentioned (name : text) (stations : list station) : Prop := exists st v, In st stations /\ dget text_eqb name (st_sigmas st) = Some v.
Definition one_each (stations : list station) (l : list ext) : Prop := length l = length stations.
(** [v] times [mag] is a number within [tol] of [s] *)
Definition near (mag tol : R) (v : ext) (s : R) : Prop := exists x, v = Fin x /\ (Rabs (Rabs x * mag - s) <= tol)%R.
(** [v] times [mag] is not a number: nan, or an infinite value times zero *)
Definition undefined (mag : R) (v : ext) : Prop := v = NaN \/ (mag = 0%R /\ (v = PInf \/ v = NInf)).
(** all values compared are near, as far as they are defined; the first one is defined *)
Definition all_near (name : text) (mag tol : R) (stations : list station) (d i a : list ext) : Prop :=
  (forall v s, reading name stations d i a v s -> ~ undefined mag v -> near mag tol v s) /\
  (forall v, first_reading name stations i v -> ~ undefined mag v).
(** the values of the three formulas of a term *)
Definition values_of (eval : text -> option (list ext)) (t : json_term) (d i a : list ext) : Prop :=
  eval (jt_depth t) = Some d /\ eval (jt_inc t) = Some i /\ eval (jt_azi t) = Some a.
Definition evaluated (eval : text -> option (list ext)) (t : json_term) : Prop := exists d i a, values_of eval t d i a.
Definition deferred_mode (m : text) : Prop := m = lit "Systematic" \/ m = lit "Global" \/ m = lit "Well".
(** a random term whose formulas can be evaluated and which the file mentions *)
Definition compared (eval : text -> option (list ext)) (stations : list station) (t : json_term) (d i a : list ext) : Prop :=
  jt_mode t = lit "Random" /\ values_of eval t d i a /\ mentioned (jt_name t) stations.
(** how many stations mention a term *)
Inductive mentions (name : text) : list station -> nat -> Prop :=
| mentions_none : mentions name [] 0
| mentions_yes : forall s ss n v, dget text_eqb name (st_sigmas s) = Some v -> mentions name ss n -> mentions name (s :: ss) (S n)
| mentions_no : forall s ss n, dget text_eqb name (st_sigmas s) = None -> mentions name ss n -> mentions name (s :: ss) n.

(** the differences of the values compared *)
Definition difference (name : text) (mag : R) (stations : list station) (d i a : list ext) (y : R) : Prop :=
  exists x s, reading name stations d i a (Fin x) s /\ y = Rabs (Rabs x * mag - s).

(** ** weight functions *)
(** entry [k] of three columns laid out row by row *)
Definition row_entry (d i a : list ext) (k : nat) (v : ext) : Prop :=
  exists n, (k = 3 * n /\ nth_error d n = Some v) \/ (k = 3 * n + 1 /\ nth_error i n = Some v) \/ (k = 3 * n + 2 /\ nth_error a n = Some v).
(** every number recorded from the weight function is closer than [tol] to the formula's *)
Definition agrees (tol mag : R) (d i a l : list ext) : Prop :=
  forall k v w, row_entry d i a k v -> nth_error l k = Some w -> exists x y, v = Fin x /\ w = Fin y /\ (Rabs (y - x * mag) < tol)%R.
Definition row_difference (mag : R) (d i a l : list ext) (y : R) : Prop :=
  exists k x w, row_entry d i a k (Fin x) /\ nth_error l k = Some (Fin w) /\ y = Rabs (w - x * mag).
Definition finite (l : list ext) : Prop := Forall (fun v => exists x, v = Fin x) l.
Definition in_radians (u : option text) (v si : R) : Prop :=
  ((u = Some (lit "deg") \/ u = Some (lit "deg/hr") \/ u = Some (lit "deg/nT")) /\ si = (v * (PI / 180))%R) \/
  (~ (u = Some (lit "deg") \/ u = Some (lit "deg/hr") \/ u = Some (lit "deg/nT")) /\ si = v).
(** the name of the weight function: the one given, else the name of the term; underscores for hyphens *)
Definition underscored (s t : text) : Prop :=
  Forall2 (fun a b => (a = "-"%char /\ b = "_"%char) \/ (a <> "-"%char /\ b = a)) s t.
Definition function_name (t : json_term) (fn : text) : Prop :=
  exists s, underscored s fn /\ ((jt_wt_fn t = Some s /\ s <> []) \/ ((jt_wt_fn t = None \/ jt_wt_fn t = Some []) /\ s = jt_name t)).
Definition mode_name (m n : text) : Prop :=
  (m = lit "Random" /\ n = lit "random") \/ (m = lit "Global" /\ n = lit "global") \/ (m = lit "Well" /\ n = lit "well") \/
  (m <> lit "Random" /\ m <> lit "Global" /\ m <> lit "Well" /\ n = lit "systematic").

(** ** a file for the claims that fail: one line of sigmas and one station *)
Definition demo_lines : list text := [lit "AB svy 0.0 0.5 0.25 9.9"; lit "30.00 Inc: 1.5 Az (True): -2.0 TF: 0.0"].
Definition demo_term : json_term := mkJson (lit "AB") 1 (lit "Random") (lit "D") (lit "I") (lit "A") None None.
(** formulas with the values given *)
Definition demo_values (d i a : ext) (f : text) : option (list ext) :=
  if text_eqb f (lit "D") then Some [d] else if text_eqb f (lit "I") then Some [i] else if text_eqb f (lit "A") then Some [a] else None.
