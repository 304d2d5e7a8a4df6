(** Vocabulary for the conversion of tool workbooks. *)
Require Import Reals ZArith Bool Ascii String List.
Require Import Verif.Base Verif.M_Owsg.
Import ListNotations.
Local Open Scope R_scope.

(** a row of the table of terms: it has a number, and a code that is not empty *)
Definition a_term (show : R -> string) (r : row) : Prop :=
  (exists x, r_no r = Number x) /\ ((exists x, r_code r = Number x /\ show x <> ""%string) \/ exists s, r_code r = Words s /\ s <> ""%string).
(** the text of a cell *)
Definition text_of (show : R -> string) (c : cell) (s : string) : Prop :=
  (c = Empty /\ s = ""%string) \/ (exists x, c = Number x /\ s = show x) \/ c = Words s.
(** a formula: nothing is 0 *)
Definition formula_of (plain : R -> string) (strip : string -> string) (c : cell) (s : string) : Prop :=
  (c = Empty /\ s = "0"%string) \/ (exists x, c = Number x /\ s = plain x) \/ exists t, c = Words t /\ s = strip t.
(** a formula for a singular direction: nothing and 0 are none *)
Definition singular_of (show : R -> string) (strip : string -> string) (c : cell) (s : option string) : Prop :=
  (s = None /\ (c = Empty \/ c = Number 0)) \/
  (exists x, c = Number x /\ x <> 0 /\ s = Some (strip (show x))) \/ exists t, c = Words t /\ s = Some (strip t).
(** a whole number: nothing is 0, and decimals are cut off *)
Definition whole_of (read_int : string -> option Z) (c : cell) (n : Z) : Prop :=
  (c = Empty /\ n = 0%Z) \/ (exists t, c = Words t /\ read_int t = Some n) \/
  exists x, c = Number x /\ ((0 <= x /\ IZR n <= x < IZR n + 1) \/ (x < 0 /\ IZR n - 1 < x <= IZR n)).
(** the size of an error: nothing and a text that is not a number are 0 *)
Definition size_of (read_float : string -> option R) (c : cell) (x : R) : Prop :=
  c = Number x \/ (c = Empty /\ x = 0) \/
  exists t, c = Words t /\ (read_float t = Some x \/ (read_float t = None /\ x = 0)).
(** the four ways of propagation, by letter; anything else stays as it is *)
Inductive propagates : string -> string -> Prop :=
| p_random : propagates "R" "Random"
| p_systematic : propagates "S" "Systematic"
| p_global : propagates "G" "Global"
| p_well : propagates "W" "Well"
| p_other : forall s, ~ In s ["R"; "S"; "G"; "W"]%string -> propagates s s.
(** what a row of the table is turned into *)
Definition term_of show plain strip read_float read_int (r : row) (t : jterm) : Prop :=
  text_of show (r_code r) (j_name t) /\ text_of show (r_function r) (j_function t) /\ size_of read_float (r_magnitude r) (j_value t) /\
  text_of show (r_units r) (j_units t) /\ whole_of read_int (r_p1 r) (j_p1 t) /\ whole_of read_int (r_p2 r) (j_p2 t) /\
  whole_of read_int (r_p3 r) (j_p3 t) /\ (exists p, text_of show (r_prop r) p /\ propagates p (j_mode t)) /\
  formula_of plain strip (r_depth r) (j_depth t) /\ formula_of plain strip (r_inc r) (j_inc t) /\ formula_of plain strip (r_azi r) (j_azi t) /\
  singular_of show strip (r_north r) (j_north t) /\ singular_of show strip (r_east r) (j_east t) /\ singular_of show strip (r_vert r) (j_vert t).
(** [ys] are the members of [xs] that satisfy [P], in their order *)
Inductive picked {A} (P : A -> Prop) : list A -> list A -> Prop :=
| picked_none : picked P [] []
| picked_yes : forall x xs ys, P x -> picked P xs ys -> picked P (x :: xs) (x :: ys)
| picked_no : forall x xs ys, ~ P x -> picked P xs ys -> picked P (x :: xs) ys.
(** what is warned about *)
Definition warned (show : R -> string) (read_float : string -> option R) (r : row) (w : warning) : Prop :=
  exists code, text_of show (r_code r) code /\
  ((exists u, text_of show (r_units r) u /\ ~ In u ["m"; "1/m"; "nT"; "m/s2"; "deg"; "deg/nT"; "deg/hr"; "rad"]%string /\ w = UnknownUnit code u) \/
   (exists p, text_of show (r_prop r) p /\ ~ In p ["R"; "S"; "G"; "W"]%string /\ w = UnknownMode code p) \/
   (exists t, r_magnitude r = Words t /\ read_float t = None /\ w = NotANumber code t)).
(** a character that a file name keeps: a letter or digit of ASCII or one of _ + - . *)
Definition plain_character (c : ascii) : Prop :=
  let n := nat_of_ascii c in ((65 <= n <= 90) \/ (97 <= n <= 122) \/ (48 <= n <= 57) \/ In c ["_"; "+"; "-"; "."]%char)%nat.
(** characters that become the same one *)
Definition alike (a b : ascii) : Prop :=
  let blank c := c = "_"%char \/ ~ plain_character c in a = b \/ (blank a /\ blank b).
(** a sheet with a table of terms, whose name gives this file name *)
Definition a_tool (sheet : list ascii * list row) : Prop := exists r x, In r (snd sheet) /\ r_no r = Number x.
(** the last member with the property *)
Definition last_such {A} (P : A -> Prop) (l : list A) (x : A) : Prop :=
  exists before after, l = before ++ x :: after /\ P x /\ forall y, In y after -> ~ P y.
(** the file of a sheet: its name, with _ for every other character, and .json *)
Definition file_named (sheet f : list ascii) : Prop :=
  exists g, f = (g ++ list_ascii_of_string ".json")%list /\
    Forall2 (fun c d => (plain_character c /\ d = c) \/ (~ plain_character c /\ d = "_"%char)) sheet g.
(** a directory as the list of its files: what the file [f] holds *)
Definition file_is {J} (d : list (list ascii * J)) (f : list ascii) (j : J) : Prop :=
  exists before after, d = (before ++ (f, j) :: after)%list /\ forall x, In x before -> fst x <> f.
(** the whole degrees a cell states, decimals of a number cut off; and a cell that states none *)
Definition degrees_of (read_deg : string -> option Z) (c : cell) (n : Z) : Prop :=
  (exists t, c = Words t /\ read_deg t = Some n) \/
  exists x, c = Number x /\ ((0 <= x /\ IZR n <= x < IZR n + 1) \/ (x < 0 /\ IZR n - 1 < x <= IZR n)).
Definition unstated (read_deg : string -> option Z) (c : cell) : Prop := c = Empty \/ exists t, c = Words t /\ read_deg t = None.
