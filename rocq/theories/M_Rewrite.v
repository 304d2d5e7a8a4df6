(** Model of welleng/errors/interpreter.py:34-64: an Excel formula as a Python one.
    Texts have characters below 256. *)
Require Import Ascii String List Bool Arith.
Require Import Verif.M_DmsText Verif.M_Text.
Import ListNotations.
Open Scope list_scope.

(** \w: letters, digits and numbers of Latin-1, and the underscore *)
Definition word_char (c : ascii) : bool :=
  let n := nat_of_ascii c in
  ((48 <=? n) && (n <=? 57) || (65 <=? n) && (n <=? 90) || (97 <=? n) && (n <=? 122) || (n =? 95)
   || existsb (Nat.eqb n) [170; 178; 179; 181; 185; 186; 188; 189; 190]
   || (192 <=? n) && negb (n =? 215) && negb (n =? 247))%nat%bool.
(** the length of the blanks and the bracket at the start: \s*\( *)
Fixpoint bracket_at (s : text) : option nat :=
  match s with
  | [] => None
  | c :: r => if Ascii.eqb c "(" then Some 1 else if is_space c then option_map S (bracket_at r) else None
  end.
(** the length of the match of excel\s*\( at the start *)
Fixpoint match_at (excel s : text) : option nat :=
  match excel, s with
  | [], _ => bracket_at s
  | a :: e, c :: r => if Ascii.eqb a c then option_map S (match_at e r) else None
  | _ :: _, [] => None
  end.
(** re.sub(rf"\b{excel}\s*\(", f"{py}(", s): [inside] says whether the character before
    is a word character, so that there is no \b before a name; [skip] counts the
    characters of the last match still to be passed over *)
Fixpoint sub (excel py : text) (inside : bool) (skip : nat) (s : text) : text :=
  match s with
  | [] => []
  | c :: r =>
    match skip with
    | S k => sub excel py (word_char c) k r
    | O =>
      match (if inside then None else match_at excel s) with
      | Some n => py ++ "("%char :: sub excel py (word_char c) (pred n) r
      | None => c :: sub excel py (word_char c) O r
      end
    end
  end.
(** interpreter.py:34-44 _EXCEL_FUNCS *)
Definition excel_funcs : list (text * text) :=
  map (fun p => (lit (fst p), lit (snd p)))
  [("Sin", "sin"); ("Cos", "cos"); ("Tan", "tan"); ("Asin", "asin"); ("Acos", "acos"); ("Atan", "atan"); ("Abs", "abs");
   ("Sqr", "sqrt"); ("Sqrt", "sqrt"); ("Exp", "exp"); ("Log", "log"); ("Max", "maximum"); ("Min", "minimum")]%string.
(** s.replace("^", "**") *)
Definition powers (s : text) : text := flat_map (fun c => if Ascii.eqb c "^" then ["*"; "*"]%char else [c]) s.
(** interpreter.py:47-64 *)
Definition rewrite_excel (formula : text) : text :=
  powers (fold_left (fun s p => sub (fst p) (snd p) false 0 s) excel_funcs formula).
