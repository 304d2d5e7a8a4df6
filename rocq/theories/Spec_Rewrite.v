(** Vocabulary for rewriting formulas. *)
Require Import Ascii String List.
Require Import Verif.M_DmsText Verif.M_Text Verif.M_Rewrite.
Import ListNotations.
Open Scope list_scope.

Definition a_word (w : text) : Prop := w <> [] /\ Forall (fun c => word_char c = true) w.
Definition starts_word (s : text) : Prop := exists c r, s = c :: r /\ word_char c = true.
Definition all_space (b : text) : Prop := Forall (fun c => is_space c = true) b.
(** an opening bracket comes next, perhaps after blanks *)
Definition opens (s : text) : Prop := exists b r, s = b ++ "("%char :: r /\ all_space b.
Definition functions : list (text * text) :=
  [(lit "Sin", lit "sin"); (lit "Cos", lit "cos"); (lit "Tan", lit "tan"); (lit "Asin", lit "asin"); (lit "Acos", lit "acos");
   (lit "Atan", lit "atan"); (lit "Abs", lit "abs"); (lit "Sqr", lit "sqrt"); (lit "Sqrt", lit "sqrt"); (lit "Exp", lit "exp");
   (lit "Log", lit "log"); (lit "Max", lit "maximum"); (lit "Min", lit "minimum")].
(** word by word: a whole word that is a function of [T] and is followed by a bracket
    gets its other name, blanks before the bracket are dropped; ^ becomes **; all
    else is copied *)
Inductive rewritten (T : list (text * text)) : text -> text -> Prop :=
| rw_end : rewritten T [] []
| rw_call : forall w py b s t, a_word w -> In (w, py) T -> all_space b -> rewritten T s t ->
    rewritten T (w ++ b ++ "("%char :: s) (py ++ "("%char :: t)
| rw_word : forall w s t, a_word w -> ~ starts_word s -> ~ (opens s /\ exists py, In (w, py) T) -> rewritten T s t ->
    rewritten T (w ++ s) (w ++ t)
| rw_power : forall s t, rewritten T s t -> rewritten T ("^"%char :: s) ("*"%char :: "*"%char :: t)
| rw_other : forall c s t, word_char c = false -> c <> "^"%char -> rewritten T s t -> rewritten T (c :: s) (c :: t).
