(** Vocabulary for texts and decimal notation. *)
Require Import Reals ZArith Ascii String List Bool.
Require Import Verif.M_Text.
Import ListNotations.
Local Open Scope nat_scope.

(** a word: not empty, no white space in it *)
Definition token (w : text) : Prop := w <> [] /\ Forall (fun c => is_space c = false) w.
Definition no_colon (s : text) : Prop := ~ In colon s.
(** no white space at the right end *)
Definition no_trailing (s : text) : Prop := s = [] \/ is_space (last s space) = false.
(** no white space at either end *)
Definition trimmed (s : text) : Prop := s = [] \/ (is_space (hd space s) = false /\ is_space (last s space) = false).

Definition is_digit (c : ascii) : Prop := 48 <= nat_of_ascii c <= 57.
Definition digit_value (c : ascii) : Z := Z.of_nat (nat_of_ascii c - 48).
Definition digits_value (s : text) : Z := fold_left (fun a c => (10 * a + digit_value c)%Z) s 0%Z.
(** plain decimal notation of a number: optional minus, digits, a point, digits *)
Definition decimal (s : text) (r : R) : Prop :=
  exists (neg : bool) (ip fp : text), ip <> [] /\ fp <> [] /\ Forall is_digit ip /\ Forall is_digit fp /\
    s = (if neg then [minus] else []) ++ ip ++ [dot_char] ++ fp /\
    r = ((if neg then -1 else 1) * (IZR (digits_value (ip ++ fp)) / 10 ^ length fp))%R.
(** plain notation of an integer *)
Definition decimal_int (s : text) (z : Z) : Prop :=
  exists (neg : bool) (ip : text), ip <> [] /\ Forall is_digit ip /\
    s = (if neg then [minus] else []) ++ ip /\ z = ((if neg then -1 else 1) * digits_value ip)%Z.
