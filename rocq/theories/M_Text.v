(** Text operations of python used by welleng/exchange/wbp.py: str.split, str.strip,
    slices, the alignment and fixed-point format specifications.

    A text is a list of characters with code points below 256. *)
Require Import Reals ZArith Ascii String List Bool.
Require Import Verif.Base Verif.M_Clearance.
Import ListNotations.
Open Scope list_scope.
Local Open Scope nat_scope.

Definition text := list ascii.
Definition lit (s : string) : text := list_ascii_of_string s.
Definition text_eqb (a b : text) : bool := if list_eq_dec ascii_dec a b then true else false.
Definition space : ascii := ascii_of_nat 32.
Definition colon : ascii := ascii_of_nat 58.
Definition minus : ascii := ascii_of_nat 45.
Definition dot_char : ascii := ascii_of_nat 46.

(** str.isspace for one character *)
Definition is_space (c : ascii) : bool :=
  let n := nat_of_ascii c in
  ((9 <=? n) && (n <=? 13) || (28 <=? n) && (n <=? 32) || (n =? 133) || (n =? 160))%bool.
(** str.lstrip(), str.rstrip(), str.strip() *)
Fixpoint lstrip (s : text) : text :=
  match s with [] => [] | c :: r => if is_space c then lstrip r else s end.
Definition rstrip (s : text) : text := rev (lstrip (rev s)).
Definition strip (s : text) : text := rstrip (lstrip s).
(** str.split(): the maximal runs of non-space characters *)
Fixpoint words (s : text) : list text :=
  match s with
  | [] => []
  | c :: r =>
      if is_space c then words r
      else match r with
           | [] => [[c]]
           | d :: _ => if is_space d then [c] :: words r
                       else match words r with w :: ws => (c :: w) :: ws | [] => [[c]] end
           end
  end.
(** str.split(sep) for a one-character separator *)
Fixpoint split_on (sep : ascii) (s : text) : list text :=
  match s with
  | [] => [[]]
  | c :: r =>
      if Ascii.eqb c sep then [] :: split_on sep r
      else match split_on sep r with f :: fs => (c :: f) :: fs | [] => [[c]] end
  end.
(** " ".join *)
Fixpoint join (sep : text) (l : list text) : text :=
  match l with [] => [] | [a] => a | a :: r => a ++ sep ++ join sep r end.
(** s[a:b] for 0 <= a <= b, and s[a] (None = IndexError) *)
Definition slice (a b : nat) (s : text) : text := firstn (b - a) (skipn a s).
Definition char_at (a : nat) (s : text) : option ascii := nth_error s a.
(** the format specifications >n and <n *)
Definition rjust (n : nat) (s : text) : text := repeat space (n - length s) ++ s.
Definition ljust (n : nat) (s : text) : text := s ++ repeat space (n - length s).

(** decimal digits *)
Definition digit (n : Z) : ascii := ascii_of_nat (48 + Z.to_nat n).
Fixpoint digits_fuel (fuel : nat) (n : Z) : text :=
  match fuel with
  | O => [digit n]
  | S f => if (n <? 10)%Z then [digit n] else digits_fuel f (n / 10) ++ [digit (n mod 10)]
  end.
Definition digits (n : Z) : text := digits_fuel (Z.to_nat (Z.log2 n)) n.
Definition zero_char : ascii := ascii_of_nat 48.
Definition zpad (n : nat) (s : text) : text := repeat zero_char (n - length s) ++ s.
(** str of an integer *)
Definition show_int (z : Z) : text := if (z <? 0)%Z then minus :: digits (- z) else digits z.
(** the format specification .df for d > 0: the value rounded to [d] decimals,
    half to even; [x] is the exact value of the float *)
Definition scaled (d : nat) (x : R) : Z := rint (Rabs x * 10 ^ d)%R.
Definition fixed (d : nat) (x : R) : text :=
  (if Rlt_dec x 0 then [minus] else []) ++
  digits (scaled d x / 10 ^ Z.of_nat d) ++ [dot_char] ++ zpad d (digits (scaled d x mod 10 ^ Z.of_nat d)).
(** what it denotes *)
Definition rounded (d : nat) (x : R) : R :=
  ((if Rlt_dec x 0 then -1 else 1) * (IZR (scaled d x) / 10 ^ d))%R.
