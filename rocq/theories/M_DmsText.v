(** Model of welleng/utils.py:833-884: printing degrees, minutes and seconds and
    reading them back.  Texts are lists of Latin-1 characters ([ascii] has 256
    values), so that the degree sign is one character; characters outside Latin-1
    are left out. *)
Require Import ZArith Bool Ascii String List DecimalString.
Import ListNotations.
Local Open Scope list_scope.

Definition txt (s : string) : list ascii := list_ascii_of_string s.
Definition DEGREE : ascii := ascii_of_nat 176.
Definition QUOTE : ascii := ascii_of_nat 34.
Definition NEWLINE : ascii := ascii_of_nat 10.

(** ** the part of the module re that the pattern uses *)
Definition between (lo hi : nat) (c : ascii) : bool := (Nat.leb lo (nat_of_ascii c) && Nat.leb (nat_of_ascii c) hi)%bool.
(** \d, \s and \S on Latin-1 *)
Definition digit (c : ascii) : bool := between 48 57 c.
Definition space (c : ascii) : bool :=
  (between 9 13 c || between 28 32 c || between 133 133 c || between 160 160 c)%bool.
Definition nonspace (c : ascii) : bool := negb (space c).
(** . *)
Definition dot (c : ascii) : bool := negb (Ascii.eqb c NEWLINE).
Definition lower (c : ascii) : ascii := if between 65 90 c then ascii_of_nat (nat_of_ascii c + 32) else c.
Inductive re :=
| Cls (p : ascii -> bool)        (* one character *)
| Many (p : ascii -> bool)       (* p*  *)
| Few (p : ascii -> bool)        (* p*? *)
| Opt (r : re)                   (* r?  *)
| Alt (a b : re)                 (* a|b *)
| Cat (a b : re)
| Grp (n : nat) (r : re)         (* ( ) *)
| Eos.                           (* $   *)
(** what the groups have matched, latest first *)
Definition caps := list (nat * list ascii).
Section Engine.
  Context {X : Type}.
  (** as many as possible, giving back one at a time *)
  Fixpoint many (p : ascii -> bool) (s : list ascii) (k : list ascii -> option X) : option X :=
    match s with
    | [] => k s
    | a :: r => if p a then match many p r k with Some x => Some x | None => k s end else k s
    end.
  (** as few as possible *)
  Fixpoint few (p : ascii -> bool) (s : list ascii) (k : list ascii -> option X) : option X :=
    match k s with
    | Some x => Some x
    | None => match s with [] => None | a :: r => if p a then few p r k else None end
    end.
  Definition taken (s s' : list ascii) : list ascii := firstn (length s - length s') s.
  Fixpoint run (r : re) (s : list ascii) (c : caps) (k : list ascii -> caps -> option X) : option X :=
    match r with
    | Cls p => match s with a :: t => if p a then k t c else None | [] => None end
    | Many p => many p s (fun t => k t c)
    | Few p => few p s (fun t => k t c)
    | Opt r => match run r s c k with Some x => Some x | None => k s c end
    | Alt a b => match run a s c k with Some x => Some x | None => run b s c k end
    | Cat a b => run a s c (fun t c' => run b t c' k)
    | Grp n r => run r s c (fun t c' => k t ((n, taken s t) :: c'))
    | Eos => match s with [] => k s c | [a] => if Ascii.eqb a NEWLINE then k s c else None | _ => None end
    end.
End Engine.
(** the first match in the text: groups *)
Fixpoint search (r : re) (s : list ascii) : option caps :=
  match run r s [] (fun _ c => Some c) with
  | Some c => Some c
  | None => match s with [] => None | _ :: t => search r t end
  end.
Fixpoint group (n : nat) (c : caps) : list ascii :=
  match c with [] => [] | (i, t) :: r => if Nat.eqb i n then t else group n r end.

(** ** the pattern, utils.py:870 (re.IGNORECASE) *)
Definition chr (c : ascii) : re := Cls (Ascii.eqb c).
Definition letter (c : ascii) : re := Cls (fun a => Ascii.eqb c (lower a)).
Definition many1 (p : ascii -> bool) : re := Cat (Cls p) (Many p).
Definition word3 (a b c : ascii) : re := Cat (letter a) (Cat (letter b) (letter c)).
Definition degrees_part : re :=
  Cat (Grp 1 (many1 digit)) (Cat (Many space) (Cat (Opt (Alt (chr DEGREE) (word3 "d" "e" "g"))) (chr ","))).
Definition minutes_part : re :=
  Cat (Many space) (Cat (Grp 2 (many1 digit)) (Cat (Many space) (Cat (Opt (Alt (chr "'") (word3 "m" "i" "n"))) (chr ",")))).
Definition seconds_part : re :=
  Cat (Many space) (Grp 3 (Cat (many1 digit) (Opt (Cat (chr ".") (many1 digit))))).
Definition last_part : re :=
  Cat (Many space) (Cat (Opt (Grp 4 (word3 "s" "e" "c"))) (Cat (Many space)
    (Cat (Few dot) (Cat (Opt (Grp 5 (many1 nonspace))) Eos)))).
Definition dms_pattern : re := Cat degrees_part (Cat minutes_part (Cat seconds_part last_part)).

(** int() of a text of digits *)
Definition int_of (s : list ascii) : Z := fold_left (fun n a => (10 * n + (Z.of_nat (nat_of_ascii a) - 48))%Z) s 0%Z.
(** utils.py:867-884 dms_from_string: degrees, minutes, the text whose float() is the
    seconds, and the fourth value if there is one *)
Definition dms_from_string (text : list ascii) : option (Z * Z * list ascii * option (list ascii)) :=
  match search dms_pattern text with
  | None => None
  | Some c =>
      Some (int_of (group 1 c), int_of (group 2 c), group 3 c,
            match group 5 c with [] => None | f => Some f end)
  end.

(** utils.py:833-864 pprint_dms with return_data=True, given the texts of the values *)
Definition pprint_dms (deg min sec : list ascii) (direction : option (list ascii)) (symbols : bool) : list ascii :=
  (if symbols then deg ++ [DEGREE] ++ txt ", " ++ min ++ txt "', " ++ sec ++ [QUOTE]
   else deg ++ txt " deg, " ++ min ++ txt " min, " ++ sec ++ txt " sec")
  ++ match direction with Some d => txt " " ++ d | None => [] end.
(** str() of an int *)
Definition str_of (z : Z) : list ascii := txt (NilZero.string_of_int (Z.to_int z)).
