(** Vocabulary of C129. *)
Require Import ZArith Bool Ascii String List.
Require Import Verif.M_DmsText.
Import ListNotations.

Definition digits (u : list ascii) : Prop := u <> [] /\ Forall (fun c => In c (txt "0123456789")) u.
(** 12 or 12.5 *)
Definition decimal (u : list ascii) : Prop := digits u \/ exists a b, digits a /\ digits b /\ u = a ++ txt "." ++ b.
(** how str() prints a float from 1e-4 to below 1e16: 52.0 *)
Definition float_text (u : list ascii) : Prop := exists a b, digits a /\ digits b /\ u = a ++ txt "." ++ b.
(** a direction such as N: characters other than white space *)
Definition a_word (w : list ascii) : Prop := w <> [] /\ Forall (fun c => space c = false) w.
(** an angle as people write it, such as 52 deg, 4 min, 43.1868 sec N; the degree sign is the character number 176 *)
Definition written (deg min sec : list ascii) (w : option (list ascii)) (symbols : bool) : list ascii :=
  (if symbols then deg ++ [ascii_of_nat 176] ++ txt ", " ++ min ++ txt "', " ++ sec ++ [ascii_of_nat 34]
   else deg ++ txt " deg, " ++ min ++ txt " min, " ++ sec ++ txt " sec") ++ match w with Some x => txt " " ++ x | None => [] end.

(** the same character, or the same letter of the alphabet in the other case *)
Definition same_letter (a b : ascii) : Prop :=
  a = b \/ exists i, (i < 26)%nat /\
    ((nat_of_ascii a = 65 + i /\ nat_of_ascii b = 97 + i) \/ (nat_of_ascii a = 97 + i /\ nat_of_ascii b = 65 + i))%nat.
Definition same_letters (s t : list ascii) : Prop := Forall2 same_letter s t.
