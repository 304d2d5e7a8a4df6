(** Property theorems C149: rewriting an Excel formula. *)
Require Import Ascii String List Bool Arith Lia.
Require Import Verif.M_DmsText Verif.M_Text Verif.M_Rewrite Verif.Spec_Rewrite Verif.P_Rewrite.
Import ListNotations.
Open Scope list_scope.

(** * C149 *)
Theorem C149_rewritten : forall s t, rewrite_excel s = t <-> rewritten functions s t.
Proof. exact rewrite_exactly. Qed.
Print Assumptions C149_rewritten.
Theorem C149_no_power_left : forall s, ~ In "^"%char (rewrite_excel s).
Proof. exact no_power_left. Qed.
Print Assumptions C149_no_power_left.
Theorem C149_twice : forall s, rewrite_excel (rewrite_excel s) = rewrite_excel s.
Proof. exact rewrite_twice. Qed.
Print Assumptions C149_twice.
(** what a word and a blank is made of *)
Theorem C149_word_characters : forall c, word_char c = true <->
  In c (lit "ABCDEFGHIJKLMNOPQRSTUVWXYZabcdefghijklmnopqrstuvwxyz0123456789_") \/
  In (nat_of_ascii c) ([170; 178; 179; 181; 185; 186; 188; 189; 190] ++ seq 192 23 ++ seq 216 31 ++ seq 248 8).
Proof. exact word_chars. Qed.
Print Assumptions C149_word_characters.
Theorem C149_blanks : forall c, is_space c = true <-> In (nat_of_ascii c) [9; 10; 11; 12; 13; 28; 29; 30; 31; 32; 133; 160].
Proof. exact blank_chars. Qed.
Print Assumptions C149_blanks.
(** names are known in one spelling only *)
Theorem C149_upper_case_refuted : rewrite_excel (lit "SIN(Inc)+MAX(1,2)") = lit "SIN(Inc)+MAX(1,2)".
Proof. exact upper_case_kept. Qed.
Print Assumptions C149_upper_case_refuted.
Example C149_case : rewrite_excel (lit "Sin (Inc)^2*MinInc(x)+Sqr(1)") = lit "sin(Inc)**2*MinInc(x)+sqrt(1)".
Proof. reflexivity. Qed.
