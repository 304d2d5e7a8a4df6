(** Property theorems C129: degrees, minutes and seconds as text. *)
Require Import ZArith Bool Ascii String List.
Require Import Verif.M_DmsText Verif.Spec_DmsText.
Require Import Verif.P_DmsText Verif.P_DmsText2 Verif.P_DmsText3.
Import ListNotations.
Local Open Scope list_scope.

(** * C129 *)
Theorem C129_read_back : forall d m s w b, (0 <= d)%Z -> (0 <= m)%Z -> decimal s -> (forall x, w = Some x -> a_word x) -> ~ (b = true /\ w = None) ->
  dms_from_string (pprint_dms (str_of d) (str_of m) s w b) = Some (d, m, s, w).
Proof. exact read_back. Qed.
Print Assumptions C129_read_back.
Theorem C129_printed : forall deg min sec w b, pprint_dms deg min sec w b = written deg min sec w b.
Proof. exact printed_text. Qed.
Print Assumptions C129_printed.
Theorem C129_written : forall d m s w b, (0 <= d)%Z -> (0 <= m)%Z -> decimal s -> (forall x, w = Some x -> a_word x) -> ~ (b = true /\ w = None) ->
  dms_from_string (written (str_of d) (str_of m) s w b) = Some (d, m, s, w).
Proof. exact read_written. Qed.
Print Assumptions C129_written.
Theorem C129_three_values_with_symbols_refuted : forall d m s, (0 <= d)%Z -> (0 <= m)%Z -> decimal s ->
  dms_from_string (pprint_dms (str_of d) (str_of m) s None true) = Some (d, m, s, Some [QUOTE]).
Proof. exact quote_kept. Qed.
Print Assumptions C129_three_values_with_symbols_refuted.
Theorem C129_sign_lost : forall d min sec w b,
  dms_from_string (pprint_dms (str_of d) min sec w b) = dms_from_string (pprint_dms (str_of (Z.abs d)) min sec w b).
Proof. exact sign_lost. Qed.
Print Assumptions C129_sign_lost.
Theorem C129_tiny_seconds : forall d m mant e w b, (0 <= d)%Z -> (0 <= m)%Z -> decimal mant -> digits e -> (forall x, w = Some x -> a_word x) ->
  dms_from_string (pprint_dms (str_of d) (str_of m) (mant ++ txt "e-" ++ e) w b) =
  Some (d, m, mant, Some (match w with Some x => x | None => if b then txt "e-" ++ e ++ [QUOTE] else txt "sec" end)).
Proof. exact tiny_seconds. Qed.
Print Assumptions C129_tiny_seconds.
Theorem C129_float_minutes : forall deg min sec w b, float_text min ->
  ~ In ","%char deg -> ~ In ","%char sec -> (forall x, w = Some x -> ~ In ","%char x) ->
  dms_from_string (pprint_dms deg min sec w b) = None.
Proof. exact float_minutes. Qed.
Print Assumptions C129_float_minutes.
(** capital and small letters: the numbers are the same, the direction keeps its case *)
Theorem C129_any_case : forall s t, same_letters s t ->
  match dms_from_string s, dms_from_string t with
  | Some (d, m, sec, w), Some (d', m', sec', w') => d = d' /\ m = m' /\ sec = sec' /\
      match w, w' with Some x, Some x' => same_letters x x' | None, None => True | _, _ => False end
  | None, None => True
  | _, _ => False
  end.
Proof. exact read_any_case. Qed.
Print Assumptions C129_any_case.
Example C129_any_case_case : same_letters (txt "52 deg, 4 min, 43.5 sec N") (txt "52 DEG, 4 Min, 43.5 sEC n") /\
  dms_from_string (txt "52 DEG, 4 Min, 43.5 sEC n") = Some (52%Z, 4%Z, txt "43.5", Some (txt "n")).
Proof.
  split; [|vm_compute; reflexivity]. unfold txt. cbn [list_ascii_of_string].
  repeat (constructor; [first [left; reflexivity|right; eexists; split; cycle 1; [(left; split; reflexivity) || (right; split; reflexivity)|cbv; repeat constructor]]|]). constructor.
Qed.
(** the latitude of Den Haag with and without symbols and direction, with 5e-12
    seconds, and as decimal2dms gives it without a direction *)
Example C129_case :
  decimal (txt "43.1868") /\ a_word (txt "N") /\ float_text (txt "4.0") /\ digits (txt "12") /\
  dms_from_string (pprint_dms (str_of 52) (str_of 4) (txt "43.1868") (Some (txt "N")) true) = Some (52%Z, 4%Z, txt "43.1868", Some (txt "N")) /\
  dms_from_string (pprint_dms (str_of (-52)) (str_of 4) (txt "43.1868") None true) = Some (52%Z, 4%Z, txt "43.1868", Some [QUOTE]) /\
  dms_from_string (pprint_dms (str_of 52) (str_of 4) (txt "5e-12") (Some (txt "N")) false) = Some (52%Z, 4%Z, txt "5", Some (txt "N")) /\
  dms_from_string (pprint_dms (txt "52.0") (txt "4.0") (txt "43.1868") None true) = None.
Proof.
  assert (D : forall u, u <> [] -> forallb (fun c => existsb (Ascii.eqb c) (txt "0123456789")) u = true -> digits u).
  { intros u N F. split; [exact N|]. apply Forall_forall. intros c I. rewrite forallb_forall in F. apply F, existsb_exists in I.
    destruct I as (x & I & E). apply Ascii.eqb_eq in E. subst x. exact I. }
  split; [right; exists (txt "43"), (txt "1868"); split; [|split]; [apply D; [discriminate|reflexivity]|apply D; [discriminate|reflexivity]|reflexivity]|].
  split; [split; [discriminate|repeat constructor]|].
  split; [exists (txt "4"), (txt "0"); split; [|split]; [apply D; [discriminate|reflexivity]|apply D; [discriminate|reflexivity]|reflexivity]|].
  split; [apply D; [discriminate|reflexivity]|].
  vm_compute. repeat split.
Qed.
