(** C172: converting the workbooks of tool models to JSON. *)
Require Import Reals ZArith Bool Ascii String List Lra Lia.
Require Import Verif.Base Verif.NumPy Verif.M_Owsg Verif.Spec_Owsg Verif.P_Owsg.
Import ListNotations.
Open Scope list_scope.
Local Open Scope R_scope.

(** C172: the terms of a converted sheet are exactly its numbered rows with a code, in the
    order of the sheet, each with the name, function, size, unit, factors, propagation,
    formulas and singular formulas of its row; and a warning is given exactly for a unit or
    a propagation letter that is not known and for a size that is not a number. *)
Theorem C172_terms : forall show plain strip read_float read_int rows ts ws,
  convert_terms show plain strip read_float read_int rows = Some (ts, ws) ->
  exists ks, picked (a_term show) rows ks /\ Forall2 (term_of show plain strip read_float read_int) ks ts /\
    forall w, In w ws <-> exists r, In r ks /\ warned show read_float r w.
Proof. exact sheet_terms. Qed.
Print Assumptions C172_terms.

(** C172: it raises exactly when a term has a factor that is a text and not a whole number. *)
Theorem C172_fails : forall show plain strip read_float read_int rows,
  convert_terms show plain strip read_float read_int rows = None <->
  exists r t, In r rows /\ a_term show r /\ In (Words t) [r_p1 r; r_p2 r; r_p3 r] /\ read_int t = None.
Proof. exact sheet_fails. Qed.
Print Assumptions C172_fails.

(** C172: the range of inclination is the one the sheet states in whole degrees, and 0 and
    180 where it states none; but a stated maximum of 0 is taken as 180. *)
Theorem C172_limits : forall read_deg lo hi a b, inc_limits read_deg lo hi = (a, b) <->
  (degrees_of read_deg lo a \/ (unstated read_deg lo /\ a = 0%Z)) /\
  ((degrees_of read_deg hi b /\ b <> 0%Z) \/ ((unstated read_deg hi \/ degrees_of read_deg hi 0) /\ b = 180%Z)).
Proof. exact limits_iff. Qed.
Print Assumptions C172_limits.
Theorem C172_stated_maximum_refuted : forall read_deg lo, unstated read_deg lo ->
  degrees_of read_deg (Number 0) 0 /\ inc_limits read_deg lo (Number 0) = (0, 180)%Z.
Proof. exact limits_zero. Qed.
Print Assumptions C172_stated_maximum_refuted.

(** C172: after a conversion of a workbook that raised nothing, a file holds what the last
    sheet with a table of terms whose name gives that file converts to, and what it held
    before where there is no such sheet. *)
Theorem C172_files : forall J W (convert : list ascii -> list row -> option (J * W)) sheets files warns F Ws,
  convert_workbook convert sheets files warns = (F, Ws, true) ->
  forall f j, file_is F f j <->
    (exists s w, last_such (fun s => a_tool s /\ file_named (fst s) f) sheets s /\ convert (fst s) (snd s) = Some (j, w)) \/
    ((forall s, In s sheets -> ~ (a_tool s /\ file_named (fst s) f)) /\ file_is files f j).
Proof. exact @book_files. Qed.
Print Assumptions C172_files.

(** C172: the warnings it returns under a name are those of the (last) sheet with a table of
    terms and that name. *)
Theorem C172_warnings : forall J W (convert : list ascii -> list row -> option (J * W)) sheets files warns F Ws,
  convert_workbook convert sheets files warns = (F, Ws, true) ->
  forall n v, file_is Ws n v <->
    (exists s j, last_such (fun s => a_tool s /\ fst s = n) sheets s /\ convert (fst s) (snd s) = Some (j, v)) \/
    ((forall s, In s sheets -> ~ (a_tool s /\ fst s = n)) /\ file_is warns n v).
Proof. exact @book_warnings. Qed.
Print Assumptions C172_warnings.

(** C172: a sheet that cannot be converted ends the conversion, with the files of the
    sheets before it written. *)
Theorem C172_stops : forall J W (convert : list ascii -> list row -> option (J * W)) sheets files warns F Ws,
  convert_workbook convert sheets files warns = (F, Ws, false) <->
  exists before s after, sheets = before ++ s :: after /\ a_tool s /\ convert (fst s) (snd s) = None /\
    convert_workbook convert before files warns = (F, Ws, true).
Proof. exact @book_stops. Qed.
Print Assumptions C172_stops.

(** C172: two sheets share a file exactly when their names differ only in characters that
    are _ or not kept. *)
Theorem C172_shared_file : forall s t, (exists f, file_named s f /\ file_named t f) <-> Forall2 alike s t.
Proof. exact file_shared. Qed.
Print Assumptions C172_shared_file.

(** a sheet with a heading and two numbered rows: one of them has no code, the other a unit
    that is not known and a size that is not a number *)
Definition heading : row := mkRow (Words "No") (Words "Code") Empty Empty Empty Empty Empty Empty Empty Empty Empty Empty Empty Empty Empty.
Definition blank : row := mkRow (Number 1) Empty Empty (Number 3) Empty Empty Empty Empty Empty Empty Empty Empty Empty Empty Empty.
Definition drift (p1 : cell) : row := mkRow (Number 2) (Words "DRFR") (Words "DEP") (Words "tbc") (Words "ft") (Words "R")
  p1 Empty (Words "1") (Words "1") Empty Empty Empty Empty Empty.
Definition digit (s : string) : option Z := if String.eqb s "1" then Some 1%Z else None.
Definition no_text (x : R) : string := "0"%string.
Example C172_terms_case : convert_terms no_text no_text (fun s => s) (fun _ => None) digit [heading; blank; drift Empty] =
  Some ([mkJterm "DRFR" "DEP" 0 "ft" 0 0 1 "Random" "1" "0" "0" None None None], [UnknownUnit "DRFR" "ft"; NotANumber "DRFR" "tbc"]).
Proof. reflexivity. Qed.
Example C172_fails_case : convert_terms no_text no_text (fun s => s) (fun _ => None) digit [heading; drift (Words "x")] = None.
Proof. apply C172_fails. exists (drift (Words "x")), "x"%string. cbn. split; [auto|]. split; [|auto].
  split; [exists 2; reflexivity|right; exists "DRFR"%string; split; [reflexivity|discriminate]]. Qed.
Example C172_limits_case : inc_limits (fun _ => None) Empty (Number 60) = (0, 60)%Z.
Proof. apply C172_limits. split; [right; split; [left; reflexivity|reflexivity]|left]. split; [right; exists 60; split; [reflexivity|lra]|discriminate]. Qed.
Example C172_stated_maximum_refuted_case : inc_limits (fun _ => None) Empty (Number 0) = (0, 180)%Z.
Proof. apply C172_stated_maximum_refuted. left. reflexivity. Qed.
Definition sheet_a : list ascii * list row := (list_ascii_of_string "A B", [heading; drift Empty]).
Definition sheet_b : list ascii * list row := (list_ascii_of_string "A_B", [blank]).
Definition notes : list ascii * list row := (list_ascii_of_string "Notes", [heading]).
Definition count (n : list ascii) (rows : list row) : option (nat * unit) := match rows with [] => None | _ => Some (length rows, tt) end.
(** the file of the first sheet is overwritten by the second; the notes give none *)
Example C172_files_case : forall F Ws, convert_workbook count [sheet_a; notes; sheet_b] [] [] = (F, Ws, true) ->
  file_is F (list_ascii_of_string "A_B.json") 1%nat.
Proof.
  intros F Ws H. vm_compute in H. injection H as <- <-. exists [], []. split; [reflexivity|intros x []].
Qed.
Example C172_warnings_case : forall F Ws, convert_workbook count [sheet_a; notes; sheet_b] [] [] = (F, Ws, true) ->
  file_is Ws (fst sheet_a) tt /\ ~ file_is Ws (fst notes) tt.
Proof.
  intros F Ws H. pose proof (C172_warnings _ _ _ _ _ _ _ _ H) as E. split.
  - apply E. left. exists sheet_a, 2%nat. split; [|reflexivity]. exists [], [notes; sheet_b]. split; [reflexivity|].
    split; [split; [exists (drift Empty), 2; split; [right; left; reflexivity|reflexivity]|reflexivity]|].
    intros y [<-|[<-|[]]] [_ X]; discriminate.
  - intro X. apply E in X. destruct X as [(s & j & (b & a & Q & [T N] & _) & _)|[_ (b & a & Q & _)]]; [|destruct b; discriminate].
    assert (I : In s [sheet_a; notes; sheet_b]) by (rewrite Q; apply in_or_app; right; left; reflexivity).
    destruct I as [<-|[<-|[<-|[]]]]; try discriminate. destruct T as (r & x & [<-|[]] & D). discriminate.
Qed.
Example C172_stops_case : convert_workbook (fun n rows => if name_eqb n (fst sheet_b) then None else count n rows) [sheet_a; sheet_b] [] [] =
  ([(list_ascii_of_string "A_B.json", 2%nat)], [(fst sheet_a, tt)], false).
Proof.
  apply C172_stops. exists [sheet_a], sheet_b, []. split; [reflexivity|]. split; [|split; reflexivity].
  exists blank, 1. split; [left; reflexivity|reflexivity].
Qed.
Example C172_shared_file_case : exists f, file_named (fst sheet_a) f /\ file_named (fst sheet_b) f.
Proof.
  apply C172_shared_file. constructor; [left; reflexivity|constructor; [|constructor; [left; reflexivity|constructor]]]. right. split; [right|left; reflexivity]. unfold plain_character. cbn. intuition (try lia; try discriminate).
Qed.
