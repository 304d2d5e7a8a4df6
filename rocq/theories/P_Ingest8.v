(** Concrete sheets. *)
Require Import Reals ZArith Ascii String List Bool Lra Lia.
Require Import Verif.Base Verif.NumPy Verif.M_Utils Verif.M_DmsText.
Require Import Verif.M_Text Verif.Spec_Text Verif.P_Text Verif.M_Ingest Verif.Spec_Ingest Verif.P_Ingest Verif.P_Ingest2 Verif.P_Ingest4 Verif.P_Ingest5 Verif.P_Ingest6 Verif.P_Ingest7.
Import ListNotations.
Open Scope list_scope.
Local Open Scope nat_scope.

Definition demo_term (code : string) : list cell :=
  [Blank; Blank; Blank; Num 1; S_ code; S_ "depth error"; S_ "XCL-A"; Blank; S_ "depth"; Num 2; S_ "deg"; S_ " R "].
Definition demo_model : list (list cell) := [[S_ "[Short Name]:"; S_ "MWD"]; [S_ "Other"; Num 7]; demo_term "XCLA"; demo_term "XCLL"].
Definition term_named (code : text) (m : R) : term :=
  mkTerm 1 code [] [] [] [] (Fin m) [] [] Blank Blank Blank Blank Blank Blank Blank Blank Blank Blank false.
(** two terms with different codes, one of them lost *)
Lemma code_lost : ~ (forall terms, NoDup (map tm_code terms) -> forall t, In t terms -> exists n c, dget text_eqb n (legacy_codes terms) = Some c /\ describes_code t c).
Proof.
  intro H. destruct (H [term_named (lit "XCLA") 1; term_named (lit "XCLL") 2]) with (t := term_named (lit "XCLA") 1) as (n & c & G & D).
  - cbn [map tm_code term_named]. constructor; [intros [E|[]]; discriminate|]. constructor; [intros []|constructor].
  - left. reflexivity.
  - destruct (proj1 (proj2 (codes_found [term_named (lit "XCLA") 1; term_named (lit "XCLL") 2] n)) c G) as (t & (a & b & E & N & F) & D').
    assert (ND : ~ in_degrees []) by (intros (u & v & Q); destruct u; discriminate).
    assert (M1 : cd_magnitude c = Fin 1) by (apply (proj1 (proj2 (proj2 D))); exact ND).
    destruct a as [|x a]; cbn [app] in E.
    + injection E as <- <-. apply (F (term_named (lit "XCLL") 2)); [left; reflexivity|]. left. split; [reflexivity|].
      destruct N as [[Q _]|[_ Q]]; [discriminate|exact Q].
    + injection E as <- E. destruct a as [|y a]; cbn [app] in E; [|injection E as _ E; destruct a; discriminate].
      injection E as <- <-. assert (M2 : cd_magnitude c = Fin 2) by (apply (proj1 (proj2 (proj2 D'))); exact ND).
      rewrite M1 in M2. injection M2 as M2. lra.
Qed.
(** covariances listed in another order than expected *)
Lemma order_matters : exists v, parse_validation_sheet no_text swapped_sheet = Some [v] /\ nth_error (vl_diagnostic v) 0 = Some (Fin 1) /\
  named_value no_text (nth 1 swapped_sheet []) (nth 2 swapped_sheet []) "NN" (Fin 2).
Proof.
  eexists. split; [reflexivity|]. split; [reflexivity|]. left. exists 3. split; [|reflexivity]. split; [reflexivity|].
  intros [|[|[|j]]] H; try discriminate. lia.
Qed.
(** a group whose name is made for it is the name of another group *)
Lemma group_lost : group_of no_text clash_sheet (2, (lit "A", 1)) /\
  tb_blocks (parse_error_source_sheet no_text clash_sheet) = [(lit "A", [(lit "x", [Fin 1])]); (lit "A_2", [(lit "x", [Fin 3])])].
Proof.
  split; [|vm_compute; reflexivity]. right. exists 2. split; [discriminate|]. split; [|reflexivity]. intros g (c0 & c1 & [] & _).
Qed.
(** a workbook of the least size *)
Definition demo_wellpath : list (list cell) :=
  [[S_ "Well"; S_ "ISCWSA No. 1"; Blank; Blank; Blank]; [S_ "Latitude (deg)"; Num 60; Blank; Blank; S_ "MD"]; [S_ "Depth Units"; S_ " FT"; Blank; Blank; Num 0; Num 0; Num 0];
   [Blank; Blank; Blank; Blank; Num 30; Blank; Num 5; Num 30; Num 0]].
Definition demo_totals : list (list cell) := [[]; [S_ "Md"; S_ "EE"; S_ "NN"]; [Num 0; Num 1; Num 2]; [Num 30; Num 3]; [S_ "end"]].
Definition demo_source : sheet :=
  mkSheet [[S_ "Md"; S_ "dpde"; Blank; S_ "Covariance"]; [S_ "Md"; S_ "N"; S_ "E"; S_ "NN"]; [Num 0; Num 1; Num 2; Num 3]; [Num 30; Num 4; Num 5; Num 6]; [Num 60; Num 7; Num 8; Num 9]] [(1, 1, 2, 3)].
Definition demo_book : list (text * sheet) :=
  [(lit "Readme", mkSheet [[S_ "Revision 5.2"]; [S_ "Revision 5.11 "]; [S_ "Revision: 9.1"]] []); (lit "Model", mkSheet demo_model []); (lit "Wellpath", mkSheet demo_wellpath []);
   (lit "TOTALS", mkSheet demo_totals []); (lit "XCLA", demo_source); (lit "Chart", demo_source)].
