(** Concrete documents for C126-C128. *)
Require Import Reals Bool String List Sorted Lra Lia.
Require Import Verif.M_Edm Verif.Spec_Edm Verif.M_EdmWell Verif.Spec_EdmWell Verif.P_EdmWell Verif.P_EdmWell2 Verif.P_EdmWell3 Verif.P_EdmWell4.
Import ListNotations.
Open Scope string_scope.
Open Scope list_scope.
Local Open Scope R_scope.

(** a main bore, a side track and a second wellbore with the name of the main bore *)
Definition wb1 : attrib := [("wellbore_id", "a"); ("wellbore_name", "Main")].
Definition wb2 : attrib := [("wellbore_id", "b"); ("wellbore_name", "ST1"); ("parent_wellbore_id", "a")].
Definition wb3 : attrib := [("wellbore_id", "c"); ("wellbore_name", "Main"); ("parent_wellbore_id", "b")].
Definition wells_doc : list element := [("CD_WELLBORE", wb1); ("CD_WELLBORE", wb2)].
Definition reused_doc : list element := [("CD_WELLBORE", wb1); ("CD_WELLBORE", wb2); ("CD_WELLBORE", wb3)].
Lemma reused_labelled : labelled reused_doc.
Proof. intros a H. unfold wellbore, reused_doc in H. cbn in H. destruct H as [H|[H|[H|[]]]]; injection H as <-; split; eexists; reflexivity. Qed.
Lemma reused_ids : ids_differ reused_doc.
Proof.
  intros before a after b E H. unfold reused_doc in E.
  destruct before as [|x before]; cbn in E; [injection E as <- <-|injection E as <- E; destruct before as [|y before]; cbn in E; [injection E as <- <-|injection E as <- E; destruct before as [|z before]; cbn in E; [injection E as <- <-|injection E as <- E; destruct before; discriminate]]];
  unfold wellbore in H; cbn in H; repeat (destruct H as [H|H]; [injection H as <-; discriminate|]); destruct H.
Qed.
Lemma wells_labelled : labelled wells_doc.
Proof. intros a H. unfold wellbore, wells_doc in H. cbn in H. destruct H as [H|[H|[]]]; injection H as <-; split; eexists; reflexivity. Qed.
Lemma wells_names : names_differ wells_doc.
Proof.
  intros before a after b E H. unfold wells_doc in E.
  destruct before as [|x before]; cbn in E; [injection E as <- <-|injection E as <- E; destruct before as [|y before]; cbn in E; [injection E as <- <-|injection E as <- E; destruct before; discriminate]];
  unfold wellbore in H; cbn in H; repeat (destruct H as [H|H]; [injection H as <-; discriminate|]); destruct H.
Qed.
Lemma wells_example :
  (labelled wells_doc /\ names_differ wells_doc /\ wellbore_graph wells_doc = Some (["a"; "a"; "b"], [("a", "b")])) /\
  (labelled reused_doc /\ ids_differ reused_doc /\ find_wellbore reused_doc "Main" true = Some ("c", "Main") /\
   find_wellbore reused_doc "b" false = Some ("b", "ST1") /\ find_wellbore reused_doc "a" false = None).
Proof.
  split; [split; [exact wells_labelled|]; split; [exact wells_names|reflexivity]|].
  split; [exact reused_labelled|]. split; [exact reused_ids|]. repeat split.
Qed.
(** a case with two survey headers, one assembly of two components *)
Definition case_doc : data :=
  [("CD_CASE", [[("case_id", "k"); ("wellbore_id", "w"); ("assembly_id", "s"); ("case_name", "first")]; [("case_id", "k"); ("wellbore_id", "w"); ("assembly_id", "s"); ("case_name", "second")]]);
   ("CD_WELLBORE", [[("wellbore_id", "w"); ("hole_sect_group_id", "g")]]);
   ("CD_ASSEMBLY", [[("assembly_id", "s"); ("assembly_name", "casing")]]);
   ("CD_ASSEMBLY_COMP", [[("assembly_id", "s"); ("n", "1")]; [("assembly_id", "t"); ("n", "2")]; [("assembly_id", "s"); ("n", "3")]]);
   ("CD_HOLE_SECT", [[("hole_sect_group_id", "g"); ("name", "open hole")]; [("hole_sect_group_id", "g"); ("name", "casing")]]);
   ("CD_SURVEY_HEADER", [[("wellbore_id", "w"); ("survey_header_id", "1")]; [("wellbore_id", "w"); ("survey_header_id", "2")]])].
Lemma case_example : a_dict case_doc /\ (forall rows row, get "CD_CASE" case_doc = Some rows -> In row rows -> a_dict row) /\
  (exists c, make_case case_doc "k" = Some c /\ get "case_name" c = Some (Text "second") /\
     get "assembly" c = Some (Rows [[("assembly_id", "s"); ("n", "1")]; [("assembly_id", "s"); ("n", "3")]])) /\
  make_case case_doc "j" = None /\
  get "CD_HOLE_SECT" (hole_section case_doc "g") = Some [("hole_sect_group_id", "g"); ("name", "casing")].
Proof.
  split; [unfold a_dict; cbn; repeat constructor; cbn; intuition discriminate|]. split.
  - intros rows row E I. injection E as <-. destruct I as [<-|[<-|[]]]; unfold a_dict; cbn; repeat constructor; cbn; intuition discriminate.
  - split; [eexists; split; [reflexivity|]; split; reflexivity|]. split; reflexivity.
Qed.
(** pore pressures of two groups, out of order *)
Definition digit (s : string) : option R := if String.eqb s "1" then Some 1 else if String.eqb s "2" then Some 2 else None.
Definition pore (g t v : string) : attrib := [("pore_pressure_group_id", g); ("tvd", t); ("pore_pressure", v)].
Definition pore_rows : list attrib := [pore "p" "2" "1"; pore "q" "1" "1"; pore "p" "1" "2"].
Lemma pore_readable : Forall (readable digit "pore_pressure_group_id" "pore_pressure") pore_rows.
Proof. repeat constructor; try discriminate; (eexists (_, _); split; eexists; split; reflexivity). Qed.
Lemma pore_example : Forall (readable digit "pore_pressure_group_id" "pore_pressure") pore_rows /\
  profile_table digit [("CD_PORE_PRESSURE", pore_rows)] "CD_PORE_PRESSURE" "pore_pressure_group_id" "pore_pressure" =
    Some (Some [("p", [(1, 2); (2, 1)]); ("q", [(1, 1)])]) /\
  (forall row, In row pore_rows -> group_id_of row <> None /\ depth digit row <> None) /\
  lacks_field digit "pore_pressure_group_id" "pore_pressure" [("pore_pressure_group_id", "p"); ("tvd", "1")] /\
  (forall row, In row (pore_rows ++ [[("pore_pressure_group_id", "p")]]) -> group_id_of row <> None) /\
  (forall row s, In row (pore_rows ++ [[("pore_pressure_group_id", "p")]]) -> get "tvd" row = Some s -> digit s <> None).
Proof.
  split; [exact pore_readable|]. split.
  { unfold profile_table, profiles. cbn. unfold sort_by. cbn. destruct (Rlt_dec 1 2); [reflexivity|lra]. }
  split; [intros row [<-|[<-|[<-|[]]]]; split; discriminate|].
  split; [right; right; split; [reflexivity|]; exists "1", 1; split; reflexivity|].
  split; [intros row [<-|[<-|[<-|[<-|[]]]]]; discriminate|].
  intros row s [<-|[<-|[<-|[<-|[]]]]] E; cbn in E; try discriminate E; injection E as <-; discriminate.
Qed.
