(** Vocabulary for the wells, sites and case names of a document. *)
Require Import Bool String List.
Require Import Verif.M_Edm Verif.M_EdmWell Verif.Spec_EdmWell.
Import ListNotations.
Open Scope string_scope.
Open Scope list_scope.

(** [a] is the last element of that tag whose attribute [key] is [n] *)
Definition last_with (doc : list element) (tag key n : string) (a : attrib) : Prop :=
  exists x y, doc = x ++ (tag, a) :: y /\ get key a = Some n /\ forall a', In (tag, a') y -> get key a' <> Some n.
(** a case with another id *)
Definition another_case (id : string) (a : attrib) : Prop := exists i, get "case_id" a = Some i /\ i <> id.
(** no two cases of the document have the same id *)
Definition case_ids_differ (doc : list element) : Prop :=
  forall x a y b z, doc = x ++ ("CD_CASE", a) :: y ++ ("CD_CASE", b) :: z -> get "case_id" a <> get "case_id" b.
Definition two_cases (name1 name2 : string) : list element :=
  [("CD_CASE", [("case_id", "7"); ("case_name", name1)]); ("CD_CASE", [("case_id", "7"); ("case_name", name2)])].
