(** C166: the wells, sites and case names of a document. *)
Require Import Bool String List.
Require Import Verif.M_Edm Verif.M_EdmWell Verif.Spec_EdmWell Verif.M_EdmNames Verif.Spec_EdmNames Verif.P_EdmNames.
Import ListNotations.
Open Scope string_scope.
Open Scope list_scope.

(** * C166 *)
Theorem C166_wells : forall doc,
  (get_wells doc = None <-> exists a, In ("CD_WELL_ALL", a) doc /\ get "well_common_name" a = None) /\
  forall d, get_wells doc = Some d -> a_dict d /\ forall n a, get n d = Some a <-> last_with doc "CD_WELL_ALL" "well_common_name" n a.
Proof. exact wells_by_name. Qed.
Print Assumptions C166_wells.
Theorem C166_sites : forall doc,
  (get_sites doc = None <-> exists a, In ("CD_SITE", a) doc /\ get "site_name" a = None) /\
  forall d, get_sites doc = Some d -> a_dict d /\ forall n a, get n d = Some a <-> last_with doc "CD_SITE" "site_name" n a.
Proof. exact sites_by_name. Qed.
Print Assumptions C166_sites.
Example C166_wells_case : exists d, get_wells [("CD_WELL_ALL", [("well_common_name", "A"); ("x", "1")]); ("CD_SITE", []); ("CD_WELL_ALL", [("well_common_name", "A"); ("x", "2")])] = Some d /\
  get "A" d = Some [("well_common_name", "A"); ("x", "2")].
Proof. eexists. split; reflexivity. Qed.
Theorem C166_case_name : forall doc id,
  (forall n, get_case_name_from_id doc id = CaseName n <-> exists x a y, doc = x ++ ("CD_CASE", a) :: y /\
     get "case_id" a = Some id /\ get "case_name" a = Some n /\ forall a', In ("CD_CASE", a') x -> another_case id a') /\
  (get_case_name_from_id doc id = NoCase <-> forall a, In ("CD_CASE", a) doc -> another_case id a).
Proof. exact case_name_found. Qed.
Print Assumptions C166_case_name.
Theorem C166_cases : forall doc d rows m, case_ids_differ doc -> (forall a, In ("CD_CASE", a) doc -> exists i, get "case_id" a = Some i) ->
  get "CD_CASE" d = Some rows -> (forall c, In c rows -> In ("CD_CASE", c) doc) -> get_cases d = Some m ->
  (forall i n, get i m = Some n -> get_case_name_from_id doc i = CaseName n) /\
  (forall c, In c rows -> exists i n, get "case_id" c = Some i /\ get "case_name" c = Some n /\ get i m = Some n).
Proof. exact cases_agree. Qed.
Print Assumptions C166_cases.
Example C166_cases_case : let doc := [("CD_CASE", [("case_id", "7"); ("case_name", "one")]); ("CD_CASE", [("case_id", "8"); ("case_name", "two")])] in
  exists m rows, case_ids_differ doc /\ (forall a, In ("CD_CASE", a) doc -> exists i, get "case_id" a = Some i) /\
  get "CD_CASE" (get_attributes doc ["CD_CASE"] [] AND) = Some rows /\ (forall c, In c rows -> In ("CD_CASE", c) doc) /\
  get_cases (get_attributes doc ["CD_CASE"] [] AND) = Some m /\ get "8" m = Some "two".
Proof.
  intros doc. eexists _, _. split.
  { intros x a y b z E. destruct x as [|p [|q x]]; cbn in E.
    - injection E as <- E. destruct y as [|r y]; cbn in E; [injection E as <- _; discriminate|]. injection E as _ E. destruct y; discriminate.
    - injection E as _ _ E. destruct y; discriminate.
    - injection E as _ _ E. destruct x; discriminate. }
  split. { intros a [E|[E|[]]]; injection E as <-; eexists; reflexivity. }
  split; [reflexivity|]. split. { intros c [<-|[<-|[]]]; [left|right; left]; reflexivity. }
  split; reflexivity.
Qed.
Theorem C166_reused_refuted : forall n1 n2, n1 <> n2 ->
  get_case_name_from_id (two_cases n1 n2) "7" = CaseName n1 /\
  exists m, get_cases (get_attributes (two_cases n1 n2) ["CD_CASE"] [] AND) = Some m /\ get "7" m = Some n2.
Proof. exact cases_reused. Qed.
Print Assumptions C166_reused_refuted.
