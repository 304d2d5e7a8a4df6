(** Model of welleng/exchange/edm.py: wells, sites and case names of a document. *)
Require Import Bool String List.
Require Import Verif.M_Edm Verif.M_EdmWell.
Import ListNotations.
Open Scope string_scope.
Open Scope list_scope.

(** a dictionary of the elements with a tag by one of their attributes; None = KeyError *)
Fixpoint by_attribute (tag key : string) (doc : list element) (d : list (string * attrib)) : option (list (string * attrib)) :=
  match doc with
  | [] => Some d
  | e :: r =>
      if String.eqb (tag_of e) tag then
        match get key (snd e) with
        | Some n => by_attribute tag key r (put n (snd e) d)
        | None => None
        end
      else by_attribute tag key r d
  end.
(** edm.py:94-99 get_wells *)
Definition get_wells (doc : list element) : option (list (string * attrib)) := by_attribute "CD_WELL_ALL" "well_common_name" doc [].
(** edm.py:101-106 get_sites *)
Definition get_sites (doc : list element) : option (list (string * attrib)) := by_attribute "CD_SITE" "site_name" doc [].
(** edm.py:215-221 get_case_name_from_id; [NoCase]: None is returned *)
Inductive case_name := CaseName (n : string) | NoCase | NoKey.
Fixpoint get_case_name_from_id (doc : list element) (id : string) : case_name :=
  match doc with
  | [] => NoCase
  | e :: r =>
      if String.eqb (tag_of e) "CD_CASE" then
        match get "case_id" (snd e) with
        | None => NoKey
        | Some i =>
            if String.eqb i id then match get "case_name" (snd e) with Some n => CaseName n | None => NoKey end
            else get_case_name_from_id r id
        end
      else get_case_name_from_id r id
  end.
(** edm.py:251-255 Well._get_cases of the rows of CD_CASE; None = KeyError *)
Fixpoint cases_from (rows : list attrib) (d : list (string * string)) : option (list (string * string)) :=
  match rows with
  | [] => Some d
  | c :: r =>
      match get "case_id" c, get "case_name" c with
      | Some i, Some n => cases_from r (put i n d)
      | _, _ => None
      end
  end.
Definition get_cases (d : data) : option (list (string * string)) :=
  match get "CD_CASE" d with Some rows => cases_from rows [] | None => None end.
