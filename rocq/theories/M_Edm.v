(** Model of welleng/exchange/edm.py: attribute queries, parent look-up, the data
    of a wellbore, and the survey of a case.

    The XML document is the list of children of its root, each a tag with its
    attributes.  A dictionary is an association list in insertion order; python
    dictionaries have distinct keys, which theorems assume where it matters. *)
Require Import Reals Bool String List Lra.
Import ListNotations.
Open Scope string_scope.
Open Scope list_scope.

Definition attrib := list (string * string).
Definition element := (string * attrib)%type.
Definition tag_of (e : element) : string := fst e.
Fixpoint get {V : Type} (k : string) (d : list (string * V)) : option V :=
  match d with
  | [] => None
  | (k', v) :: r => if String.eqb k k' then Some v else get k r
  end.
Definition smem (x : string) (l : list string) : bool := existsb (String.eqb x) l.

(** ** get_attributes (edm.py:27-80) *)
Inductive logic := AND | OR.
(** a criterion: key and accepted values (a scalar value is a list of one) *)
Definition criterion := (string * list string)%type.
(** edm.py:61-64 *)
Definition holds (a : attrib) (c : criterion) : bool :=
  match get (fst c) a with Some v => smem v (snd c) | None => false end.
(** data : dict of tag to list of attributes;
    edm.py:70-73: data[child.tag].append(child.attrib), or a new list *)
Definition data := list (string * list attrib).
Fixpoint dappend (t : string) (a : attrib) (d : data) : data :=
  match d with
  | [] => [(t, [a])]
  | (t', l) :: r => if String.eqb t t' then (t', l ++ [a]) :: r else (t', l) :: dappend t a r
  end.
(** edm.py:58-73 the loop over the criteria of one element; [seen] is the list of
    booleans so far.  The test that appends is inside the loop. *)
Fixpoint criteria_loop (lg : logic) (e : element) (seen : list bool) (cs : list criterion) (d : data) : data :=
  match cs with
  | [] => d
  | c :: r =>
      let seen' := seen ++ [holds (snd e) c] in
      let hit := match lg with AND => forallb (fun b => b) seen' | OR => existsb (fun b => b) seen' end in
      criteria_loop lg e seen' r (if hit then dappend (tag_of e) (snd e) d else d)
  end.
(** edm.py:50-79 *)
Definition get_attributes (doc : list element) (tags : list string) (cs : list criterion) (lg : logic) : data :=
  fold_left (fun d e =>
    if smem (tag_of e) tags then
      match cs with
      | [] => dappend (tag_of e) (snd e) d
      | _ => criteria_loop lg e [] cs d
      end
    else d) doc [].
(** edm.py:119-124 get_tags: the distinct tags (their order does not matter here) *)
Definition get_tags (doc : list element) : list string := nodup string_dec (map tag_of doc).

(** ** get_parents (edm.py:177-189) *)
(** [fuel] is the depth of recursion allowed; None = RecursionError or the
    KeyError of a CD_WELLBORE without wellbore_id.  [preds] is the list object
    passed along and appended to in place. *)
Fixpoint get_parents (fuel : nat) (doc : list element) (id : string) (preds : list string) : option (list string) :=
  match fuel with
  | O => None
  | S n =>
      (fix loop (l : list element) (preds : list string) : option (list string) :=
         match l with
         | [] => Some preds
         | e :: r =>
             if String.eqb (tag_of e) "CD_WELLBORE" then
               match get "wellbore_id" (snd e) with
               | None => None
               | Some w =>
                   if String.eqb w id then
                     match get "parent_wellbore_id" (snd e) with
                     | Some p =>
                         match get_parents n doc p (preds ++ [p]) with
                         | Some q => loop r q
                         | None => None
                         end
                     | None => Some preds
                     end
                   else loop r preds
               end
             else loop r preds
         end) doc preds
  end.
(** Calls without the second argument share the default list object: [hist] is
    its content before the call, and the returned list is its content after. *)
Definition call_get_parents (fuel : nat) (doc : list element) (hist : list string) (id : string)
  : option (list string) := get_parents fuel doc id hist.
(** a sequence of such calls: the results in order *)
Fixpoint calls (fuel : nat) (doc : list element) (hist : list string) (ids : list string) : option (list (list string)) :=
  match ids with
  | [] => Some []
  | id :: r =>
      match call_get_parents fuel doc hist id with
      | None => None
      | Some h => match calls fuel doc h r with Some l => Some (h :: l) | None => None end
      end
  end.

(** ** get_wellbore_data (edm.py:143-175) *)
(** edm.py:143-150 add_attributes: attributes[k].extend(v), or attributes[k] = v *)
Fixpoint dextend (t : string) (v : list attrib) (d : data) : data :=
  match d with
  | [] => [(t, v)]
  | (t', l) :: r => if String.eqb t t' then (t', l ++ v) :: r else (t', l) :: dextend t v r
  end.
Definition add_attributes (d additional : data) : data := fold_left (fun d kv => dextend (fst kv) (snd kv) d) additional d.
(** edm.py:152-175.  In the second add_attributes without predecessors the
    dictionary [additional] is still that of the well, and a list stored by the
    first is the very object extended by the second (a list extended by itself
    doubles), which gives the same content as extending a copy.  Returns the data
    and the shared predecessor list. *)
Definition get_wellbore_data (fuel : nat) (doc : list element) (hist : list string) (id : string)
  : option (data * list string) :=
  let attributes := get_attributes doc (get_tags doc) [("wellbore_id", [id])] AND in
  match get "CD_WELLBORE" attributes with
  | Some (w :: _) =>
      match get "well_id" w with
      | None => None
      | Some well =>
          let additional := get_attributes doc ["CD_WELL"; "CD_DATUM"] [("well_id", [well])] AND in
          let attributes1 := add_attributes attributes additional in
          match call_get_parents fuel doc hist id with
          | None => None
          | Some preds =>
              let additional2 :=
                match preds with
                | [] => additional
                | _ => get_attributes doc ["CD_SURVEY_HEADER"; "CD_SURVEY_STATION"] [("wellbore_id", preds)] AND
                end in
              Some (add_attributes attributes1 additional2, preds)
          end
      end
  | _ => None
  end.

(** ** The survey of a case (edm.py:352-411) *)
Local Open Scope R_scope.
(** a survey header: its id, its greatest depth, and the header and depth it is
    tied to; depths already converted by float *)
Record header := mkHeader { h_id : string; h_md_max : R; h_tie : option (string * R) }.
(** a station: header id and depth *)
Definition station := (string * R)%type.
(** OrderedDict assignment: an existing key keeps its place *)
Fixpoint dset (k : string) (v : R) (d : list (string * R)) : list (string * R) :=
  match d with
  | [] => [(k, v)]
  | (k', v') :: r => if String.eqb k k' then (k', v) :: r else (k', v') :: dset k v r
  end.
(** edm.py:400-409 get_parent_surveys; None = RecursionError *)
Fixpoint get_parent_surveys (fuel : nat) (hs : list header) (id : string) (d : list (string * R))
  : option (list (string * R)) :=
  match fuel with
  | O => None
  | S n =>
      (fix loop (l : list header) (d : list (string * R)) : option (list (string * R)) :=
         match l with
         | [] => Some d
         | h :: r =>
             if String.eqb (h_id h) id then
               match h_tie h with
               | Some (t, v) =>
                   match get_parent_surveys n hs t (dset id v d) with
                   | Some d' => loop r d'
                   | None => None
                   end
               | None => loop r d
               end
             else loop r d
         end) hs d
  end.
(** edm.py:376-396: the stations of one survey before sorting; [cur] is current_md *)
Fixpoint collect (sts : list station) (d : list (string * R)) (cur : R) : list station :=
  match d with
  | [] => []
  | (k, v) :: r =>
      if Rlt_dec v cur then
        filter (fun s => String.eqb (fst s) k &&
                 (if Rle_dec v (snd s) then true else false) &&
                 (if Rle_dec (snd s) cur then true else false))%bool sts
        ++ collect sts r v
      else collect sts r cur
  end.
(** md of the case's headers (edm.py:364-367): the last header with the id *)
Fixpoint md_max_of (hs : list header) (id : string) : option R :=
  match hs with
  | [] => None
  | h :: r =>
      match md_max_of r id with
      | Some x => Some x
      | None => if String.eqb (h_id h) id then Some (h_md_max h) else None
      end
  end.
(** edm.py:352-398 case.survey[id] for a header [id] of the case, before the sort
    by depth *)
Definition case_survey (fuel : nat) (case_headers all_headers : list header) (sts : list station) (id : string)
  : option (list station) :=
  match md_max_of case_headers id with
  | None => None
  | Some m =>
      match get_parent_surveys fuel all_headers id [(id, m)] with
      | None => None
      | Some d => Some (collect sts d m)
      end
  end.
