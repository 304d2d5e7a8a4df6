(** Vocabulary of C126-C128: wellbores by name, sections, profiles and cases of an
    EDM file. *)
Require Import Reals Bool String List Sorted.
Require Import Verif.M_Edm Verif.Spec_Edm Verif.M_EdmWell.
Import ListNotations.
Open Scope string_scope.
Open Scope list_scope.

Definition name_of (a : attrib) : option string := get "wellbore_name" a.
Definition id_of (a : attrib) : option string := get "wellbore_id" a.
(** the last wellbore of the document with this name *)
Definition last_named (doc : list element) (n : string) (a : attrib) : Prop :=
  exists before after, doc = before ++ ("CD_WELLBORE", a) :: after /\ name_of a = Some n /\
    forall b, wellbore after b -> name_of b <> Some n.
(** every wellbore has a name and an id *)
Definition labelled (doc : list element) : Prop :=
  forall a, wellbore doc a -> (exists n, name_of a = Some n) /\ (exists i, id_of a = Some i).
Definition names_differ (doc : list element) : Prop :=
  forall before a after b, doc = before ++ ("CD_WELLBORE", a) :: after -> wellbore after b -> name_of b <> name_of a.
Definition ids_differ (doc : list element) : Prop :=
  forall before a after b, doc = before ++ ("CD_WELLBORE", a) :: after -> wellbore after b -> id_of b <> id_of a.

(** a dictionary has each key once *)
Definition a_dict {V : Type} (d : list (string * V)) : Prop := NoDup (map fst d).
(** the last row of a list with a property *)
Definition last_row (P : attrib -> Prop) (rows : list attrib) (row : attrib) : Prop :=
  exists before after, rows = before ++ row :: after /\ P row /\ forall r, In r after -> ~ P r.
Definition of_group (g : string) (row : attrib) : Prop := get "hole_sect_group_id" row = Some g.

Local Open Scope R_scope.
(** [l'] is [l] in ascending order, entries of equal key in the order of [l] *)
Definition sorted_from {A : Type} (key : A -> R) (l l' : list A) : Prop :=
  StronglySorted (fun x y => key x <= key y) l' /\
  forall t, filter (fun x => if Req_EM_T (key x) t then true else false) l' =
            filter (fun x => if Req_EM_T (key x) t then true else false) l.
(** the depth and the value of a row *)
Definition level (num : string -> option R) (value_key : string) (row : attrib) (x : R * R) : Prop :=
  (exists s, get "tvd" row = Some s /\ num s = Some (fst x)) /\
  (exists s, get value_key row = Some s /\ num s = Some (snd x)).
Definition in_group (group_key g : string) (row : attrib) : bool :=
  match get group_key row with Some h => String.eqb h g | None => false end.
(** a row from which a level can be read; one where a field is missing; one where
    the first thing wrong is a field that is not a number *)
Definition readable (num : string -> option R) (group_key value_key : string) (row : attrib) : Prop :=
  get group_key row <> None /\ exists x, level num value_key row x.
Definition lacks_field (num : string -> option R) (group_key value_key : string) (row : attrib) : Prop :=
  get group_key row = None \/ get "tvd" row = None \/
  (get value_key row = None /\ exists s t, get "tvd" row = Some s /\ num s = Some t).
Definition depth (num : string -> option R) (row : attrib) : option R :=
  match get "tvd" row with Some s => num s | None => None end.
Definition depth_or_0 (num : string -> option R) (row : attrib) : R := match depth num row with Some t => t | None => 0 end.
(** the group of a row: its first attribute with "_group_id" in its name *)
Definition group_id_of (row : attrib) : option string :=
  option_map snd (List.find (fun kv => match index 0 "_group_id" (fst kv) with Some _ => true | None => false end) row).
Definition of_any_group (g : string) (row : attrib) : bool :=
  match group_id_of row with Some h => String.eqb h g | None => false end.

(** the rows of a table that have a value under a key, or nothing if there are none *)
Definition with_value (k v : string) (rows : list attrib) : list attrib := filter (in_group k v) rows.
Definition rows_or_nothing (l : list attrib) : value := match l with [] => Nothing | _ => Rows l end.
Definition has_table (d : data) (t k : string) (rows : list attrib) : Prop :=
  get t d = Some rows /\ forall row, In row rows -> get k row <> None.
(** the attributes looked up for a case: name, the attribute of the case with the
    id, the table *)
Definition looked_up : list (string * string * string) :=
  [("wellbore", "wellbore_id", "CD_WELLBORE"); ("fluid", "fluid_id", "CD_FLUID"); ("scenario", "scenario_id", "CD_SCENARIO");
   ("well", "well_id", "CD_WELL"); ("datum", "datum_id", "CD_DATUM"); ("hole_sect_group", "hole_sect_group_id", "CD_HOLE_SECT_GROUP");
   ("assembly", "assembly_id", "CD_ASSEMBLY_COMP"); ("hole_sect", "hole_sect_group_id", "CD_HOLE_SECT");
   ("survey_header", "wellbore_id", "CD_SURVEY_HEADER")].
Definition is_case (id : string) (row : attrib) : Prop := get "case_id" row = Some id.

(** the tables with profiles of pressure and temperature, and the attribute of the
    case made from a table: its tag in small letters, without the first three *)
Definition mentions (w t : string) : Prop := exists a b, t = (a ++ w ++ b)%string.
Definition profile_of (t : string) : Prop :=
  (mentions "PORE" t \/ mentions "FRAC" t \/ mentions "CD_TEMP" t) /\ ~ mentions "TEMPLATE" t.
Definition small (c c' : Ascii.ascii) : Prop :=
  let n := Ascii.nat_of_ascii c in
  ((65 <= n <= 90 -> Ascii.nat_of_ascii c' = n + 32) /\ (n < 65 \/ 90 < n -> c' = c))%nat.
Fixpoint in_small (s s' : string) : Prop :=
  match s, s' with
  | EmptyString, EmptyString => True
  | String c r, String c' r' => small c c' /\ in_small r r'
  | _, _ => False
  end.
Definition attribute_of (t n : string) : Prop := exists a b, t = (a ++ b)%string /\ String.length a = 3%nat /\ in_small b n.
