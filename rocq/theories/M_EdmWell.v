(** Model of welleng/exchange/edm.py: wellbores by name, the wellbore graph, and
    what a Well gives of its data. *)
Require Import Reals Bool String List Lra.
Require Import Verif.M_Edm.
Import ListNotations.
Open Scope string_scope.
Open Scope list_scope.

(** dictionary assignment: an existing key keeps its place *)
Fixpoint put {V : Type} (k : string) (v : V) (d : list (string * V)) : list (string * V) :=
  match d with
  | [] => [(k, v)]
  | (k', v') :: r => if String.eqb k k' then (k', v) :: r else (k', v') :: put k v r
  end.

(** ** wellbores (edm.py:82-92, 108-113, 130-141, 198-213) *)
Definition is_wellbore (e : element) : bool := String.eqb (tag_of e) "CD_WELLBORE".
(** edm.py:108-113 get_wellbore_ids; None = KeyError *)
Fixpoint wellbore_ids_from (doc : list element) (d : list (string * attrib)) : option (list (string * attrib)) :=
  match doc with
  | [] => Some d
  | e :: r =>
      if is_wellbore e then
        match get "wellbore_name" (snd e) with
        | Some n => wellbore_ids_from r (put n (snd e) d)
        | None => None
        end
      else wellbore_ids_from r d
  end.
Definition wellbore_ids (doc : list element) : option (list (string * attrib)) := wellbore_ids_from doc [].
(** edm.py:82-92 _wellbore_id_to_name: id to name and name to id; None = KeyError *)
Fixpoint name_tables (l : list (string * attrib)) (d e : list (string * string)) : option (list (string * string) * list (string * string)) :=
  match l with
  | [] => Some (d, e)
  | (_, a) :: r =>
      match get "wellbore_id" a, get "wellbore_name" a with
      | Some i, Some n => name_tables r (put i n d) (put n i e)
      | _, _ => None
      end
  end.
(** edm.py:198-213 get_wellbore: id and name of the Well; None = KeyError *)
Definition find_wellbore (doc : list element) (wellbore : string) (name : bool) : option (string * string) :=
  match wellbore_ids doc with
  | None => None
  | Some l =>
      match name_tables l [] [] with
      | None => None
      | Some (id_to_name, name_to_id) =>
          if name then match get wellbore name_to_id with Some i => Some (i, wellbore) | None => None end
          else match get wellbore id_to_name with Some n => Some (wellbore, n) | None => None end
      end
  end.
(** edm.py:130-141 get_wellbore_graph: nodes, and edges as pairs in the order they
    are added (networkx ignores orientation and repetition); None = KeyError *)
Fixpoint graph_from (l : list (string * attrib)) (nodes : list string) (edges : list (string * string))
  : option (list string * list (string * string)) :=
  match l with
  | [] => Some (nodes, edges)
  | (_, a) :: r =>
      match get "wellbore_id" a with
      | None => None
      | Some w =>
          match get "parent_wellbore_id" a with
          | Some p => graph_from r (nodes ++ [p; w]) (edges ++ [(p, w)])
          | None => graph_from r (nodes ++ [w]) edges
          end
      end
  end.
Definition wellbore_graph (doc : list element) : option (list string * list (string * string)) :=
  match wellbore_ids doc with Some l => graph_from l [] [] | None => None end.

(** ** hole sections (edm.py:429-465) *)
(** edm.py:429-439 get_hole_sections, as a list without repetition *)
Definition hole_sections (d : data) : list string :=
  nodup string_dec (flat_map (fun kv => flat_map (fun row => flat_map (fun tp : string * string => if String.eqb (fst tp) "hole_sect_group_id" then [snd tp] else []) row) (snd kv)) d).
(** edm.py:441-452 _get_hole_section_data; the inner loop copies the row *)
Definition hole_section (d : data) (group : string) : list (string * attrib) :=
  fold_left (fun acc kv =>
    fold_left (fun acc row => match get "hole_sect_group_id" row with
                              | Some g => if String.eqb g group then put (fst kv) row acc else acc
                              | None => acc end) (snd kv) acc) d [].
(** edm.py:454-465 get_hole_section_data *)
Definition hole_section_data (d : data) (sections : option (list string)) : list (string * list (string * attrib)) :=
  fold_left (fun acc hs => put hs (hole_section d hs) acc)
    (match sections with Some l => l | None => hole_sections d end) [].

(** ** depth profiles (edm.py:313-351, 467-539) *)
Local Open Scope R_scope.
(** sorted(.., key=..): stable *)
Fixpoint place {A : Type} (key : A -> R) (x : A) (l : list A) : list A :=
  match l with
  | [] => [x]
  | y :: r => if Rlt_dec (key x) (key y) then x :: y :: r else y :: place key x r
  end.
Definition sort_by {A : Type} (key : A -> R) (l : list A) : list A := fold_left (fun acc x => place key x acc) l [].
Fixpoint push {A : Type} (k : string) (x : A) (d : list (string * list A)) : list (string * list A) :=
  match d with
  | [] => [(k, [x])]
  | (k', l) :: r => if String.eqb k k' then (k', l ++ [x]) :: r else (k', l) :: push k x r
  end.
Inductive outcome (A : Type) := Ok (x : A) | KeyErr | ValueErr.
Arguments Ok {A}. Arguments KeyErr {A}. Arguments ValueErr {A}.
(** edm.py:520-533 one row; [num] is float, None = ValueError *)
Definition read_level (num : string -> option R) (group_key value_key : string) (p : attrib) : outcome (string * (R * R)) :=
  match get group_key p with
  | None => KeyErr
  | Some g =>
      match get "tvd" p with
      | None => KeyErr
      | Some t =>
          match num t with
          | None => ValueErr
          | Some t =>
              match get value_key p with
              | None => KeyErr
              | Some v => match num v with None => ValueErr | Some v => Ok (g, (t, v)) end
              end
          end
      end
  end.
(** edm.py:517-533 *)
Fixpoint read_levels (num : string -> option R) (group_key value_key : string) (rows : list attrib) (acc : list (string * list (R * R)))
  : outcome (list (string * list (R * R))) :=
  match rows with
  | [] => Ok acc
  | p :: r =>
      match read_level num group_key value_key p with
      | Ok (g, x) => read_levels num group_key value_key r (push g x acc)
      | KeyErr => KeyErr
      | ValueErr => ValueErr
      end
  end.
(** edm.py:499-539 _get_ppfpt_data *)
Definition profiles (num : string -> option R) (group_key value_key : string) (rows : list attrib) : outcome (list (string * list (R * R))) :=
  match read_levels num group_key value_key rows [] with
  | Ok d => Ok (map (fun kl => (fst kl, sort_by fst (snd kl))) d)
  | e => e
  end.
(** edm.py:468-475, 476-483 and 484-491: KeyError gives None; the outer None is a
    ValueError that get_ppfpt_data does not catch *)
Definition profile_table (num : string -> option R) (d : data) (tag group_key value_key : string)
  : option (option (list (string * list (R * R)))) :=
  match get tag d with
  | None => Some None
  | Some rows => match profiles num group_key value_key rows with Ok x => Some (Some x) | KeyErr => Some None | ValueErr => None end
  end.
(** edm.py:467-497 get_ppfpt_data: pore pressure, fracture pressure, temperature *)
Definition ppfpt_data (num : string -> option R) (d : data) :=
  match profile_table num d "CD_PORE_PRESSURE" "pore_pressure_group_id" "pore_pressure" with
  | None => None
  | Some pp =>
      match profile_table num d "CD_FRAC_GRADIENT" "frac_gradient_group_id" "frac_gradient_pressure" with
      | None => None
      | Some fp =>
          match profile_table num d "CD_TEMP_GRADIENT" "temp_gradient_group_id" "temperature" with
          | None => None
          | Some tp => Some (pp, fp, tp)
          end
      end
  end.

(** edm.py:338-339 the first key of a row that contains "_group_id"; None = IndexError *)
Fixpoint group_key (row : attrib) : option string :=
  match row with
  | [] => None
  | (k, v) :: r => match index 0 "_group_id" k with Some _ => Some v | None => group_key r end
  end.
Fixpoint group_rows (rows : list attrib) (acc : list (string * list attrib)) : option (list (string * list attrib)) :=
  match rows with
  | [] => Some acc
  | p :: r => match group_key p with Some g => group_rows r (push g p acc) | None => None end
  end.
(** the depths of the rows of a group *)
Fixpoint tvds (num : string -> option R) (rows : list attrib) : outcome (list R) :=
  match rows with
  | [] => Ok []
  | p :: r =>
      match get "tvd" p with
      | None => KeyErr
      | Some t =>
          match num t with
          | None => ValueErr
          | Some t => match tvds num r with Ok l => Ok (t :: l) | e => e end
          end
      end
  end.
(** edm.py:344-351: the groups with their rows by depth *)
Fixpoint sort_groups (num : string -> option R) (l : list (string * list attrib)) : outcome (list (string * list attrib)) :=
  match l with
  | [] => Ok []
  | (g, rows) :: r =>
      match tvds num rows with
      | Ok ts =>
          match sort_groups num r with
          | Ok l => Ok ((g, map snd (sort_by fst (combine ts rows))) :: l)
          | e => e
          end
      | KeyErr => KeyErr
      | ValueErr => ValueErr
      end
  end.
(** edm.py:328-351 _sort_ppfpt_data; None = IndexError or ValueError *)
Definition sort_ppfpt (num : string -> option R) (rows : list attrib) : option (list (string * list attrib)) :=
  match group_rows rows [] with
  | None => None
  | Some d => match sort_groups num d with Ok x => Some x | KeyErr => Some d | ValueErr => None end
  end.
(** edm.py:313-326 _get_ppfpt: the attributes of the case set from the tables of the
    well data.  A tag with two of the words has its attribute set twice, to the same
    value.  lower() is modelled on the letters of ASCII.  None = what
    _sort_ppfpt_data raises *)
Definition contains (w t : string) : bool := match index 0 w t with Some _ => true | None => false end.
Definition profile_tag (t : string) : bool :=
  ((contains "PORE" t || contains "FRAC" t || contains "CD_TEMP" t) && negb (contains "TEMPLATE" t))%bool.
Definition lower_char (c : Ascii.ascii) : Ascii.ascii :=
  let n := Ascii.nat_of_ascii c in if (Nat.leb 65 n && Nat.leb n 90)%bool then Ascii.ascii_of_nat (n + 32) else c.
Fixpoint lower (s : string) : string := match s with EmptyString => EmptyString | String c r => String (lower_char c) (lower r) end.
Definition profile_name (t : string) : string := match lower t with String _ (String _ (String _ r)) => r | _ => EmptyString end.
Fixpoint get_ppfpt (num : string -> option R) (d : data) (case : list (string * list (string * list attrib)))
  : option (list (string * list (string * list attrib))) :=
  match d with
  | [] => Some case
  | (t, rows) :: r =>
      if profile_tag t then
        match sort_ppfpt num rows with Some p => get_ppfpt num r (put (profile_name t) p case) | None => None end
      else get_ppfpt num r case
  end.

(** ** cases (edm.py:224-232, 257-311, 413-427) *)
(** edm.py:413-427 get_data *)
Fixpoint matching (k id : string) (rows : list attrib) : option (list attrib) :=
  match rows with
  | [] => Some []
  | row :: r =>
      match get k row with
      | None => None
      | Some v => match matching k id r with Some l => Some (if String.eqb v id then row :: l else l) | None => None end
      end
  end.
Definition upper_char (c : Ascii.ascii) : Ascii.ascii :=
  let n := Ascii.nat_of_ascii c in if (Nat.leb 97 n && Nat.leb n 122)%bool then Ascii.ascii_of_nat (n - 32) else c.
Fixpoint upper (s : string) : string := match s with EmptyString => EmptyString | String c r => String (upper_char c) (upper r) end.
Inductive value := Text (s : string) | Rows (l : list attrib) | Nothing.
(** None = KeyError *)
Definition get_data (d : data) (id label tag_label suffix : string) : option value :=
  match get (upper ("CD_" ++ tag_label)) d with
  | None => None
  | Some rows =>
      match matching (label ++ "_" ++ suffix) id rows with
      | None => None
      | Some [] => Some Nothing
      | Some l => Some (Rows l)
      end
  end.
(** edm.py:257-279 _set_attribute; a case is the dictionary of its attributes.
    [Rows] under an id attribute does not occur: the attributes set here do not end
    in the suffix; it matches no string. *)
Definition set_attribute (d : data) (case : list (string * value)) (label tag_label suffix out_label : string) : option (list (string * value)) :=
  match get (label ++ "_" ++ suffix) case with
  | None => Some case
  | Some (Text id) => match get_data d id label tag_label suffix with Some v => Some (put out_label v case) | None => None end
  | Some _ => Some (put out_label Nothing case)
  end.
(** edm.py:288-302 *)
Definition case_steps : list (string * string * string * string) :=
  [("wellbore", "wellbore", "id", "wellbore"); ("fluid", "fluid", "id", "fluid"); ("scenario", "scenario", "id", "scenario");
   ("well", "well", "id", "well"); ("datum", "datum", "id", "datum"); ("hole_sect_group", "hole_sect_group", "id", "hole_sect_group");
   ("assembly", "assembly", "id", "assembly"); ("hole_sect", "hole_sect", "group_id", "hole_sect");
   ("assembly", "assembly_comp", "id", "assembly"); ("wellbore", "survey_header", "id", "survey_header")].
Fixpoint set_attributes (d : data) (case : list (string * value)) (steps : list (string * string * string * string)) : option (list (string * value)) :=
  match steps with
  | [] => Some case
  | (label, tag_label, suffix, out_label) :: r =>
      match set_attribute d case label tag_label suffix out_label with Some c => set_attributes d c r | None => None end
  end.
(** edm.py:282-285: the last row with that id; None = KeyError *)
Fixpoint find_case (rows : list attrib) (id : string) (found : option attrib) : option (option attrib) :=
  match rows with
  | [] => Some found
  | row :: r =>
      match get "case_id" row with
      | None => None
      | Some i => find_case r id (if String.eqb i id then Some row else found)
      end
  end.
(** edm.py:281-311 make_case: the attributes before the surveys and profiles are
    added (Case: edm.py:224-232).  None = KeyError, or what edm.py:308 raises when the
    case was not found or has no survey headers (UnboundLocalError at edm.py:400,
    TypeError at edm.py:356-359); exceptions for headers without the fields read at
    edm.py:356-400 are left out, and so is a case element that itself has an
    attribute survey_header *)
Definition make_case (d : data) (id : string) : option (list (string * value)) :=
  match get "CD_CASE" d with
  | None => None
  | Some rows =>
      match find_case rows id None with
      | None => None
      | Some None => None
      | Some (Some row) =>
          match set_attributes d (fold_left (fun c kv => put (fst kv) (Text (snd kv)) c) row []) case_steps with
          | None => None
          | Some c => match get "survey_header" c with Some (Rows _) => Some c | _ => None end
          end
      end
  end.
