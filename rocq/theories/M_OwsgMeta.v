(** Model of welleng/errors/tools/owsg_to_json.py: the names and the kind of a converted
    tool.  Left out: the revision, the source, the application and the tags.  Sheet names
    are ASCII. *)
Require Import Reals ZArith Bool Ascii String List.
Require Import Verif.Base Verif.M_Owsg.
Import ListNotations.
Open Scope list_scope.
Local Open Scope R_scope.

Section Meta.
  (** str of a number; str.rstrip(":").strip() of a label; whether the text of a value,
      stripped, starts with Short Name *)
  Variables (show : R -> string) (key_of : string -> string) (headed : cell -> bool).
  (** owsg_to_json.py:181-195 _extract_metadata_kv on the first two columns: the value that
      the dictionary holds in the end for a key.  An empty cell is nan here. *)
  Definition key_cell (c : cell) : option string := match c with Empty => None | Number x => Some (key_of (show x)) | Words s => Some (key_of s) end.
  Fixpoint kv (rows : list (cell * cell)) (key : string) (found : option cell) : option cell :=
    match rows with
    | [] => found
    | (label, value) :: rest =>
        match key_cell label with
        | None => kv rest key found
        | Some k => if headed value then kv rest key found else kv rest key (if String.eqb k key then Some value else found)
        end
    end.
  (** owsg_to_json.py:220-224 _scrub(kv.get(...) or default): an empty cell is nan, which is
      not false, and becomes the empty text; 0 and no entry give the default *)
  Definition or_text (v : option cell) (default : string) : string :=
    match v with
    | None => default
    | Some Empty => ""%string
    | Some (Number x) => if Req_EM_T x 0 then default else show x
    | Some (Words s) => if String.eqb s "" then default else s
    end.
  Definition or_str (a b : string) : string := if String.eqb a "" then b else a.
  (** owsg_to_json.py:220-222, 245-248 model_id, short_name and long_name of the metadata,
      and the prefix the model_uuid is made of *)
  Record names := mkNames { n_id : string; n_short : string; n_long : string; n_seed : string }.
  Definition tool_names (short long prefix : option cell) (set_label sheet : string) : names :=
    let short_name := or_text short sheet in
    let long_name := or_text long short_name in
    let owsg_prefix := or_text prefix sheet in
    mkNames (or_str owsg_prefix short_name) (or_str short_name sheet) (or_str long_name (or_str short_name sheet))
      (set_label ++ "/" ++ owsg_prefix)%string.
  (** owsg_to_json.py:78-97 TOOL_TYPE_MAP *)
  Definition kinds : list (string * string) :=
    [("MWD", "Magnetic"); ("EMS", "Magnetic"); ("Magnetic", "Magnetic"); ("MAGNETIC", "Magnetic"); ("Film MMS", "Magnetic"); ("Film MSS", "Magnetic");
     ("Gyro", "Gyroscopic"); ("GYRO", "Gyroscopic"); ("Gyroscopic", "Gyroscopic");
     ("Inertial", "Inertial"); ("INERTIAL", "Inertial"); ("FINDS", "Inertial"); ("BHI RIGS", "Inertial");
     ("BLIND", "Unknown"); ("Unknown", "Unknown"); ("INC-ONLY", "Unknown")]%string.
  Definition upper (c : ascii) : ascii := if in_range 97 122 c then ascii_of_nat (nat_of_ascii c - 32) else c.
  Fixpoint starts (w s : list ascii) : bool :=
    match w, s with [], _ => true | a :: w', b :: s' => (Ascii.eqb a b && starts w' s')%bool | _ :: _, [] => false end.
  Fixpoint contains (w s : list ascii) : bool := (starts w s || match s with [] => false | _ :: r => contains w r end)%bool.
  Definition mention (w sheet : string) : bool := contains (list_ascii_of_string w) (map upper (list_ascii_of_string sheet)).
  (** owsg_to_json.py:224-238 the kind, and whether it was guessed, which is warned about *)
  Definition tool_kind (tool short : option cell) (sheet : string) : string * bool :=
    let raw := or_text tool (or_text short sheet) in
    match find (fun e => String.eqb (fst e) raw) kinds with
    | Some e => (snd e, false)
    | None => ((if mention "GYRO" sheet then "Gyroscopic" else if mention "BLIND" sheet then "Unknown"
                else if mention "INC" sheet then "Unknown" else "Magnetic")%string, true)
    end.
End Meta.
