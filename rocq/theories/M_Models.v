(** welleng.error.ErrorModel by name: which tool model a name selects, and the
    covariances it gives; welleng.error.make_diagnostic_data. *)
Require Import Reals ZArith Bool String Ascii List.
Require Import Verif.Base Verif.NumPy Verif.M_Utils Verif.M_Error Verif.M_Weights Verif.M_Bundle.
Import ListNotations.
Local Open Scope R_scope.

(** welleng/error.py:22-24 _DEPRECATED_ERROR_MODEL_ALIASES, 165-175 *)
Definition unalias (name : string) : string :=
  if String.eqb name "ISCWSA MWD Rev5" then "ISCWSA MWD Rev5.11" else name.
(** welleng/error.py:51-74 get_error_models, ERROR_MODELS *)
Definition get_error_models (index : list (string * string)) : list string := map snd index.

(** welleng/errors/tool_errors.py:44-82 _resolve_json_model: [tree] is what
    os.listdir returns for iscwsa_json and for each directory in it, in that order;
    every file is readable JSON with metadata and all names end in .json.  First a
    file of that name, then the metadata. *)
Fixpoint find_named (name : string) (tree : list (string * list json_file)) : option json_file :=
  match tree with
  | [] => None
  | (_, fs) :: r =>
      match find (fun f => String.eqb (jf_file f) (name ++ ".json")) fs with
      | Some f => Some f
      | None => find_named name r
      end
  end.
Fixpoint find_described (name : string) (tree : list (string * list json_file)) : option json_file :=
  match tree with
  | [] => None
  | (_, fs) :: r =>
      match find (fun f => String.eqb (jf_id f) name || String.eqb (jf_short f) name)%bool fs with
      | Some f => Some f
      | None => find_described name r
      end
  end.
Definition resolve_json_model (name : string) (tree : list (string * list json_file)) : option json_file :=
  match find_named name tree with Some f => Some f | None => find_described name tree end.

Inductive opened := Unrecognised | NotFound | Yaml (m : tool_file) | Json (f : json_file).

(** welleng/error.py:177-205 and welleng/errors/tool_errors.py:175-196: the first
    entry of the index with that short name gives the key; yaml file, else json.
    [Unrecognised] is the AssertionError, [NotFound] the FileNotFoundError. *)
Definition open_model (tree : list (string * list json_file)) (name : string) : opened :=
  match find (fun e => String.eqb (snd e) (unalias name)) tool_index with
  | None => Unrecognised
  | Some (key, _) =>
      match lookup key tool_codes with
      | Some m => Yaml m
      | None => match resolve_json_model key tree with Some f => Json f | None => NotFound end
      end
  end.

(** str.lower and str.split for ASCII *)
Definition lower_char (c : ascii) : ascii :=
  let n := nat_of_ascii c in
  if (Nat.leb 65 n && Nat.leb n 90)%bool then ascii_of_nat (n + 32) else c.
Definition is_space (c : ascii) : bool :=
  let n := nat_of_ascii c in (Nat.eqb n 32 || (Nat.leb 9 n && Nat.leb n 13))%bool.
Fixpoint last_word (last cur s : string) : string :=
  match s with
  | EmptyString => if String.eqb cur "" then last else cur
  | String c r =>
      if is_space c then last_word (if String.eqb cur "" then last else cur) "" r
      else last_word last (cur ++ String (lower_char c) EmptyString)%string r
  end.
(** welleng/error.py:348 and 491 the first row of the Jacobian is changed unless the name
    ends in the word rev4 *)
Definition is_rev4 (name : string) : bool := String.eqb (last_word "" "" (unalias name)) "rev4".

(** welleng/errors/tool_errors.py:200-208 self.tortuosity *)
Definition tortuosity_of (t : tort_entry) : option R :=
  match t with
  | Tortuosity r => Some r
  | XclTortuosity => Some (PI / 180 / 100 * 3.281)
  | NoTortuosity => None
  end.
Definition uses_tortuosity (func : string) : bool :=
  (String.eqb func "XCL" || String.eqb func "XCLA" || String.eqb func "XCLH")%bool.

(** welleng/errors/tool_errors.py:200-270 ToolError for a yaml model.  None times an
    array is a TypeError in XCLA and XCLH (1655, 1666, 1686); simplification: with
    a single station, where that array is empty, too. *)
Definition yaml_model_error (azi_reference : string) (rev4 : bool) (h : header) (l : list wstation)
  (m : tool_file) : total_outcome :=
  let max_inc := Some (tf_max_inc m * (PI / 180)) in
  match tortuosity_of (tf_tort m) with
  | Some t => yaml_tool_error azi_reference t max_inc rev4 h l (tf_codes m)
  | None =>
      if existsb (fun c => uses_tortuosity (c_function c)) (tf_codes m) then TotalsRaise
      else yaml_tool_error azi_reference 0 max_inc rev4 h l (tf_codes m)
  end.

(** the same for a json model; [rates file term] are the values of the three
    formulas of a term at each station, None when one cannot be evaluated *)
Definition json_terms (rates : string -> string -> option (list V3)) (m : json_model) : list term :=
  map (fun t => mkTerm (jt_name t) (jt_value t) (jt_mode t) (jt_unit t) (rates (jm_file m) (jt_name t)))
    (jm_terms m).
Definition json_model_error (rates : string -> string -> option (list V3)) (rev4 : bool) (l : list wstation)
  (f : json_file) : total_outcome :=
  match find (fun m => String.eqb (jm_file m) (jf_file f)) json_models with
  | None => TotalsRaise
  | Some m =>
      match json_tool_error rev4 (jm_inc_max m * (PI / 180)) (map survey_rad l) (json_terms rates m) with
      | Some t => Totals t
      | None => TotalsRaise
      end
  end.

(** welleng/error.py:148-205 ErrorModel(survey, name).errors *)
Definition error_model (tree : list (string * list json_file)) (rates : string -> string -> option (list V3))
  (azi_reference : string) (h : header) (l : list wstation) (name : string) : total_outcome :=
  match open_model tree name with
  | Yaml m => yaml_model_error azi_reference (is_rev4 name) h l m
  | Json f => json_model_error rates (is_rev4 name) l f
  | _ => TotalsRaise
  end.

(** ** Diagnostics *)

(** assignment to a dictionary with measured depths as keys *)
Fixpoint depth_set {A : Type} (d : R) (v : A) (m : list (R * A)) : list (R * A) :=
  match m with
  | [] => [(d, v)]
  | (d', v') :: r => if Req_EM_T d d' then (d', v) :: r else (d', v') :: depth_set d v r
  end.
Fixpoint depth_get {A : Type} (d : R) (m : list (R * A)) : option A :=
  match m with
  | [] => None
  | (d', v) :: r => if Req_EM_T d d' then Some v else depth_get d r
  end.
(** np.sum(..., axis=0) of rows of six *)
Definition add_row (a b : list R) : list R := map (fun p => fst p + snd p) (combine a b).
Definition sum_rows (rows : list (list R)) : list R := fold_left add_row rows (repeat 0 6).

(** welleng/error.py:570-577 one station; [errors] are the entries of
    survey.err.errors.errors.  Without any, [k] is unbound: UnboundLocalError. *)
Definition diagnose (errors : list (string * error)) (i : nat) : option (list (string * list R)) :=
  match errors with
  | [] => None
  | _ =>
      let row e := get_errors (nth i (er_cov_NEV (snd e)) mzero) in
      let d := fold_left (fun d e => dict_set (fst e) (row e) d) errors [] in
      Some (dict_set "TOTAL"%string (sum_rows (map row errors)) d)
  end.
(** welleng/error.py:553-578 make_diagnostic_data *)
Fixpoint diagnose_from (errors : list (string * error)) (i : nat) (mds : list R)
  (acc : list (R * list (string * list R))) : option (list (R * list (string * list R))) :=
  match mds with
  | [] => Some acc
  | d :: r =>
      match diagnose errors i with
      | None => None
      | Some x => diagnose_from errors (S i) r (depth_set d x acc)
      end
  end.
Definition make_diagnostic_data (mds : list R) (errors : list (string * error)) :=
  diagnose_from errors 0 mds [].
