(** welleng.error.ErrorModel with a JSON tool model, its formulas evaluated. *)
Require Import Reals ZArith Bool String List.
Require Import Verif.Base Verif.NumPy Verif.M_Error Verif.M_Weights Verif.M_Bundle Verif.M_Models Verif.M_FormulaData Verif.M_Formulas.
Import ListNotations.
Local Open Scope R_scope.

(** the formulas of the term of that name, the same in every file *)
Definition formulas_of (name : string) : option formulas := find (fun f => String.eqb (f_name f) name) json_formulas.
(** welleng/error.py:207-245 arr[0] = 0 in _e_NEV and _e_NEV_star: the values at the first
    station have no part in the covariances, finite or not *)
Definition below_first (rows : list (option V3)) : option (list V3) :=
  match rows with
  | [] => Some []
  | o :: r => option_map (cons (match o with Some v => v | None => vzero end)) (seq_opt r)
  end.
(** welleng/errors/tool_errors.py:323-352 the values at all stations: None when a formula
    cannot be evaluated, Some None when a value below the first station is inf or nan *)
Definition term_rows (h : header) (lat : R) (l : list wstation) (name : string) : option (option (list V3)) :=
  match formulas_of name with
  | None => None
  | Some f => match seq_opt (map (term_row h lat f) l) with Some rows => Some (below_first rows) | None => None end
  end.
Definition json_rates (h : header) (lat : R) (l : list wstation) (file name : string) : option (list V3) :=
  match term_rows h lat l name with Some (Some d) => Some d | _ => None end.
Definition finite_term (h : header) (lat : R) (l : list wstation) (t : json_term) : bool :=
  match term_rows h lat l (jt_name t) with Some None => false | _ => true end.
(** welleng/error.py:148-205 ErrorModel(survey, name).errors; [error_model] with the
    values of the formulas; covariances with an inf or nan are not finite *)
Definition formula_error_model (tree : list (string * list json_file)) (azi_reference : string) (h : header) (lat : R)
  (l : list wstation) (name : string) : total_outcome :=
  match error_model tree (json_rates h lat l) azi_reference h l name, open_model tree name with
  | Totals t, Json f =>
      match find (fun m => String.eqb (jm_file m) (jf_file f)) json_models with
      | Some m => if forallb (finite_term h lat l) (jm_terms m) then Totals t else TotalsNotFinite
      | None => TotalsRaise
      end
  | o, _ => o
  end.
