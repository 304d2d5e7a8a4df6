(** welleng.errors.iscwsa_mwd.iscwsaMwd: the older class that computes the covariances
    of the two MWD models from error_codes.yaml. *)
Require Import Reals ZArith Bool String Ascii List.
Require Import Verif.Base Verif.NumPy Verif.M_Error Verif.M_Weights Verif.M_Bundle Verif.M_Models.
Import ListNotations.
Local Open Scope R_scope.

(** welleng/errors/tool_codes/error_codes.yaml:1-160 iscwsa_mwd_rev4, codes *)
Definition legacy_rev4 : list code_entry :=
  [mkCode "ABXY-TI1S" "ABXY_TI1" 0.004 "systematic";
   mkCode "ABXY-TI2S" "ABXY_TI2" 0.004 "systematic";
   mkCode "ABZ" "ABZ" 0.004 "systematic";
   mkCode "AMIL" "AMIL" 220 "systematic";
   mkCode "ASXY-TI1S" "ASXY_TI1" 0.0005 "systematic";
   mkCode "ASXY-TI2S" "ASXY_TI2" 0.0005 "systematic";
   mkCode "ASXY-TI3S" "ASXY_TI3" 0.0005 "systematic";
   mkCode "ASZ" "ASZ" 0.0005 "systematic";
   mkCode "DBHG" "DBH" 87.26646259971648 "systematic";
   mkCode "DBHR" "DBH" 52.35987755982988 "random";
   mkCode "DECG" "AZ" 0.006283185307179586 "systematic";
   mkCode "DECR" "AZ" 0.0017453292519943296 "random";
   mkCode "DRFR" "DREF" 0.35 "random";
   mkCode "DSFS" "DSF" 0.00056 "systematic";
   mkCode "DSTG" "DST" 2.5e-07 "systematic";
   mkCode "MBXY-TI1S" "MBXY_TI1" 70 "systematic";
   mkCode "MBXY-TI2S" "MBXY_TI2" 70 "systematic";
   mkCode "MBZ" "MBZ" 70 "systematic";
   mkCode "MSXY-TI1S" "MSXY_TI1" 0.0016 "systematic";
   mkCode "MSXY-TI2S" "MSXY_TI2" 0.0016 "systematic";
   mkCode "MSXY-TI3S" "MSXY_TI3" 0.0016 "systematic";
   mkCode "MSZ" "MSZ" 0.0016 "systematic";
   mkCode "SAG" "SAG" 0.003490658503988659 "systematic";
   mkCode "XYM1" "XYM1" 0.0017453292519943296 "systematic";
   mkCode "XYM2" "XYM2" 0.0017453292519943296 "systematic";
   mkCode "XYM3" "XYM3" 0.0017453292519943296 "systematic";
   mkCode "XYM4" "XYM4" 0.0017453292519943296 "systematic"]%string.
(** welleng/errors/tool_codes/error_codes.yaml:161-361 iscwsa_mwd_rev5, codes *)
Definition legacy_rev5 : list code_entry :=
  [mkCode "ABXY-TI1S" "ABXY_TI1" 0.004 "systematic";
   mkCode "ABXY-TI2S" "ABXY_TI2" 0.004 "systematic";
   mkCode "ABZ" "ABZ" 0.004 "systematic";
   mkCode "AMIL" "AMIL" 220 "systematic";
   mkCode "ASXY-TI1S" "ASXY_TI1" 0.0005 "systematic";
   mkCode "ASXY-TI2S" "ASXY_TI2" 0.0005 "systematic";
   mkCode "ASXY-TI3S" "ASXY_TI3" 0.0005 "systematic";
   mkCode "ASZ" "ASZ" 0.0005 "systematic";
   mkCode "DBH-OH" "DBH" 49.56735075663896 "systematic";
   mkCode "DBH-OI" "DBH" 6.213372137099813 "systematic";
   mkCode "DBH-OS" "DBH" 58.62560957448953 "systematic";
   mkCode "DBH-U" "DBH" 41.01523742186674 "systematic";
   mkCode "DBHR" "DBH" 52.35987755982988 "random";
   mkCode "DEC-OH" "AZ" 0.003490658503988659 "systematic";
   mkCode "DEC-OI" "AZ" 0.0008726646259971648 "systematic";
   mkCode "DEC-OS" "AZ" 0.0041887902047863905 "systematic";
   mkCode "DEC-U" "AZ" 0.0027925268031909274 "systematic";
   mkCode "DECR" "AZ" 0.0017453292519943296 "random";
   mkCode "DRFR" "DREF" 0.35 "random";
   mkCode "DSFS" "DSF" 0.00056 "systematic";
   mkCode "DSTG" "DST" 2.5e-07 "systematic";
   mkCode "MBXY-TI1S" "MBXY_TI1" 70 "systematic";
   mkCode "MBXY-TI2S" "MBXY_TI2" 70 "systematic";
   mkCode "MBZ" "MBZ" 70 "systematic";
   mkCode "MSXY-TI1S" "MSXY_TI1" 0.0016 "systematic";
   mkCode "MSXY-TI2S" "MSXY_TI2" 0.0016 "systematic";
   mkCode "MSXY-TI3S" "MSXY_TI3" 0.0016 "systematic";
   mkCode "MSZ" "MSZ" 0.0016 "systematic";
   mkCode "SAGE" "SAGE" 0.003490658503988659 "systematic";
   mkCode "XCLA" "XCL" 0.167 "random";
   mkCode "XCLH" "XCL" 0.167 "random";
   mkCode "XYM1" "XYM1" 0.0017453292519943296 "systematic";
   mkCode "XYM2" "XYM2" 0.0017453292519943296 "random";
   mkCode "XYM3E" "XYM3L" 0.005235987755982988 "random";
   mkCode "XYM4E" "XYM4L" 0.005235987755982988 "systematic"]%string.
(** iscwsa_mwd.py:43-55: the codes and the default tortuosity of a model; another name
    is a KeyError *)
Definition legacy_model (model : string) : option (option R * list code_entry) :=
  if String.eqb model "iscwsa_mwd_rev4" then Some (None, legacy_rev4)
  else if String.eqb model "iscwsa_mwd_rev5" then Some (Some 0.000572615, legacy_rev5)
  else None.
(** iscwsa_mwd.py:97-132 the keys of func_dict *)
Definition legacy_functions : list string :=
  ["ABXY_TI1"; "ABXY_TI2"; "ABZ"; "AMIL"; "ASXY_TI1"; "ASXY_TI2"; "ASXY_TI3"; "ASZ"; "DBH"; "AZ"; "DREF"; "DSF"; "DST";
   "MBXY_TI1"; "MBXY_TI2"; "MBZ"; "MSXY_TI1"; "MSXY_TI2"; "MSXY_TI3"; "MSZ"; "SAG"; "XYM1"; "XYM2"; "XYM3"; "XYM4"; "SAGE";
   "XCL"; "XYM3L"; "XYM4L"]%string.
(** name.split('_')[-1] *)
Fixpoint after_underscore (cur s : string) : string :=
  match s with
  | EmptyString => cur
  | String c r => if Ascii.eqb c "_" then after_underscore "" r else after_underscore (cur ++ String c EmptyString) r
  end.
(** iscwsa_mwd.py:220, 249 the rule for the second station in its ABXY_TI2: the name
    of the error model must end in _rev5 *)
Definition named_rev5 (name : string) : bool := String.eqb (after_underscore "" name) "rev5".
(** iscwsa_mwd.py:88-95 call_func.  The functions (136-969) are those of tool_errors.py
    but for that rule; [name] is the error_model of the ErrorModel, after the alias
    (error.py:165-175), which also decides the Jacobian.  None times an array, in XCL, is a
    TypeError. *)
Definition legacy_func (azi_reference : string) (tortuosity : option R) (name : string) (h : header)
  (l : list wstation) (c : code_entry) : outcome :=
  if existsb (String.eqb (c_function c)) legacy_functions then
    if String.eqb (c_function c) "ABXY_TI2" then
      ab_error w_ABXY_TI2 (named_rev5 (unalias name)) (is_rev4 name) h l (c_name c) (c_magnitude c) (c_propagation c)
    else match tortuosity with
    | None =>
        if String.eqb (c_function c) "XCL" then Raises
        else call_func azi_reference 0 (is_rev4 name) h l (c_name c) (c_function c) (c_magnitude c) (c_propagation c)
    | Some t => call_func azi_reference t (is_rev4 name) h l (c_name c) (c_function c) (c_magnitude c) (c_propagation c)
    end
  else Raises.
Inductive legacy_outcome := Covs (c : list M3) | LegacyRaise | LegacyNotFinite.
(** iscwsa_mwd.py:57-76 iscwsaMwd(ErrorModel(survey, name), model).cov_NEVs: no bound on the
    inclination here.  The sum over the codes in their order. *)
Definition iscwsa_mwd (azi_reference name model : string) (h : header) (l : list wstation) : legacy_outcome :=
  match legacy_model model with
  | None => LegacyRaise
  | Some (tortuosity, codes) =>
      let os := map (legacy_func azi_reference tortuosity name h l) codes in
      if existsb fails os then LegacyRaise
      else if existsb not_finite os then LegacyNotFinite
      else Covs (fold_left (fun a o => match o with Made e => map2 madd a (er_cov_NEV e) | _ => a end) os (zeros (length l)))
  end.
