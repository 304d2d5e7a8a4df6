(** What the formulas of the shipped JSON tool models are compared with: the
    functions of the same name for the models of tool_codes. *)
Require Import Reals Ascii String List Bool.
Require Import Verif.Base Verif.M_Weights.
Import ListNotations.
Local Open Scope string_scope.

(** ABXY-TI1 in a JSON file is ABXY_TI1 in a model of tool_codes *)
Fixpoint underscored (s : string) : string :=
  match s with
  | EmptyString => EmptyString
  | String c r => String (if Ascii.eqb c "-" then "_"%char else c) (underscored r)
  end.

(** the functions that divide by the sine of the inclination *)
Definition vertical_functions : list string := ["ABXY-TI2"; "CNA"; "XYM3"; "XYM4"].
(** the functions whose formulas say the same as the function of that name *)
Definition same_functions : list string :=
  ["ABXY-TI1"; "ABZ"; "AMID"; "ASIXY-TI1"; "ASIXY-TI2"; "ASIXY-TI3"; "ASIZ"; "ASXY-TI1"; "ASXY-TI2"; "ASXY-TI3"; "ASZ";
   "AZ"; "CNI"; "DBH"; "DREF"; "DSF"; "DST"; "MBIXY-TI1"; "MBIXY-TI2"; "MBXY-TI1"; "MBXY-TI2"; "MBZ"; "MDI";
   "MSIXY-TI1"; "MSIXY-TI2"; "MSIXY-TI3"; "MSXY-TI1"; "MSXY-TI2"; "MSXY-TI3"; "MSZ"; "SAG"; "SAGE"; "XYM1"; "XYM2"]
  ++ vertical_functions.
(** the functions with a formula that uses a name without a value: GField for Gfield,
    Bfield for BField, the values at the station above, and numbers that belong to a tool *)
Definition unknown_functions : list string :=
  ["ABIXY-TI1"; "ABIXY-TI2"; "MFI"; "XCLA"; "XCLH"; "XYM3E"; "XYM4E"; "GXY-GD"; "GXY-GRW"; "GXY-RN"; "GZ-GD"].
(** functions of gyros and the rest, which no function of tool_codes computes *)
Definition json_only_functions : list string :=
  ["AXYZ-MIS"; "AXYZ-SF"; "AXYZ-ZB"; "EXT-REF"; "GXY-B1"; "GXY-B2"; "GXY-G1"; "GXY-G4"].
(** ... of which these are among [unknown_functions] *)
Definition json_only_unknown : list string := ["GXY-GD"; "GXY-GRW"; "GXY-RN"; "GZ-GD"].
(** the propagations for which an error is made *)
Definition known_propagation (p : string) : Prop := In p ["systematic"; "global"; "within_pad"; "random"].
(** gravity, the magnetic field and its horizontal part are not zero *)
Definition sound_header (h : header) : Prop := (h_G h <> 0 /\ h_btotal h <> 0 /\ cos (h_dip h) <> 0)%R.
(** the terms of the gyro models among them: their functions are [unknown_functions] *)
Definition left_out_terms : list string :=
  ["XYM3E"; "XYM4E"; "XCLA"; "XCLH"; "GXY-RN"; "GXY-GD"; "GXY-GRW"; "GZ-GD"].
