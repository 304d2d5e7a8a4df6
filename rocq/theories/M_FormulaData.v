(** The weight functions and formulas of the terms of the 100 files in
    welleng/errors/iscwsa_json: name, x_owsg_weight_function, depth_formula,
    inclination_formula and azimuth_formula.  A name has the same entry in every file. *)
Require Import String List.
Import ListNotations.
Local Open Scope string_scope.

Record formulas := mkFormulas { f_name : string; f_function : string; f_depth : string; f_inc : string; f_azi : string }.

(** welleng/errors/iscwsa_json/owsg_a and owsg_b, all files: each term *)
Definition t_ABIXY_TI1S : formulas :=
  mkFormulas "ABIXY-TI1S" "ABIXY-TI1" "0" "-Cos(Inc) / Gfield"
    "(Cos(Inc) * Cos(Inc) * Sin(AzM) * (Tan(Dip) * Cos(Inc) + Sin(Inc) * Cos(AzM))) / (GField * (1 - Sin(Inc) * Sin(Inc) * Sin(AzM) * Sin(AzM)))".
Definition t_ABIXY_TI2S : formulas :=
  mkFormulas "ABIXY-TI2S" "ABIXY-TI2" "0" "0"
    "-(Tan(Dip) * Cos(AzM) - Tan(90 * RAD - Inc)) / (GField * (1 - Sin(Inc) * Sin(Inc) * Sin(AzM) * Sin(AzM)))".
Definition t_ABIZ : formulas :=
  mkFormulas "ABIZ" "ABIZ" "0" "-Sin(Inc) / Gfield"
    "(Sin(Inc) * Cos(Inc) * Sin(AzM) * (Tan(Dip) * Cos(Inc) + Sin(Inc) * Cos(AzM))) / (1 - Sin(Inc) * Sin(Inc) * Sin(AzM) * Sin(AzM)) / Gfield".
Definition t_ABXY_TI1S : formulas :=
  mkFormulas "ABXY-TI1S" "ABXY-TI1" "0" "-Cos(Inc) / Gfield"
    "(Tan(Dip) * Cos(Inc) * Sin(AzM)) / Gfield".
Definition t_ABXY_TI2S : formulas :=
  mkFormulas "ABXY-TI2S" "ABXY-TI2" "0" "0"
    "((Tan((pi / 2) - Inc)) - Tan(Dip) * Cos(AzM)) / Gfield".
Definition t_ABZ : formulas :=
  mkFormulas "ABZ" "ABZ" "0" "-Sin(Inc) / Gfield"
    "Tan(Dip) * Sin(Inc) * Sin(AzM) / Gfield".
Definition t_AMIC : formulas :=
  mkFormulas "AMIC" "AZ" "0" "0"
    "1".
Definition t_AMID : formulas :=
  mkFormulas "AMID" "AMID" "0" "0"
    "Sin(Inc) * Sin(AzM)".
Definition t_AMIL : formulas :=
  mkFormulas "AMIL" "AMIL" "0" "0"
    "Sin(Inc) * Sin(AzM) / (BField * Cos(Dip))".
Definition t_ASIXY_TI1S : formulas :=
  mkFormulas "ASIXY-TI1S" "ASIXY-TI1" "0" "Sin(Inc) * Cos(Inc) / Sqr(2)"
    "-(Sin(Inc) * Cos(Inc) * Cos(Inc) * Sin(AzM) * (Tan(Dip) * Cos(Inc) + Sin(Inc) * Cos(AzM))) / (Sqr(2) * (1 - Sin(Inc) * Sin(Inc) * Sin(AzM) * Sin(AzM)))".
Definition t_ASIXY_TI2S : formulas :=
  mkFormulas "ASIXY-TI2S" "ASIXY-TI2" "0" "Sin(Inc) * Cos(Inc) / 2"
    "-(Sin(Inc) * Cos(Inc) * Cos(Inc) * Sin(AzM) * (Tan(Dip) * Cos(Inc) + Sin(Inc) * Cos(AzM))) / (2 * (1 - Sin(Inc) * Sin(Inc) * Sin(AzM) * Sin(AzM)))".
Definition t_ASIXY_TI3S : formulas :=
  mkFormulas "ASIXY-TI3S" "ASIXY-TI3" "0" "0"
    "(Tan(Dip) * Sin(Inc) * Cos(AzM) - Cos(Inc)) / (2 * (1 - Sin(Inc) * Sin(Inc) * Sin(AzM) * Sin(AzM)))".
Definition t_ASIZ : formulas :=
  mkFormulas "ASIZ" "ASIZ" "0" "-Sin(Inc) * Cos(Inc)"
    "Sin(Inc) * Cos(Inc) * Cos(Inc) * Sin(AzM) * (Tan(Dip) * Cos(Inc) + Sin(Inc) * Cos(AzM)) / (1 - Sin(Inc) * Sin(Inc) * Sin(AzM) * Sin(AzM))".
Definition t_ASXY_TI1S : formulas :=
  mkFormulas "ASXY-TI1S" "ASXY-TI1" "0" "Sin(Inc) * Cos(Inc) / Sqr(2)"
    "(-Tan(Dip) * Sin(Inc) * Cos(Inc) * Sin(AzM)) / Sqr(2)".
Definition t_ASXY_TI2S : formulas :=
  mkFormulas "ASXY-TI2S" "ASXY-TI2" "0" "Sin(Inc) * Cos(Inc) / 2"
    "(-Tan(Dip) * Sin(Inc) * Cos(Inc) * Sin(AzM)) / 2".
Definition t_ASXY_TI3S : formulas :=
  mkFormulas "ASXY-TI3S" "ASXY-TI3" "0" "0"
    "(Tan(Dip) * Sin(Inc) * Cos(AzM) - Cos(Inc)) / 2".
Definition t_ASZ : formulas :=
  mkFormulas "ASZ" "ASZ" "0" "-Sin(Inc) * Cos(Inc)"
    "Tan(Dip) * Sin(Inc) * Cos(Inc) * Sin(AzM)".
Definition t_AXYZ_MIS : formulas :=
  mkFormulas "AXYZ-MIS" "AXYZ-MIS" "0" "1"
    "0".
Definition t_AXYZ_SF : formulas :=
  mkFormulas "AXYZ-SF" "AXYZ-SF" "0" "1.3 * Sin(Inc) * Cos(Inc)"
    "0".
Definition t_AXYZ_ZB : formulas :=
  mkFormulas "AXYZ-ZB" "AXYZ-ZB" "0" "Sin(Inc) / Gfield"
    "0".
Definition t_AZMR : formulas :=
  mkFormulas "AZMR" "AZ" "0" "0"
    "1".
Definition t_AZMS : formulas :=
  mkFormulas "AZMS" "AZ" "0" "0"
    "1".
Definition t_AZRF : formulas :=
  mkFormulas "AZRF" "AZ" "0" "0"
    "1".
Definition t_CNA : formulas :=
  mkFormulas "CNA" "CNA" "0" "0"
    "1 / Sin(Inc)".
Definition t_CNI : formulas :=
  mkFormulas "CNI" "CNI" "0" "1"
    "0".
Definition t_DBH_CH : formulas :=
  mkFormulas "DBH-CH" "DBH" "0" "0"
    "1 / (BField * Cos(Dip))".
Definition t_DBH_CI : formulas :=
  mkFormulas "DBH-CI" "DBH" "0" "0"
    "1 / (BField * Cos(Dip))".
Definition t_DBH_OH : formulas :=
  mkFormulas "DBH-OH" "DBH" "0" "0"
    "1 / (BField * Cos(Dip))".
Definition t_DBH_OI : formulas :=
  mkFormulas "DBH-OI" "DBH" "0" "0"
    "1 / (BField * Cos(Dip))".
Definition t_DBH_OS : formulas :=
  mkFormulas "DBH-OS" "DBH" "0" "0"
    "1 / (BField * Cos(Dip))".
Definition t_DBH_U : formulas :=
  mkFormulas "DBH-U" "DBH" "0" "0"
    "1 / (BField * Cos(Dip))".
Definition t_DBHG : formulas :=
  mkFormulas "DBHG" "DBH" "0" "0"
    "1 / (BField * Cos(Dip))".
Definition t_DBHR : formulas :=
  mkFormulas "DBHR" "DBH" "0" "0"
    "1 / (BField * Cos(Dip))".
Definition t_DBHS : formulas :=
  mkFormulas "DBHS" "DBH" "0" "0"
    "1 / (BField * Cos(Dip))".
Definition t_DEC_CH : formulas :=
  mkFormulas "DEC-CH" "AZ" "0" "0"
    "1".
Definition t_DEC_CI : formulas :=
  mkFormulas "DEC-CI" "AZ" "0" "0"
    "1".
Definition t_DEC_OH : formulas :=
  mkFormulas "DEC-OH" "AZ" "0" "0"
    "1".
Definition t_DEC_OI : formulas :=
  mkFormulas "DEC-OI" "AZ" "0" "0"
    "1".
Definition t_DEC_OS : formulas :=
  mkFormulas "DEC-OS" "AZ" "0" "0"
    "1".
Definition t_DEC_U : formulas :=
  mkFormulas "DEC-U" "AZ" "0" "0"
    "1".
Definition t_DECG : formulas :=
  mkFormulas "DECG" "AZ" "0" "0"
    "1".
Definition t_DECR : formulas :=
  mkFormulas "DECR" "AZ" "0" "0"
    "1".
Definition t_DECS : formulas :=
  mkFormulas "DECS" "AZ" "0" "0"
    "1".
Definition t_DRFR : formulas :=
  mkFormulas "DRFR" "DREF" "1" "0"
    "0".
Definition t_DRFS : formulas :=
  mkFormulas "DRFS" "DREF" "1" "0"
    "0".
Definition t_DSFS : formulas :=
  mkFormulas "DSFS" "DSF" "MD" "0"
    "0".
Definition t_DSFW : formulas :=
  mkFormulas "DSFW" "DSF" "MD" "0"
    "0".
Definition t_DSTG : formulas :=
  mkFormulas "DSTG" "DST" "MD * TVD" "0"
    "0".
Definition t_DSTS : formulas :=
  mkFormulas "DSTS" "DST" "MD * TVD" "0"
    "0".
Definition t_EXT_REF : formulas :=
  mkFormulas "EXT-REF" "EXT-REF" "0" "0"
    "1".
Definition t_GXY_B1R : formulas :=
  mkFormulas "GXY-B1R" "GXY-B1" "0" "0"
    "Sin(AzT) / (EarthRate * Cos(Latitude) * Cos(Inc))".
Definition t_GXY_B1S : formulas :=
  mkFormulas "GXY-B1S" "GXY-B1" "0" "0"
    "Sin(AzT) / (EarthRate * Cos(Latitude) * Cos(Inc))".
Definition t_GXY_B2R : formulas :=
  mkFormulas "GXY-B2R" "GXY-B2" "0" "0"
    "Cos(AzT) / (EarthRate * Cos(Latitude))".
Definition t_GXY_B2S : formulas :=
  mkFormulas "GXY-B2S" "GXY-B2" "0" "0"
    "Cos(AzT) / (EarthRate * Cos(Latitude))".
Definition t_GXY_G1 : formulas :=
  mkFormulas "GXY-G1" "GXY-G1" "0" "0"
    "Cos(AzT) * Sin(Inc) / (EarthRate * Cos(Latitude))".
Definition t_GXY_G4 : formulas :=
  mkFormulas "GXY-G4" "GXY-G4" "0" "0"
    "Sin(AzT) * Tan(Inc) / (EarthRate * Cos(Latitude))".
Definition t_GXY_GD : formulas :=
  mkFormulas "GXY-GD" "GXY-GD" "0" "0"
    "XY_Gyro_Drift + (MD - MDPrev) / (GXYRunningSpeed * Sin((Inc + IncPrev) / 2))".
Definition t_GXY_GRW : formulas :=
  mkFormulas "GXY-GRW" "GXY-GRW" "0" "0"
    "Sqr(XY_Gyro_Random_Walk ^ 2 + (MD - MDPrev) / (GXYRunningSpeed * Sin((Inc + IncPrev) / 2) ^ 2))".
Definition t_GXY_RN : formulas :=
  mkFormulas "GXY-RN" "GXY-RN" "0" "0"
    "NoiseReductionFactor * (Sqr(1 - (Cos(AzT)) ^ 2 * (Sin(Inc)) ^ 2)) / (EarthRate * Cos(Latitude) * Cos(Inc))".
Definition t_GZ_GD : formulas :=
  mkFormulas "GZ-GD" "GZ-GD" "0" "0"
    "Z_Gyro_Drift + (MD - MDPrev) / (GZRunningSpeed * Cos((Inc + IncPrev) / 2))".
Definition t_MBIXY_TI1S : formulas :=
  mkFormulas "MBIXY-TI1S" "MBIXY-TI1" "0" "0"
    "-Cos(Inc) * Sin(AzM) / (BField * Cos(Dip) * (1 - Sin(Inc) * Sin(Inc) * Sin(AzM) * Sin(AzM)))".
Definition t_MBIXY_TI2S : formulas :=
  mkFormulas "MBIXY-TI2S" "MBIXY-TI2" "0" "0"
    "Cos(AzM) / (BField * Cos(Dip) * (1 - Sin(Inc) * Sin(Inc) * Sin(AzM) * Sin(AzM)))".
Definition t_MBXY_TI1S : formulas :=
  mkFormulas "MBXY-TI1S" "MBXY-TI1" "0" "0"
    "-Cos(Inc) * Sin(AzM) / (BField * Cos(Dip))".
Definition t_MBXY_TI2S : formulas :=
  mkFormulas "MBXY-TI2S" "MBXY-TI2" "0" "0"
    "Cos(AzM) / (BField * Cos(Dip))".
Definition t_MBZ : formulas :=
  mkFormulas "MBZ" "MBZ" "0" "0"
    "-Sin(Inc) * Sin(AzM) / (BField * Cos(Dip))".
Definition t_MDI_CH : formulas :=
  mkFormulas "MDI-CH" "MDI" "0" "0"
    "-Sin(Inc) * Sin(AzM) * (Cos(Inc) - Tan(Dip) * Sin(Inc) * Cos(AzM)) / (1 - Sin(Inc) * Sin(Inc) * Sin(AzM) * Sin(AzM))".
Definition t_MDI_CI : formulas :=
  mkFormulas "MDI-CI" "MDI" "0" "0"
    "-Sin(Inc) * Sin(AzM) * (Cos(Inc) - Tan(Dip) * Sin(Inc) * Cos(AzM)) / (1 - Sin(Inc) * Sin(Inc) * Sin(AzM) * Sin(AzM))".
Definition t_MDI_OH : formulas :=
  mkFormulas "MDI-OH" "MDI" "0" "0"
    "-Sin(Inc) * Sin(AzM) * (Cos(Inc) - Tan(Dip) * Sin(Inc) * Cos(AzM)) / (1 - Sin(Inc) * Sin(Inc) * Sin(AzM) * Sin(AzM))".
Definition t_MDI_OI : formulas :=
  mkFormulas "MDI-OI" "MDI" "0" "0"
    "-Sin(Inc) * Sin(AzM) * (Cos(Inc) - Tan(Dip) * Sin(Inc) * Cos(AzM)) / (1 - Sin(Inc) * Sin(Inc) * Sin(AzM) * Sin(AzM))".
Definition t_MDI_OS : formulas :=
  mkFormulas "MDI-OS" "MDI" "0" "0"
    "-Sin(Inc) * Sin(AzM) * (Cos(Inc) - Tan(Dip) * Sin(Inc) * Cos(AzM)) / (1 - Sin(Inc) * Sin(Inc) * Sin(AzM) * Sin(AzM))".
Definition t_MDI_U : formulas :=
  mkFormulas "MDI-U" "MDI" "0" "0"
    "-Sin(Inc) * Sin(AzM) * (Cos(Inc) - Tan(Dip) * Sin(Inc) * Cos(AzM)) / (1 - Sin(Inc) * Sin(Inc) * Sin(AzM) * Sin(AzM))".
Definition t_MDIR : formulas :=
  mkFormulas "MDIR" "MDI" "0" "0"
    "-Sin(Inc) * Sin(AzM) * (Cos(Inc) - Tan(Dip) * Sin(Inc) * Cos(AzM)) / (1 - Sin(Inc) * Sin(Inc) * Sin(AzM) * Sin(AzM))".
Definition t_MFI_CH : formulas :=
  mkFormulas "MFI-CH" "MFI" "0" "0"
    "-Sin(Inc) * Sin(AzM) * (Tan(Dip) * Cos(Inc) + Sin(Inc) * Cos(AzM)) / (1 - Sin(Inc) * Sin(Inc) * Sin(AzM) * Sin(AzM)) / Bfield".
Definition t_MFI_CI : formulas :=
  mkFormulas "MFI-CI" "MFI" "0" "0"
    "-Sin(Inc) * Sin(AzM) * (Tan(Dip) * Cos(Inc) + Sin(Inc) * Cos(AzM)) / (1 - Sin(Inc) * Sin(Inc) * Sin(AzM) * Sin(AzM)) / Bfield".
Definition t_MFI_OH : formulas :=
  mkFormulas "MFI-OH" "MFI" "0" "0"
    "-Sin(Inc) * Sin(AzM) * (Tan(Dip) * Cos(Inc) + Sin(Inc) * Cos(AzM)) / (1 - Sin(Inc) * Sin(Inc) * Sin(AzM) * Sin(AzM)) / Bfield".
Definition t_MFI_OI : formulas :=
  mkFormulas "MFI-OI" "MFI" "0" "0"
    "-Sin(Inc) * Sin(AzM) * (Tan(Dip) * Cos(Inc) + Sin(Inc) * Cos(AzM)) / (1 - Sin(Inc) * Sin(Inc) * Sin(AzM) * Sin(AzM)) / Bfield".
Definition t_MFI_OS : formulas :=
  mkFormulas "MFI-OS" "MFI" "0" "0"
    "-Sin(Inc) * Sin(AzM) * (Tan(Dip) * Cos(Inc) + Sin(Inc) * Cos(AzM)) / (1 - Sin(Inc) * Sin(Inc) * Sin(AzM) * Sin(AzM)) / Bfield".
Definition t_MFI_U : formulas :=
  mkFormulas "MFI-U" "MFI" "0" "0"
    "-Sin(Inc) * Sin(AzM) * (Tan(Dip) * Cos(Inc) + Sin(Inc) * Cos(AzM)) / (1 - Sin(Inc) * Sin(Inc) * Sin(AzM) * Sin(AzM)) / Bfield".
Definition t_MFIR : formulas :=
  mkFormulas "MFIR" "MFI" "0" "0"
    "-Sin(Inc) * Sin(AzM) * (Tan(Dip) * Cos(Inc) + Sin(Inc) * Cos(AzM)) / (1 - Sin(Inc) * Sin(Inc) * Sin(AzM) * Sin(AzM)) / Bfield".
Definition t_MSIXY_TI1S : formulas :=
  mkFormulas "MSIXY-TI1S" "MSIXY-TI1" "0" "0"
    "Sin(Inc) * Sin(AzM) * (Tan(Dip) * Cos(Inc) + Sin(Inc) * Cos(AzM)) / (Sqr(2) * (1 - Sin(Inc) * Sin(Inc) * Sin(AzM) * Sin(AzM)))".
Definition t_MSIXY_TI2S : formulas :=
  mkFormulas "MSIXY-TI2S" "MSIXY-TI2" "0" "0"
    "Sin(AzM) * (Tan(Dip) * Sin(Inc) * Cos(Inc) - Cos(Inc) * Cos(Inc) * Cos(AzM) - Cos(AzM)) / (2 * (1 - Sin(Inc) * Sin(Inc) * Sin(AzM) * Sin(AzM)))".
Definition t_MSIXY_TI3S : formulas :=
  mkFormulas "MSIXY-TI3S" "MSIXY-TI3" "0" "0"
    "(Cos(Inc) * Cos(AzM) * Cos(AzM) - Cos(Inc) * Sin(AzM) * Sin(AzM) - Tan(Dip) * Sin(Inc) * Cos(AzM)) / (2 * (1 - Sin(Inc) * Sin(Inc) * Sin(AzM) * Sin(AzM)))".
Definition t_MSXY_TI1S : formulas :=
  mkFormulas "MSXY-TI1S" "MSXY-TI1" "0" "0"
    "Sin(Inc) * Sin(AzM) * (Tan(Dip) * Cos(Inc) + Sin(Inc) * Cos(AzM)) / Sqr(2)".
Definition t_MSXY_TI2S : formulas :=
  mkFormulas "MSXY-TI2S" "MSXY-TI2" "0" "0"
    "Sin(AzM) * (Tan(Dip) * Sin(Inc) * Cos(Inc) - Cos(Inc) * Cos(Inc) * Cos(AzM) - Cos(AzM)) / 2".
Definition t_MSXY_TI3S : formulas :=
  mkFormulas "MSXY-TI3S" "MSXY-TI3" "0" "0"
    "(Cos(Inc) * Cos(AzM) * Cos(AzM) - Cos(Inc) * Sin(AzM) * Sin(AzM) - Tan(Dip) * Sin(Inc) * Cos(AzM)) / 2".
Definition t_MSZ : formulas :=
  mkFormulas "MSZ" "MSZ" "0" "0"
    "-(Sin(Inc) * Cos(AzM) + Tan(Dip) * Cos(Inc)) * Sin(Inc) * Sin(AzM)".
Definition t_SAG : formulas :=
  mkFormulas "SAG" "SAG" "0" "Sin(Inc)"
    "0".
Definition t_SAGE : formulas :=
  mkFormulas "SAGE" "SAGE" "0" "(Sin(Inc))^0.25"
    "0".
Definition t_XCLA : formulas :=
  mkFormulas "XCLA" "XCLA" "0" "0"
    "Max(Sin(Abs(AzT-AzPrev)), XCLTortuosity * (MD-MDPrev) / Sin(Inc))".
Definition t_XCLH : formulas :=
  mkFormulas "XCLH" "XCLH" "0" "Max(Abs(Inc-IncPrev), XCLTortuosity* (MD-MDPrev))"
    "0".
Definition t_XYM1 : formulas :=
  mkFormulas "XYM1" "XYM1" "0" "Abs(Sin(Inc))"
    "0".
Definition t_XYM2 : formulas :=
  mkFormulas "XYM2" "XYM2" "0" "0"
    "-1".
Definition t_XYM3 : formulas :=
  mkFormulas "XYM3" "XYM3" "0" "Abs(Cos(Inc)) * Cos(AzT)"
    "-(Abs(Cos(Inc)) * Sin(AzT)) / Sin(Inc)".
Definition t_XYM3E : formulas :=
  mkFormulas "XYM3E" "XYM3E" "0" "Cos(Inc) * Cos(AzT)  * Max(1, sqrt(10/(MD-MDPrev)))"
    "(Cos(Inc) * Sin(AzT)  / Sin(Inc)) * Max(1, sqrt(10/(MD-MDPrev)))".
Definition t_XYM4 : formulas :=
  mkFormulas "XYM4" "XYM4" "0" "Abs(Cos(Inc)) * Sin(AzT)"
    "(Abs(Cos(Inc)) * Cos(AzT)) / Sin(Inc)".
Definition t_XYM4E : formulas :=
  mkFormulas "XYM4E" "XYM4E" "0" "Cos(Inc) * Sin(AzT) * Max(1, sqrt(10/(MD-MDPrev)))"
    "(Cos(Inc) * Cos(AzT)  / Sin(Inc)) * Max(1, sqrt(10/(MD-MDPrev)))".
(** welleng/errors/iscwsa_json/owsg_a and owsg_b, all files: all terms *)
Definition json_formulas : list formulas :=
  [t_ABIXY_TI1S; t_ABIXY_TI2S; t_ABIZ; t_ABXY_TI1S; t_ABXY_TI2S; t_ABZ; t_AMIC; t_AMID; t_AMIL; t_ASIXY_TI1S;
   t_ASIXY_TI2S; t_ASIXY_TI3S; t_ASIZ; t_ASXY_TI1S; t_ASXY_TI2S; t_ASXY_TI3S; t_ASZ; t_AXYZ_MIS; t_AXYZ_SF;
   t_AXYZ_ZB; t_AZMR; t_AZMS; t_AZRF; t_CNA; t_CNI; t_DBH_CH; t_DBH_CI; t_DBH_OH; t_DBH_OI; t_DBH_OS;
   t_DBH_U; t_DBHG; t_DBHR; t_DBHS; t_DEC_CH; t_DEC_CI; t_DEC_OH; t_DEC_OI; t_DEC_OS; t_DEC_U; t_DECG;
   t_DECR; t_DECS; t_DRFR; t_DRFS; t_DSFS; t_DSFW; t_DSTG; t_DSTS; t_EXT_REF; t_GXY_B1R; t_GXY_B1S;
   t_GXY_B2R; t_GXY_B2S; t_GXY_G1; t_GXY_G4; t_GXY_GD; t_GXY_GRW; t_GXY_RN; t_GZ_GD; t_MBIXY_TI1S;
   t_MBIXY_TI2S; t_MBXY_TI1S; t_MBXY_TI2S; t_MBZ; t_MDI_CH; t_MDI_CI; t_MDI_OH; t_MDI_OI; t_MDI_OS; t_MDI_U;
   t_MDIR; t_MFI_CH; t_MFI_CI; t_MFI_OH; t_MFI_OI; t_MFI_OS; t_MFI_U; t_MFIR; t_MSIXY_TI1S; t_MSIXY_TI2S;
   t_MSIXY_TI3S; t_MSXY_TI1S; t_MSXY_TI2S; t_MSXY_TI3S; t_MSZ; t_SAG; t_SAGE; t_XCLA; t_XCLH; t_XYM1; t_XYM2;
   t_XYM3; t_XYM3E; t_XYM4; t_XYM4E].
