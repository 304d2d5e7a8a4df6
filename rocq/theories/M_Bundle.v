(** GENERATED by tools/mkbundle.py from the data files that ship with the library.
    The tool models of welleng/errors/tool_codes/*.yaml listed in
    welleng/errors/tool_index.yaml: name, function, magnitude and propagation of
    each code, the inclination limit and tortuosity of the header.  The files of
    welleng/errors/iscwsa_json: file name, model_id and short_name; and the
    terms of those for which there is no yaml file (the formulas are left out). *)
Require Import Reals ZArith Bool String List.
Require Import Verif.Base Verif.M_Error Verif.M_Weights.
Import ListNotations.
Local Open Scope R_scope.

(** a tool model: "Short Name", "Inclination Range Max" in degrees, and whether the
    header has "Default Tortusity (rad/m)" (its value) or "XCL Tortuosity" *)
Inductive tort_entry := Tortuosity (r : R) | XclTortuosity | NoTortuosity.
Record tool_file := mkTool {
  tf_short : string; tf_max_inc : R; tf_tort : tort_entry; tf_codes : list code_entry
}.
(** a file of iscwsa_json *)
Record json_file := mkJson { jf_file : string; jf_id : string; jf_short : string }.
(** a term of one, without its formulas *)
Record json_term := mkJTerm { jt_name : string; jt_value : R; jt_mode : string; jt_unit : string }.
Record json_model := mkJModel { jm_file : string; jm_inc_max : R; jm_terms : list json_term }.

(** welleng/errors/tool_index.yaml: keys and "Short Name" *)
Definition tool_index : list (string * string) :=
  [("A001Mc", "MWD+SRGM");
   ("A001Mc_Fl", "MWD+SRGM_Fl");
   ("A002Mc", "MWD+SRGM+SAG");
   ("A002Mc_Fl", "MWD+SRGM+SAG_Fl");
   ("A003Mc", "MWD+SRGM+AX");
   ("A003Mc_Fl", "MWD+SRGM+AX_Fl");
   ("A004Mc", "MWD+SRGM+AX+SAG");
   ("A004Mc_Fl", "MWD+SRGM+AX+SAG_Fl");
   ("A005Mc", "MWD+IFR1");
   ("A005Mc_Fl", "MWD+IFR1_Fl");
   ("A006Mc", "MWD+IFR1+AX");
   ("A006Mc_Fl", "MWD+IFR1+AX_Fl");
   ("A007Mc", "MWD+IFR1+AX+SAG");
   ("A007Mc_Fl", "MWD+IFR1+AX+SAG_Fl");
   ("A008Mc", "MWD+IFR1+MS");
   ("A008Mc_Fl", "MWD+IFR1+MS_Fl");
   ("A009Mc", "MWD+IFR1+SAG");
   ("A009Mc_Fl", "MWD+IFR1+SAG_Fl");
   ("A010Mc", "MWD+IFR1+SAG+MS");
   ("A010Mc_Fl", "MWD+IFR1+SAG+MS_Fl");
   ("A011Mc", "MWD+IFR2+AX+SAG");
   ("A011Mc_Fl", "MWD+IFR2+AX+SAG_Fl");
   ("A012Mc", "MWD+IFR2+SAG");
   ("A012Mc_Fl", "MWD+IFR2+SAG_Fl");
   ("A013Mc", "MWD+IFR2+SAG+MS");
   ("A013Mc_Fl", "MWD+IFR2+SAG+MS_Fl");
   ("A014Mc", "EMS+SRGM");
   ("A014Mc_Fl", "EMS+SRGM_Fl");
   ("A015Mc", "EMS+SRGM+AX");
   ("A015Mc_Fl", "EMS+SRGM+AX_Fl");
   ("A016Mc", "EMS+SRGM+AX+SAG");
   ("A016Mc_Fl", "EMS+SRGM+AX+SAG_Fl");
   ("A017Mc", "EMS+SRGM+SAG");
   ("A017Mc_Fl", "EMS+SRGM+SAG_Fl");
   ("A018Mb", "DIPMETER");
   ("A018Mb_Fl", "DIPMETER_Fl");
   ("A019Gb", "GYRO-MWD");
   ("A019Gb_Fl", "GYRO-MWD_Fl");
   ("A020Gb", "GYRO-NS");
   ("A020Gb_Fl", "GYRO-NS_Fl");
   ("A021Gc", "GYRO-NS-CT");
   ("A021Gc_Fl", "GYRO-NS-CT_Fl");
   ("A022Gb", "CB_Film_GMS");
   ("A022Gb_Fl", "CB_Film_GMS_Fl");
   ("A023Gb", "CB_Film_GSS");
   ("A023Gb_Fl", "CB_Film_GSS_Fl");
   ("A024Mb", "CB_Film_MMS");
   ("A024Mb_Fl", "CB_Film_MMS_Fl");
   ("A025Mb", "CB_Film_MSS");
   ("A025Mb_Fl", "CB_Film_MSS_Fl");
   ("A026Ua", "BLIND");
   ("A026Ua_Fl", "BLIND_Fl");
   ("A027Ub", "INC-ONLY");
   ("A027Ub_Fl", "INC-ONLY_Fl");
   ("A028Ub", "INC-ONLY_PLANNED_5_DEG");
   ("A028Ub_Fl", "INC-ONLY_PLANNED_5_DEG_Fl");
   ("A029Ub", "UNKNOWN");
   ("A029Ub_Fl", "UNKNOWN_Fl");
   ("A030Ua", "ZERO-ERROR");
   ("ISCWSA MWD Rev4", "ISCWSA MWD Rev4");
   ("ISCWSA MWD Rev5.11", "ISCWSA MWD Rev5.11");
   ("spe-90408-ma_example_table_3", "spe-90408-ma_example_table_3")]%string.

(** welleng/errors/tool_codes/A001Mc.yaml *)
Definition tool_A001Mc : tool_file := mkTool "MWD+SRGM" 180 (XclTortuosity)
  [mkCode "ABXY-TI1S" "ABXY_TI1" 0.004 "systematic";
   mkCode "ABXY-TI2S" "ABXY_TI2" 0.004 "systematic";
   mkCode "ABZ" "ABZ" 0.004 "systematic";
   mkCode "AMIL" "AMIL" 220 "systematic";
   mkCode "ASXY-TI1S" "ASXY_TI1" 0.0005 "systematic";
   mkCode "ASXY-TI2S" "ASXY_TI2" 0.0005 "systematic";
   mkCode "ASXY-TI3S" "ASXY_TI3" 0.0005 "systematic";
   mkCode "ASZ" "ASZ" 0.0005 "systematic";
   mkCode "DBH-OH" "DBH" 49.56735075663896 "global";
   mkCode "DBH-OI" "DBH" 6.213372137099813 "global";
   mkCode "DBH-OS" "DBH" 58.62560957448953 "global";
   mkCode "DBH-U" "DBH" 41.01523742186674 "within_pad";
   mkCode "DBHR" "DBH" 52.35987755982988 "random";
   mkCode "DEC-OH" "AZ" 0.003665191429188092 "global";
   mkCode "DEC-OI" "AZ" 0.0008726646259971648 "global";
   mkCode "DEC-OS" "AZ" 0.0041887902047863905 "global";
   mkCode "DEC-U" "AZ" 0.0027925268031909274 "within_pad";
   mkCode "DECR" "AZ" 0.0017453292519943296 "random";
   mkCode "DRFR" "DREF" 0.35 "random";
   mkCode "DSFS" "DSF" 0.00056 "systematic";
   mkCode "DSTG" "DST" 2.5e-07 "global";
   mkCode "MBXY-TI1S" "MBXY_TI1" 70 "systematic";
   mkCode "MBXY-TI2S" "MBXY_TI2" 70 "systematic";
   mkCode "MBZ" "MBZ" 70 "systematic";
   mkCode "MSXY-TI1S" "MSXY_TI1" 0.0016 "systematic";
   mkCode "MSXY-TI2S" "MSXY_TI2" 0.0016 "systematic";
   mkCode "MSXY-TI3S" "MSXY_TI3" 0.0016 "systematic";
   mkCode "MSZ" "MSZ" 0.0016 "systematic";
   mkCode "SAGE" "SAGE" 0.003490658503988659 "systematic";
   mkCode "XCLA" "XCLA" 0.167 "random";
   mkCode "XCLH" "XCLH" 0.167 "random";
   mkCode "XYM1" "XYM1" 0.0017453292519943296 "systematic";
   mkCode "XYM2" "XYM2" 0.0017453292519943296 "systematic";
   mkCode "XYM3E" "XYM3E" 0.005235987755982988 "random";
   mkCode "XYM4E" "XYM4E" 0.005235987755982988 "random"]%string.
(** welleng/errors/tool_codes/A001Mc_Fl.yaml *)
Definition tool_A001Mc_Fl : tool_file := mkTool "MWD+SRGM_Fl" 180 (XclTortuosity)
  [mkCode "ABXY-TI1S" "ABXY_TI1" 0.004 "systematic";
   mkCode "ABXY-TI2S" "ABXY_TI2" 0.004 "systematic";
   mkCode "ABZ" "ABZ" 0.004 "systematic";
   mkCode "AMIL" "AMIL" 220 "systematic";
   mkCode "ASXY-TI1S" "ASXY_TI1" 0.0005 "systematic";
   mkCode "ASXY-TI2S" "ASXY_TI2" 0.0005 "systematic";
   mkCode "ASXY-TI3S" "ASXY_TI3" 0.0005 "systematic";
   mkCode "ASZ" "ASZ" 0.0005 "systematic";
   mkCode "DBH-OH" "DBH" 49.56735075663896 "global";
   mkCode "DBH-OI" "DBH" 6.213372137099813 "global";
   mkCode "DBH-OS" "DBH" 58.62560957448953 "global";
   mkCode "DBH-U" "DBH" 41.01523742186674 "within_pad";
   mkCode "DBHR" "DBH" 52.35987755982988 "random";
   mkCode "DEC-OH" "AZ" 0.003665191429188092 "global";
   mkCode "DEC-OI" "AZ" 0.0008726646259971648 "global";
   mkCode "DEC-OS" "AZ" 0.0041887902047863905 "global";
   mkCode "DEC-U" "AZ" 0.0027925268031909274 "within_pad";
   mkCode "DECR" "AZ" 0.0017453292519943296 "random";
   mkCode "DRFR" "DREF" 2.2 "random";
   mkCode "DRFS" "DREF" 1 "systematic";
   mkCode "DSFS" "DSF" 0.00056 "systematic";
   mkCode "DSTG" "DST" 2.5e-07 "global";
   mkCode "MBXY-TI1S" "MBXY_TI1" 70 "systematic";
   mkCode "MBXY-TI2S" "MBXY_TI2" 70 "systematic";
   mkCode "MBZ" "MBZ" 70 "systematic";
   mkCode "MSXY-TI1S" "MSXY_TI1" 0.0016 "systematic";
   mkCode "MSXY-TI2S" "MSXY_TI2" 0.0016 "systematic";
   mkCode "MSXY-TI3S" "MSXY_TI3" 0.0016 "systematic";
   mkCode "MSZ" "MSZ" 0.0016 "systematic";
   mkCode "SAGE" "SAGE" 0.003490658503988659 "systematic";
   mkCode "XCLA" "XCLA" 0.167 "random";
   mkCode "XCLH" "XCLH" 0.167 "random";
   mkCode "XYM1" "XYM1" 0.0017453292519943296 "systematic";
   mkCode "XYM2" "XYM2" 0.0017453292519943296 "systematic";
   mkCode "XYM3E" "XYM3E" 0.005235987755982988 "random";
   mkCode "XYM4E" "XYM4E" 0.005235987755982988 "random"]%string.
(** welleng/errors/tool_codes/A002Mc.yaml *)
Definition tool_A002Mc : tool_file := mkTool "MWD+SRGM+SAG" 180 (XclTortuosity)
  [mkCode "ABXY-TI1S" "ABXY_TI1" 0.004 "systematic";
   mkCode "ABXY-TI2S" "ABXY_TI2" 0.004 "systematic";
   mkCode "ABZ" "ABZ" 0.004 "systematic";
   mkCode "AMIL" "AMIL" 220 "systematic";
   mkCode "ASXY-TI1S" "ASXY_TI1" 0.0005 "systematic";
   mkCode "ASXY-TI2S" "ASXY_TI2" 0.0005 "systematic";
   mkCode "ASXY-TI3S" "ASXY_TI3" 0.0005 "systematic";
   mkCode "ASZ" "ASZ" 0.0005 "systematic";
   mkCode "DBH-OH" "DBH" 49.56735075663896 "global";
   mkCode "DBH-OI" "DBH" 6.213372137099813 "global";
   mkCode "DBH-OS" "DBH" 58.62560957448953 "global";
   mkCode "DBH-U" "DBH" 41.01523742186674 "within_pad";
   mkCode "DBHR" "DBH" 52.35987755982988 "random";
   mkCode "DEC-OH" "AZ" 0.003665191429188092 "global";
   mkCode "DEC-OI" "AZ" 0.0008726646259971648 "global";
   mkCode "DEC-OS" "AZ" 0.0041887902047863905 "global";
   mkCode "DEC-U" "AZ" 0.0027925268031909274 "within_pad";
   mkCode "DECR" "AZ" 0.0017453292519943296 "random";
   mkCode "DRFR" "DREF" 0.35 "random";
   mkCode "DSFS" "DSF" 0.00056 "systematic";
   mkCode "DSTG" "DST" 2.5e-07 "global";
   mkCode "MBXY-TI1S" "MBXY_TI1" 70 "systematic";
   mkCode "MBXY-TI2S" "MBXY_TI2" 70 "systematic";
   mkCode "MBZ" "MBZ" 70 "systematic";
   mkCode "MSXY-TI1S" "MSXY_TI1" 0.0016 "systematic";
   mkCode "MSXY-TI2S" "MSXY_TI2" 0.0016 "systematic";
   mkCode "MSXY-TI3S" "MSXY_TI3" 0.0016 "systematic";
   mkCode "MSZ" "MSZ" 0.0016 "systematic";
   mkCode "SAGE" "SAGE" 0.0013962634015954637 "systematic";
   mkCode "XCLA" "XCLA" 0.167 "random";
   mkCode "XCLH" "XCLH" 0.167 "random";
   mkCode "XYM1" "XYM1" 0.0017453292519943296 "systematic";
   mkCode "XYM2" "XYM2" 0.0017453292519943296 "systematic";
   mkCode "XYM3E" "XYM3E" 0.005235987755982988 "random";
   mkCode "XYM4E" "XYM4E" 0.005235987755982988 "random"]%string.
(** welleng/errors/tool_codes/A002Mc_Fl.yaml *)
Definition tool_A002Mc_Fl : tool_file := mkTool "MWD+SRGM+SAG_Fl" 180 (XclTortuosity)
  [mkCode "ABXY-TI1S" "ABXY_TI1" 0.004 "systematic";
   mkCode "ABXY-TI2S" "ABXY_TI2" 0.004 "systematic";
   mkCode "ABZ" "ABZ" 0.004 "systematic";
   mkCode "AMIL" "AMIL" 220 "systematic";
   mkCode "ASXY-TI1S" "ASXY_TI1" 0.0005 "systematic";
   mkCode "ASXY-TI2S" "ASXY_TI2" 0.0005 "systematic";
   mkCode "ASXY-TI3S" "ASXY_TI3" 0.0005 "systematic";
   mkCode "ASZ" "ASZ" 0.0005 "systematic";
   mkCode "DBH-OH" "DBH" 49.56735075663896 "global";
   mkCode "DBH-OI" "DBH" 6.213372137099813 "global";
   mkCode "DBH-OS" "DBH" 58.62560957448953 "global";
   mkCode "DBH-U" "DBH" 41.01523742186674 "within_pad";
   mkCode "DBHR" "DBH" 52.35987755982988 "random";
   mkCode "DEC-OH" "AZ" 0.003665191429188092 "global";
   mkCode "DEC-OI" "AZ" 0.0008726646259971648 "global";
   mkCode "DEC-OS" "AZ" 0.0041887902047863905 "global";
   mkCode "DEC-U" "AZ" 0.0027925268031909274 "within_pad";
   mkCode "DECR" "AZ" 0.0017453292519943296 "random";
   mkCode "DRFR" "DREF" 2.2 "random";
   mkCode "DRFS" "DREF" 1 "systematic";
   mkCode "DSFS" "DSF" 0.00056 "systematic";
   mkCode "DSTG" "DST" 2.5e-07 "global";
   mkCode "MBXY-TI1S" "MBXY_TI1" 70 "systematic";
   mkCode "MBXY-TI2S" "MBXY_TI2" 70 "systematic";
   mkCode "MBZ" "MBZ" 70 "systematic";
   mkCode "MSXY-TI1S" "MSXY_TI1" 0.0016 "systematic";
   mkCode "MSXY-TI2S" "MSXY_TI2" 0.0016 "systematic";
   mkCode "MSXY-TI3S" "MSXY_TI3" 0.0016 "systematic";
   mkCode "MSZ" "MSZ" 0.0016 "systematic";
   mkCode "SAGE" "SAGE" 0.0013962634015954637 "systematic";
   mkCode "XCLA" "XCLA" 0.167 "random";
   mkCode "XCLH" "XCLH" 0.167 "random";
   mkCode "XYM1" "XYM1" 0.0017453292519943296 "systematic";
   mkCode "XYM2" "XYM2" 0.0017453292519943296 "systematic";
   mkCode "XYM3E" "XYM3E" 0.005235987755982988 "random";
   mkCode "XYM4E" "XYM4E" 0.005235987755982988 "random"]%string.
(** welleng/errors/tool_codes/A003Mc.yaml *)
Definition tool_A003Mc : tool_file := mkTool "MWD+SRGM+AX" 180 (XclTortuosity)
  [mkCode "ABIXY-TI1S" "ABIXY_TI1" 0.004 "systematic";
   mkCode "ABIXY-TI2S" "ABIXY_TI2" 0.004 "systematic";
   mkCode "ABIZ" "ABIZ" 0.004 "systematic";
   mkCode "ASIXY-TI1S" "ASIXY_TI1" 0.0005 "systematic";
   mkCode "ASIXY-TI2S" "ASIXY_TI2" 0.0005 "systematic";
   mkCode "ASIXY-TI3S" "ASIXY_TI3" 0.0005 "systematic";
   mkCode "ASIZ" "ASIZ" 0.0005 "systematic";
   mkCode "DBH-OH" "DBH" 49.56735075663896 "global";
   mkCode "DBH-OI" "DBH" 6.213372137099813 "global";
   mkCode "DBH-OS" "DBH" 58.62560957448953 "global";
   mkCode "DBH-U" "DBH" 41.01523742186674 "within_pad";
   mkCode "DBHR" "DBH" 52.35987755982988 "random";
   mkCode "DEC-OH" "AZ" 0.003665191429188092 "global";
   mkCode "DEC-OI" "AZ" 0.0008726646259971648 "global";
   mkCode "DEC-OS" "AZ" 0.0041887902047863905 "global";
   mkCode "DEC-U" "AZ" 0.0027925268031909274 "within_pad";
   mkCode "DECR" "AZ" 0.0017453292519943296 "random";
   mkCode "DRFR" "DREF" 0.35 "random";
   mkCode "DSFS" "DSF" 0.00056 "systematic";
   mkCode "DSTG" "DST" 2.5e-07 "global";
   mkCode "MBIXY-TI1S" "MBIXY_TI1" 70 "systematic";
   mkCode "MBIXY-TI2S" "MBIXY_TI2" 70 "systematic";
   mkCode "MDI-OH" "MDI" 0.0019198621771937625 "global";
   mkCode "MDI-OI" "MDI" 0.0005235987755982988 "global";
   mkCode "MDI-OS" "MDI" 0.0024434609527920616 "global";
   mkCode "MDI-U" "MDI" 0.0015707963267948964 "within_pad";
   mkCode "MDIR" "MDI" 0.0013962634015954637 "random";
   mkCode "MFI-OH" "MFI" 73 "global";
   mkCode "MFI-OI" "MFI" 13 "global";
   mkCode "MFI-OS" "MFI" 88 "global";
   mkCode "MFI-U" "MFI" 61 "within_pad";
   mkCode "MFIR" "MFI" 60 "random";
   mkCode "MSIXY-TI1S" "MSIXY_TI1" 0.0016 "systematic";
   mkCode "MSIXY-TI2S" "MSIXY_TI2" 0.0016 "systematic";
   mkCode "MSIXY-TI3S" "MSIXY_TI3" 0.0016 "systematic";
   mkCode "SAGE" "SAGE" 0.003490658503988659 "systematic";
   mkCode "XCLA" "XCLA" 0.167 "random";
   mkCode "XCLH" "XCLH" 0.167 "random";
   mkCode "XYM1" "XYM1" 0.0017453292519943296 "systematic";
   mkCode "XYM2" "XYM2" 0.0017453292519943296 "systematic";
   mkCode "XYM3E" "XYM3E" 0.005235987755982988 "random";
   mkCode "XYM4E" "XYM4E" 0.005235987755982988 "random"]%string.
(** welleng/errors/tool_codes/A003Mc_Fl.yaml *)
Definition tool_A003Mc_Fl : tool_file := mkTool "MWD+SRGM+AX_Fl" 180 (XclTortuosity)
  [mkCode "ABIXY-TI1S" "ABIXY_TI1" 0.004 "systematic";
   mkCode "ABIXY-TI2S" "ABIXY_TI2" 0.004 "systematic";
   mkCode "ABIZ" "ABIZ" 0.004 "systematic";
   mkCode "ASIXY-TI1S" "ASIXY_TI1" 0.0005 "systematic";
   mkCode "ASIXY-TI2S" "ASIXY_TI2" 0.0005 "systematic";
   mkCode "ASIXY-TI3S" "ASIXY_TI3" 0.0005 "systematic";
   mkCode "ASIZ" "ASIZ" 0.0005 "systematic";
   mkCode "DBH-OH" "DBH" 49.56735075663896 "global";
   mkCode "DBH-OI" "DBH" 6.213372137099813 "global";
   mkCode "DBH-OS" "DBH" 58.62560957448953 "global";
   mkCode "DBH-U" "DBH" 41.01523742186674 "within_pad";
   mkCode "DBHR" "DBH" 52.35987755982988 "random";
   mkCode "DEC-OH" "AZ" 0.003665191429188092 "global";
   mkCode "DEC-OI" "AZ" 0.0008726646259971648 "global";
   mkCode "DEC-OS" "AZ" 0.0041887902047863905 "global";
   mkCode "DEC-U" "AZ" 0.0027925268031909274 "within_pad";
   mkCode "DECR" "AZ" 0.0017453292519943296 "random";
   mkCode "DRFR" "DREF" 2.2 "random";
   mkCode "DRFS" "DREF" 1 "systematic";
   mkCode "DSFS" "DSF" 0.00056 "systematic";
   mkCode "DSTG" "DST" 2.5e-07 "global";
   mkCode "MBIXY-TI1S" "MBIXY_TI1" 70 "systematic";
   mkCode "MBIXY-TI2S" "MBIXY_TI2" 70 "systematic";
   mkCode "MDI-OH" "MDI" 0.0019198621771937625 "global";
   mkCode "MDI-OI" "MDI" 0.0005235987755982988 "global";
   mkCode "MDI-OS" "MDI" 0.0024434609527920616 "global";
   mkCode "MDI-U" "MDI" 0.0015707963267948964 "within_pad";
   mkCode "MDIR" "MDI" 0.0013962634015954637 "random";
   mkCode "MFI-OH" "MFI" 73 "global";
   mkCode "MFI-OI" "MFI" 13 "global";
   mkCode "MFI-OS" "MFI" 88 "global";
   mkCode "MFI-U" "MFI" 61 "within_pad";
   mkCode "MFIR" "MFI" 60 "random";
   mkCode "MSIXY-TI1S" "MSIXY_TI1" 0.0016 "systematic";
   mkCode "MSIXY-TI2S" "MSIXY_TI2" 0.0016 "systematic";
   mkCode "MSIXY-TI3S" "MSIXY_TI3" 0.0016 "systematic";
   mkCode "SAGE" "SAGE" 0.003490658503988659 "systematic";
   mkCode "XCLA" "XCLA" 0.167 "random";
   mkCode "XCLH" "XCLH" 0.167 "random";
   mkCode "XYM1" "XYM1" 0.0017453292519943296 "systematic";
   mkCode "XYM2" "XYM2" 0.0017453292519943296 "systematic";
   mkCode "XYM3E" "XYM3E" 0.005235987755982988 "random";
   mkCode "XYM4E" "XYM4E" 0.005235987755982988 "random"]%string.
(** welleng/errors/tool_codes/A004Mc.yaml *)
Definition tool_A004Mc : tool_file := mkTool "MWD+SRGM+AX+SAG" 180 (XclTortuosity)
  [mkCode "ABIXY-TI1S" "ABIXY_TI1" 0.004 "systematic";
   mkCode "ABIXY-TI2S" "ABIXY_TI2" 0.004 "systematic";
   mkCode "ABIZ" "ABIZ" 0.004 "systematic";
   mkCode "ASIXY-TI1S" "ASIXY_TI1" 0.0005 "systematic";
   mkCode "ASIXY-TI2S" "ASIXY_TI2" 0.0005 "systematic";
   mkCode "ASIXY-TI3S" "ASIXY_TI3" 0.0005 "systematic";
   mkCode "ASIZ" "ASIZ" 0.0005 "systematic";
   mkCode "DBH-OH" "DBH" 49.56735075663896 "global";
   mkCode "DBH-OI" "DBH" 6.213372137099813 "global";
   mkCode "DBH-OS" "DBH" 58.62560957448953 "global";
   mkCode "DBH-U" "DBH" 41.01523742186674 "within_pad";
   mkCode "DBHR" "DBH" 52.35987755982988 "random";
   mkCode "DEC-OH" "AZ" 0.003665191429188092 "global";
   mkCode "DEC-OI" "AZ" 0.0008726646259971648 "global";
   mkCode "DEC-OS" "AZ" 0.0041887902047863905 "global";
   mkCode "DEC-U" "AZ" 0.0027925268031909274 "within_pad";
   mkCode "DECR" "AZ" 0.0017453292519943296 "random";
   mkCode "DRFR" "DREF" 0.35 "random";
   mkCode "DSFS" "DSF" 0.00056 "systematic";
   mkCode "DSTG" "DST" 2.5e-07 "global";
   mkCode "MBIXY-TI1S" "MBIXY_TI1" 70 "systematic";
   mkCode "MBIXY-TI2S" "MBIXY_TI2" 70 "systematic";
   mkCode "MDI-OH" "MDI" 0.0019198621771937625 "global";
   mkCode "MDI-OI" "MDI" 0.0005235987755982988 "global";
   mkCode "MDI-OS" "MDI" 0.0024434609527920616 "global";
   mkCode "MDI-U" "MDI" 0.0015707963267948964 "within_pad";
   mkCode "MDIR" "MDI" 0.0013962634015954637 "random";
   mkCode "MFI-OH" "MFI" 73 "global";
   mkCode "MFI-OI" "MFI" 13 "global";
   mkCode "MFI-OS" "MFI" 88 "global";
   mkCode "MFI-U" "MFI" 61 "within_pad";
   mkCode "MFIR" "MFI" 60 "random";
   mkCode "MSIXY-TI1S" "MSIXY_TI1" 0.0016 "systematic";
   mkCode "MSIXY-TI2S" "MSIXY_TI2" 0.0016 "systematic";
   mkCode "MSIXY-TI3S" "MSIXY_TI3" 0.0016 "systematic";
   mkCode "SAGE" "SAGE" 0.0013962634015954637 "systematic";
   mkCode "XCLA" "XCLA" 0.167 "random";
   mkCode "XCLH" "XCLH" 0.167 "random";
   mkCode "XYM1" "XYM1" 0.0017453292519943296 "systematic";
   mkCode "XYM2" "XYM2" 0.0017453292519943296 "systematic";
   mkCode "XYM3E" "XYM3E" 0.005235987755982988 "random";
   mkCode "XYM4E" "XYM4E" 0.005235987755982988 "random"]%string.
(** welleng/errors/tool_codes/A004Mc_Fl.yaml *)
Definition tool_A004Mc_Fl : tool_file := mkTool "MWD+SRGM+AX+SAG_Fl" 180 (XclTortuosity)
  [mkCode "ABIXY-TI1S" "ABIXY_TI1" 0.004 "systematic";
   mkCode "ABIXY-TI2S" "ABIXY_TI2" 0.004 "systematic";
   mkCode "ABIZ" "ABIZ" 0.004 "systematic";
   mkCode "ASIXY-TI1S" "ASIXY_TI1" 0.0005 "systematic";
   mkCode "ASIXY-TI2S" "ASIXY_TI2" 0.0005 "systematic";
   mkCode "ASIXY-TI3S" "ASIXY_TI3" 0.0005 "systematic";
   mkCode "ASIZ" "ASIZ" 0.0005 "systematic";
   mkCode "DBH-OH" "DBH" 49.56735075663896 "global";
   mkCode "DBH-OI" "DBH" 6.213372137099813 "global";
   mkCode "DBH-OS" "DBH" 58.62560957448953 "global";
   mkCode "DBH-U" "DBH" 41.01523742186674 "within_pad";
   mkCode "DBHR" "DBH" 52.35987755982988 "random";
   mkCode "DEC-OH" "AZ" 0.003665191429188092 "global";
   mkCode "DEC-OI" "AZ" 0.0008726646259971648 "global";
   mkCode "DEC-OS" "AZ" 0.0041887902047863905 "global";
   mkCode "DEC-U" "AZ" 0.0027925268031909274 "within_pad";
   mkCode "DECR" "AZ" 0.0017453292519943296 "random";
   mkCode "DRFR" "DREF" 2.2 "random";
   mkCode "DRFS" "DREF" 1 "systematic";
   mkCode "DSFS" "DSF" 0.00056 "systematic";
   mkCode "DSTG" "DST" 2.5e-07 "global";
   mkCode "MBIXY-TI1S" "MBIXY_TI1" 70 "systematic";
   mkCode "MBIXY-TI2S" "MBIXY_TI2" 70 "systematic";
   mkCode "MDI-OH" "MDI" 0.0019198621771937625 "global";
   mkCode "MDI-OI" "MDI" 0.0005235987755982988 "global";
   mkCode "MDI-OS" "MDI" 0.0024434609527920616 "global";
   mkCode "MDI-U" "MDI" 0.0015707963267948964 "within_pad";
   mkCode "MDIR" "MDI" 0.0013962634015954637 "random";
   mkCode "MFI-OH" "MFI" 73 "global";
   mkCode "MFI-OI" "MFI" 13 "global";
   mkCode "MFI-OS" "MFI" 88 "global";
   mkCode "MFI-U" "MFI" 61 "within_pad";
   mkCode "MFIR" "MFI" 60 "random";
   mkCode "MSIXY-TI1S" "MSIXY_TI1" 0.0016 "systematic";
   mkCode "MSIXY-TI2S" "MSIXY_TI2" 0.0016 "systematic";
   mkCode "MSIXY-TI3S" "MSIXY_TI3" 0.0016 "systematic";
   mkCode "SAGE" "SAGE" 0.0013962634015954637 "systematic";
   mkCode "XCLA" "XCLA" 0.167 "random";
   mkCode "XCLH" "XCLH" 0.167 "random";
   mkCode "XYM1" "XYM1" 0.0017453292519943296 "systematic";
   mkCode "XYM2" "XYM2" 0.0017453292519943296 "systematic";
   mkCode "XYM3E" "XYM3E" 0.005235987755982988 "random";
   mkCode "XYM4E" "XYM4E" 0.005235987755982988 "random"]%string.
(** welleng/errors/tool_codes/A005Mc.yaml *)
Definition tool_A005Mc : tool_file := mkTool "MWD+IFR1" 180 (XclTortuosity)
  [mkCode "ABXY-TI1S" "ABXY_TI1" 0.004 "systematic";
   mkCode "ABXY-TI2S" "ABXY_TI2" 0.004 "systematic";
   mkCode "ABZ" "ABZ" 0.004 "systematic";
   mkCode "AMIL" "AMIL" 220 "systematic";
   mkCode "ASXY-TI1S" "ASXY_TI1" 0.0005 "systematic";
   mkCode "ASXY-TI2S" "ASXY_TI2" 0.0005 "systematic";
   mkCode "ASXY-TI3S" "ASXY_TI3" 0.0005 "systematic";
   mkCode "ASZ" "ASZ" 0.0005 "systematic";
   mkCode "DBH-CI" "DBH" 12.426744274199626 "global";
   mkCode "DBH-OI" "DBH" 6.213372137099813 "global";
   mkCode "DBH-U" "DBH" 22.183134792847927 "within_pad";
   mkCode "DBHR" "DBH" 52.35987755982988 "random";
   mkCode "DEC-CI" "AZ" 0.0015707963267948964 "global";
   mkCode "DEC-OI" "AZ" 0.0008726646259971648 "global";
   mkCode "DEC-U" "AZ" 0.0019198621771937625 "within_pad";
   mkCode "DECR" "AZ" 0.0017453292519943296 "random";
   mkCode "DRFR" "DREF" 0.35 "random";
   mkCode "DSFS" "DSF" 0.00056 "systematic";
   mkCode "DSTG" "DST" 2.5e-07 "global";
   mkCode "MBXY-TI1S" "MBXY_TI1" 70 "systematic";
   mkCode "MBXY-TI2S" "MBXY_TI2" 70 "systematic";
   mkCode "MBZ" "MBZ" 70 "systematic";
   mkCode "MSXY-TI1S" "MSXY_TI1" 0.0016 "systematic";
   mkCode "MSXY-TI2S" "MSXY_TI2" 0.0016 "systematic";
   mkCode "MSXY-TI3S" "MSXY_TI3" 0.0016 "systematic";
   mkCode "MSZ" "MSZ" 0.0016 "systematic";
   mkCode "SAGE" "SAGE" 0.003490658503988659 "systematic";
   mkCode "XCLA" "XCLA" 0.167 "random";
   mkCode "XCLH" "XCLH" 0.167 "random";
   mkCode "XYM1" "XYM1" 0.0017453292519943296 "systematic";
   mkCode "XYM2" "XYM2" 0.0017453292519943296 "systematic";
   mkCode "XYM3E" "XYM3E" 0.005235987755982988 "random";
   mkCode "XYM4E" "XYM4E" 0.005235987755982988 "random"]%string.
(** welleng/errors/tool_codes/A005Mc_Fl.yaml *)
Definition tool_A005Mc_Fl : tool_file := mkTool "MWD+IFR1_Fl" 180 (XclTortuosity)
  [mkCode "ABXY-TI1S" "ABXY_TI1" 0.004 "systematic";
   mkCode "ABXY-TI2S" "ABXY_TI2" 0.004 "systematic";
   mkCode "ABZ" "ABZ" 0.004 "systematic";
   mkCode "AMIL" "AMIL" 220 "systematic";
   mkCode "ASXY-TI1S" "ASXY_TI1" 0.0005 "systematic";
   mkCode "ASXY-TI2S" "ASXY_TI2" 0.0005 "systematic";
   mkCode "ASXY-TI3S" "ASXY_TI3" 0.0005 "systematic";
   mkCode "ASZ" "ASZ" 0.0005 "systematic";
   mkCode "DBH-CI" "DBH" 12.426744274199626 "global";
   mkCode "DBH-OI" "DBH" 6.213372137099813 "global";
   mkCode "DBH-U" "DBH" 22.183134792847927 "within_pad";
   mkCode "DBHR" "DBH" 52.35987755982988 "random";
   mkCode "DEC-CI" "AZ" 0.0015707963267948964 "global";
   mkCode "DEC-OI" "AZ" 0.0008726646259971648 "global";
   mkCode "DEC-U" "AZ" 0.0019198621771937625 "within_pad";
   mkCode "DECR" "AZ" 0.0017453292519943296 "random";
   mkCode "DRFR" "DREF" 2.2 "random";
   mkCode "DRFS" "DREF" 1 "systematic";
   mkCode "DSFS" "DSF" 0.00056 "systematic";
   mkCode "DSTG" "DST" 2.5e-07 "global";
   mkCode "MBXY-TI1S" "MBXY_TI1" 70 "systematic";
   mkCode "MBXY-TI2S" "MBXY_TI2" 70 "systematic";
   mkCode "MBZ" "MBZ" 70 "systematic";
   mkCode "MSXY-TI1S" "MSXY_TI1" 0.0016 "systematic";
   mkCode "MSXY-TI2S" "MSXY_TI2" 0.0016 "systematic";
   mkCode "MSXY-TI3S" "MSXY_TI3" 0.0016 "systematic";
   mkCode "MSZ" "MSZ" 0.0016 "systematic";
   mkCode "SAGE" "SAGE" 0.003490658503988659 "systematic";
   mkCode "XCLA" "XCLA" 0.167 "random";
   mkCode "XCLH" "XCLH" 0.167 "random";
   mkCode "XYM1" "XYM1" 0.0017453292519943296 "systematic";
   mkCode "XYM2" "XYM2" 0.0017453292519943296 "systematic";
   mkCode "XYM3E" "XYM3E" 0.005235987755982988 "random";
   mkCode "XYM4E" "XYM4E" 0.005235987755982988 "random"]%string.
(** welleng/errors/tool_codes/A006Mc.yaml *)
Definition tool_A006Mc : tool_file := mkTool "MWD+IFR1+AX" 180 (XclTortuosity)
  [mkCode "ABIXY-TI1S" "ABIXY_TI1" 0.004 "systematic";
   mkCode "ABIXY-TI2S" "ABIXY_TI2" 0.004 "systematic";
   mkCode "ABIZ" "ABIZ" 0.004 "systematic";
   mkCode "ASIXY-TI1S" "ASIXY_TI1" 0.0005 "systematic";
   mkCode "ASIXY-TI2S" "ASIXY_TI2" 0.0005 "systematic";
   mkCode "ASIXY-TI3S" "ASIXY_TI3" 0.0005 "systematic";
   mkCode "ASIZ" "ASIZ" 0.0005 "systematic";
   mkCode "DBH-CI" "DBH" 12.426744274199626 "global";
   mkCode "DBH-OI" "DBH" 6.213372137099813 "global";
   mkCode "DBH-U" "DBH" 22.183134792847927 "within_pad";
   mkCode "DBHR" "DBH" 52.35987755982988 "random";
   mkCode "DEC-CI" "AZ" 0.0015707963267948964 "global";
   mkCode "DEC-OI" "AZ" 0.0008726646259971648 "global";
   mkCode "DEC-U" "AZ" 0.0019198621771937625 "within_pad";
   mkCode "DECR" "AZ" 0.0017453292519943296 "random";
   mkCode "DRFR" "DREF" 0.35 "random";
   mkCode "DSFS" "DSF" 0.00056 "systematic";
   mkCode "DSTG" "DST" 2.5e-07 "global";
   mkCode "MBIXY-TI1S" "MBIXY_TI1" 70 "systematic";
   mkCode "MBIXY-TI2S" "MBIXY_TI2" 70 "systematic";
   mkCode "MDI-CI" "MDI" 0.0010471975511965976 "global";
   mkCode "MDI-OI" "MDI" 0.0005235987755982988 "global";
   mkCode "MDI-U" "MDI" 0.0012217304763960308 "within_pad";
   mkCode "MDIR" "MDI" 0.0013962634015954637 "random";
   mkCode "MFI-CI" "MFI" 27 "global";
   mkCode "MFI-OI" "MFI" 13 "global";
   mkCode "MFI-U" "MFI" 40 "within_pad";
   mkCode "MFIR" "MFI" 60 "random";
   mkCode "MSIXY-TI1S" "MSIXY_TI1" 0.0016 "systematic";
   mkCode "MSIXY-TI2S" "MSIXY_TI2" 0.0016 "systematic";
   mkCode "MSIXY-TI3S" "MSIXY_TI3" 0.0016 "systematic";
   mkCode "SAGE" "SAGE" 0.003490658503988659 "systematic";
   mkCode "XCLA" "XCLA" 0.167 "random";
   mkCode "XCLH" "XCLH" 0.167 "random";
   mkCode "XYM1" "XYM1" 0.0017453292519943296 "systematic";
   mkCode "XYM2" "XYM2" 0.0017453292519943296 "systematic";
   mkCode "XYM3E" "XYM3E" 0.005235987755982988 "random";
   mkCode "XYM4E" "XYM4E" 0.005235987755982988 "random"]%string.
(** welleng/errors/tool_codes/A006Mc_Fl.yaml *)
Definition tool_A006Mc_Fl : tool_file := mkTool "MWD+IFR1+AX_Fl" 180 (XclTortuosity)
  [mkCode "ABIXY-TI1S" "ABIXY_TI1" 0.004 "systematic";
   mkCode "ABIXY-TI2S" "ABIXY_TI2" 0.004 "systematic";
   mkCode "ABIZ" "ABIZ" 0.004 "systematic";
   mkCode "ASIXY-TI1S" "ASIXY_TI1" 0.0005 "systematic";
   mkCode "ASIXY-TI2S" "ASIXY_TI2" 0.0005 "systematic";
   mkCode "ASIXY-TI3S" "ASIXY_TI3" 0.0005 "systematic";
   mkCode "ASIZ" "ASIZ" 0.0005 "systematic";
   mkCode "DBH-CI" "DBH" 12.426744274199626 "global";
   mkCode "DBH-OI" "DBH" 6.213372137099813 "global";
   mkCode "DBH-U" "DBH" 22.183134792847927 "within_pad";
   mkCode "DBHR" "DBH" 52.35987755982988 "random";
   mkCode "DEC-CI" "AZ" 0.0015707963267948964 "global";
   mkCode "DEC-OI" "AZ" 0.0008726646259971648 "global";
   mkCode "DEC-U" "AZ" 0.0019198621771937625 "within_pad";
   mkCode "DECR" "AZ" 0.0017453292519943296 "random";
   mkCode "DRFR" "DREF" 2.2 "random";
   mkCode "DRFS" "DREF" 1 "systematic";
   mkCode "DSFS" "DSF" 0.00056 "systematic";
   mkCode "DSTG" "DST" 2.5e-07 "global";
   mkCode "MBIXY-TI1S" "MBIXY_TI1" 70 "systematic";
   mkCode "MBIXY-TI2S" "MBIXY_TI2" 70 "systematic";
   mkCode "MDI-CI" "MDI" 0.0010471975511965976 "global";
   mkCode "MDI-OI" "MDI" 0.0005235987755982988 "global";
   mkCode "MDI-U" "MDI" 0.0012217304763960308 "within_pad";
   mkCode "MDIR" "MDI" 0.0013962634015954637 "random";
   mkCode "MFI-CI" "MFI" 27 "global";
   mkCode "MFI-OI" "MFI" 13 "global";
   mkCode "MFI-U" "MFI" 40 "within_pad";
   mkCode "MFIR" "MFI" 60 "random";
   mkCode "MSIXY-TI1S" "MSIXY_TI1" 0.0016 "systematic";
   mkCode "MSIXY-TI2S" "MSIXY_TI2" 0.0016 "systematic";
   mkCode "MSIXY-TI3S" "MSIXY_TI3" 0.0016 "systematic";
   mkCode "SAGE" "SAGE" 0.003490658503988659 "systematic";
   mkCode "XCLA" "XCLA" 0.167 "random";
   mkCode "XCLH" "XCLH" 0.167 "random";
   mkCode "XYM1" "XYM1" 0.0017453292519943296 "systematic";
   mkCode "XYM2" "XYM2" 0.0017453292519943296 "systematic";
   mkCode "XYM3E" "XYM3E" 0.005235987755982988 "random";
   mkCode "XYM4E" "XYM4E" 0.005235987755982988 "random"]%string.
(** welleng/errors/tool_codes/A007Mc.yaml *)
Definition tool_A007Mc : tool_file := mkTool "MWD+IFR1+AX+SAG" 180 (XclTortuosity)
  [mkCode "ABIXY-TI1S" "ABIXY_TI1" 0.004 "systematic";
   mkCode "ABIXY-TI2S" "ABIXY_TI2" 0.004 "systematic";
   mkCode "ABIZ" "ABIZ" 0.004 "systematic";
   mkCode "ASIXY-TI1S" "ASIXY_TI1" 0.0005 "systematic";
   mkCode "ASIXY-TI2S" "ASIXY_TI2" 0.0005 "systematic";
   mkCode "ASIXY-TI3S" "ASIXY_TI3" 0.0005 "systematic";
   mkCode "ASIZ" "ASIZ" 0.0005 "systematic";
   mkCode "DBH-CI" "DBH" 12.426744274199626 "global";
   mkCode "DBH-OI" "DBH" 6.213372137099813 "global";
   mkCode "DBH-U" "DBH" 22.183134792847927 "within_pad";
   mkCode "DBHR" "DBH" 52.35987755982988 "random";
   mkCode "DEC-CI" "AZ" 0.0015707963267948964 "global";
   mkCode "DEC-OI" "AZ" 0.0008726646259971648 "global";
   mkCode "DEC-U" "AZ" 0.0019198621771937625 "within_pad";
   mkCode "DECR" "AZ" 0.0017453292519943296 "random";
   mkCode "DRFR" "DREF" 0.35 "random";
   mkCode "DSFS" "DSF" 0.00056 "systematic";
   mkCode "DSTG" "DST" 2.5e-07 "global";
   mkCode "MBIXY-TI1S" "MBIXY_TI1" 70 "systematic";
   mkCode "MBIXY-TI2S" "MBIXY_TI2" 70 "systematic";
   mkCode "MDI-CI" "MDI" 0.0010471975511965976 "global";
   mkCode "MDI-OI" "MDI" 0.0005235987755982988 "global";
   mkCode "MDI-U" "MDI" 0.0012217304763960308 "within_pad";
   mkCode "MDIR" "MDI" 0.0013962634015954637 "random";
   mkCode "MFI-CI" "MFI" 27 "global";
   mkCode "MFI-OI" "MFI" 13 "global";
   mkCode "MFI-U" "MFI" 40 "within_pad";
   mkCode "MFIR" "MFI" 60 "random";
   mkCode "MSIXY-TI1S" "MSIXY_TI1" 0.0016 "systematic";
   mkCode "MSIXY-TI2S" "MSIXY_TI2" 0.0016 "systematic";
   mkCode "MSIXY-TI3S" "MSIXY_TI3" 0.0016 "systematic";
   mkCode "SAGE" "SAGE" 0.0013962634015954637 "systematic";
   mkCode "XCLA" "XCLA" 0.167 "random";
   mkCode "XCLH" "XCLH" 0.167 "random";
   mkCode "XYM1" "XYM1" 0.0017453292519943296 "systematic";
   mkCode "XYM2" "XYM2" 0.0017453292519943296 "systematic";
   mkCode "XYM3E" "XYM3E" 0.005235987755982988 "random";
   mkCode "XYM4E" "XYM4E" 0.005235987755982988 "random"]%string.
(** welleng/errors/tool_codes/A007Mc_Fl.yaml *)
Definition tool_A007Mc_Fl : tool_file := mkTool "MWD+IFR1+AX+SAG_Fl" 180 (XclTortuosity)
  [mkCode "ABIXY-TI1S" "ABIXY_TI1" 0.004 "systematic";
   mkCode "ABIXY-TI2S" "ABIXY_TI2" 0.004 "systematic";
   mkCode "ABIZ" "ABIZ" 0.004 "systematic";
   mkCode "ASIXY-TI1S" "ASIXY_TI1" 0.0005 "systematic";
   mkCode "ASIXY-TI2S" "ASIXY_TI2" 0.0005 "systematic";
   mkCode "ASIXY-TI3S" "ASIXY_TI3" 0.0005 "systematic";
   mkCode "ASIZ" "ASIZ" 0.0005 "systematic";
   mkCode "DBH-CI" "DBH" 12.426744274199626 "global";
   mkCode "DBH-OI" "DBH" 6.213372137099813 "global";
   mkCode "DBH-U" "DBH" 22.183134792847927 "within_pad";
   mkCode "DBHR" "DBH" 52.35987755982988 "random";
   mkCode "DEC-CI" "AZ" 0.0015707963267948964 "global";
   mkCode "DEC-OI" "AZ" 0.0008726646259971648 "global";
   mkCode "DEC-U" "AZ" 0.0019198621771937625 "within_pad";
   mkCode "DECR" "AZ" 0.0017453292519943296 "random";
   mkCode "DRFR" "DREF" 2.2 "random";
   mkCode "DRFS" "DREF" 1 "systematic";
   mkCode "DSFS" "DSF" 0.00056 "systematic";
   mkCode "DSTG" "DST" 2.5e-07 "global";
   mkCode "MBIXY-TI1S" "MBIXY_TI1" 70 "systematic";
   mkCode "MBIXY-TI2S" "MBIXY_TI2" 70 "systematic";
   mkCode "MDI-CI" "MDI" 0.0010471975511965976 "global";
   mkCode "MDI-OI" "MDI" 0.0005235987755982988 "global";
   mkCode "MDI-U" "MDI" 0.0012217304763960308 "within_pad";
   mkCode "MDIR" "MDI" 0.0013962634015954637 "random";
   mkCode "MFI-CI" "MFI" 27 "global";
   mkCode "MFI-OI" "MFI" 13 "global";
   mkCode "MFI-U" "MFI" 40 "within_pad";
   mkCode "MFIR" "MFI" 60 "random";
   mkCode "MSIXY-TI1S" "MSIXY_TI1" 0.0016 "systematic";
   mkCode "MSIXY-TI2S" "MSIXY_TI2" 0.0016 "systematic";
   mkCode "MSIXY-TI3S" "MSIXY_TI3" 0.0016 "systematic";
   mkCode "SAGE" "SAGE" 0.0013962634015954637 "systematic";
   mkCode "XCLA" "XCLA" 0.167 "random";
   mkCode "XCLH" "XCLH" 0.167 "random";
   mkCode "XYM1" "XYM1" 0.0017453292519943296 "systematic";
   mkCode "XYM2" "XYM2" 0.0017453292519943296 "systematic";
   mkCode "XYM3E" "XYM3E" 0.005235987755982988 "random";
   mkCode "XYM4E" "XYM4E" 0.005235987755982988 "random"]%string.
(** welleng/errors/tool_codes/A008Mc.yaml *)
Definition tool_A008Mc : tool_file := mkTool "MWD+IFR1+MS" 180 (XclTortuosity)
  [mkCode "ABXY-TI1S" "ABXY_TI1" 0.004 "systematic";
   mkCode "ABXY-TI2S" "ABXY_TI2" 0.004 "systematic";
   mkCode "ABZ" "ABZ" 0.004 "systematic";
   mkCode "AMIL" "AMIL" 100 "systematic";
   mkCode "ASXY-TI1S" "ASXY_TI1" 0.0005 "systematic";
   mkCode "ASXY-TI2S" "ASXY_TI2" 0.0005 "systematic";
   mkCode "ASXY-TI3S" "ASXY_TI3" 0.0005 "systematic";
   mkCode "ASZ" "ASZ" 0.0005 "systematic";
   mkCode "DBH-CI" "DBH" 12.426744274199626 "global";
   mkCode "DBH-OI" "DBH" 6.213372137099813 "global";
   mkCode "DBH-U" "DBH" 22.183134792847927 "within_pad";
   mkCode "DBHR" "DBH" 52.35987755982988 "random";
   mkCode "DEC-CI" "AZ" 0.0015707963267948964 "global";
   mkCode "DEC-OI" "AZ" 0.0008726646259971648 "global";
   mkCode "DEC-U" "AZ" 0.0019198621771937625 "within_pad";
   mkCode "DECR" "AZ" 0.0017453292519943296 "random";
   mkCode "DRFR" "DREF" 0.35 "random";
   mkCode "DSFS" "DSF" 0.00056 "systematic";
   mkCode "DSTG" "DST" 2.5e-07 "global";
   mkCode "MBXY-TI1S" "MBXY_TI1" 35 "systematic";
   mkCode "MBXY-TI2S" "MBXY_TI2" 35 "systematic";
   mkCode "MBZ" "MBZ" 35 "systematic";
   mkCode "MSXY-TI1S" "MSXY_TI1" 0.0008 "systematic";
   mkCode "MSXY-TI2S" "MSXY_TI2" 0.0008 "systematic";
   mkCode "MSXY-TI3S" "MSXY_TI3" 0.0008 "systematic";
   mkCode "MSZ" "MSZ" 0.0008 "systematic";
   mkCode "SAGE" "SAGE" 0.003490658503988659 "systematic";
   mkCode "XCLA" "XCLA" 0.167 "random";
   mkCode "XCLH" "XCLH" 0.167 "random";
   mkCode "XYM1" "XYM1" 0.0017453292519943296 "systematic";
   mkCode "XYM2" "XYM2" 0.0017453292519943296 "systematic";
   mkCode "XYM3E" "XYM3E" 0.005235987755982988 "random";
   mkCode "XYM4E" "XYM4E" 0.005235987755982988 "random"]%string.
(** welleng/errors/tool_codes/A008Mc_Fl.yaml *)
Definition tool_A008Mc_Fl : tool_file := mkTool "MWD+IFR1+MS_Fl" 180 (XclTortuosity)
  [mkCode "ABXY-TI1S" "ABXY_TI1" 0.004 "systematic";
   mkCode "ABXY-TI2S" "ABXY_TI2" 0.004 "systematic";
   mkCode "ABZ" "ABZ" 0.004 "systematic";
   mkCode "AMIL" "AMIL" 100 "systematic";
   mkCode "ASXY-TI1S" "ASXY_TI1" 0.0005 "systematic";
   mkCode "ASXY-TI2S" "ASXY_TI2" 0.0005 "systematic";
   mkCode "ASXY-TI3S" "ASXY_TI3" 0.0005 "systematic";
   mkCode "ASZ" "ASZ" 0.0005 "systematic";
   mkCode "DBH-CI" "DBH" 12.426744274199626 "global";
   mkCode "DBH-OI" "DBH" 6.213372137099813 "global";
   mkCode "DBH-U" "DBH" 22.183134792847927 "within_pad";
   mkCode "DBHR" "DBH" 52.35987755982988 "random";
   mkCode "DEC-CI" "AZ" 0.0015707963267948964 "global";
   mkCode "DEC-OI" "AZ" 0.0008726646259971648 "global";
   mkCode "DEC-U" "AZ" 0.0019198621771937625 "within_pad";
   mkCode "DECR" "AZ" 0.0017453292519943296 "random";
   mkCode "DRFR" "DREF" 2.2 "random";
   mkCode "DRFS" "DREF" 1 "systematic";
   mkCode "DSFS" "DSF" 0.00056 "systematic";
   mkCode "DSTG" "DST" 2.5e-07 "global";
   mkCode "MBXY-TI1S" "MBXY_TI1" 35 "systematic";
   mkCode "MBXY-TI2S" "MBXY_TI2" 35 "systematic";
   mkCode "MBZ" "MBZ" 35 "systematic";
   mkCode "MSXY-TI1S" "MSXY_TI1" 0.0008 "systematic";
   mkCode "MSXY-TI2S" "MSXY_TI2" 0.0008 "systematic";
   mkCode "MSXY-TI3S" "MSXY_TI3" 0.0008 "systematic";
   mkCode "MSZ" "MSZ" 0.0008 "systematic";
   mkCode "SAGE" "SAGE" 0.003490658503988659 "systematic";
   mkCode "XCLA" "XCLA" 0.167 "random";
   mkCode "XCLH" "XCLH" 0.167 "random";
   mkCode "XYM1" "XYM1" 0.0017453292519943296 "systematic";
   mkCode "XYM2" "XYM2" 0.0017453292519943296 "systematic";
   mkCode "XYM3E" "XYM3E" 0.005235987755982988 "random";
   mkCode "XYM4E" "XYM4E" 0.005235987755982988 "random"]%string.
(** welleng/errors/tool_codes/A009Mc.yaml *)
Definition tool_A009Mc : tool_file := mkTool "MWD+IFR1+SAG" 180 (XclTortuosity)
  [mkCode "ABXY-TI1S" "ABXY_TI1" 0.004 "systematic";
   mkCode "ABXY-TI2S" "ABXY_TI2" 0.004 "systematic";
   mkCode "ABZ" "ABZ" 0.004 "systematic";
   mkCode "AMIL" "AMIL" 220 "systematic";
   mkCode "ASXY-TI1S" "ASXY_TI1" 0.0005 "systematic";
   mkCode "ASXY-TI2S" "ASXY_TI2" 0.0005 "systematic";
   mkCode "ASXY-TI3S" "ASXY_TI3" 0.0005 "systematic";
   mkCode "ASZ" "ASZ" 0.0005 "systematic";
   mkCode "DBH-CI" "DBH" 12.426744274199626 "global";
   mkCode "DBH-OI" "DBH" 6.213372137099813 "global";
   mkCode "DBH-U" "DBH" 22.183134792847927 "within_pad";
   mkCode "DBHR" "DBH" 52.35987755982988 "random";
   mkCode "DEC-CI" "AZ" 0.0015707963267948964 "global";
   mkCode "DEC-OI" "AZ" 0.0008726646259971648 "global";
   mkCode "DEC-U" "AZ" 0.0019198621771937625 "within_pad";
   mkCode "DECR" "AZ" 0.0017453292519943296 "random";
   mkCode "DRFR" "DREF" 0.35 "random";
   mkCode "DSFS" "DSF" 0.00056 "systematic";
   mkCode "DSTG" "DST" 2.5e-07 "global";
   mkCode "MBXY-TI1S" "MBXY_TI1" 70 "systematic";
   mkCode "MBXY-TI2S" "MBXY_TI2" 70 "systematic";
   mkCode "MBZ" "MBZ" 70 "systematic";
   mkCode "MSXY-TI1S" "MSXY_TI1" 0.0016 "systematic";
   mkCode "MSXY-TI2S" "MSXY_TI2" 0.0016 "systematic";
   mkCode "MSXY-TI3S" "MSXY_TI3" 0.0016 "systematic";
   mkCode "MSZ" "MSZ" 0.0016 "systematic";
   mkCode "SAGE" "SAGE" 0.0013962634015954637 "systematic";
   mkCode "XCLA" "XCLA" 0.167 "random";
   mkCode "XCLH" "XCLH" 0.167 "random";
   mkCode "XYM1" "XYM1" 0.0017453292519943296 "systematic";
   mkCode "XYM2" "XYM2" 0.0017453292519943296 "systematic";
   mkCode "XYM3E" "XYM3E" 0.005235987755982988 "random";
   mkCode "XYM4E" "XYM4E" 0.005235987755982988 "random"]%string.
(** welleng/errors/tool_codes/A009Mc_Fl.yaml *)
Definition tool_A009Mc_Fl : tool_file := mkTool "MWD+IFR1+SAG_Fl" 180 (XclTortuosity)
  [mkCode "ABXY-TI1S" "ABXY_TI1" 0.004 "systematic";
   mkCode "ABXY-TI2S" "ABXY_TI2" 0.004 "systematic";
   mkCode "ABZ" "ABZ" 0.004 "systematic";
   mkCode "AMIL" "AMIL" 220 "systematic";
   mkCode "ASXY-TI1S" "ASXY_TI1" 0.0005 "systematic";
   mkCode "ASXY-TI2S" "ASXY_TI2" 0.0005 "systematic";
   mkCode "ASXY-TI3S" "ASXY_TI3" 0.0005 "systematic";
   mkCode "ASZ" "ASZ" 0.0005 "systematic";
   mkCode "DBH-CI" "DBH" 12.426744274199626 "global";
   mkCode "DBH-OI" "DBH" 6.213372137099813 "global";
   mkCode "DBH-U" "DBH" 22.183134792847927 "within_pad";
   mkCode "DBHR" "DBH" 52.35987755982988 "random";
   mkCode "DEC-CI" "AZ" 0.0015707963267948964 "global";
   mkCode "DEC-OI" "AZ" 0.0008726646259971648 "global";
   mkCode "DEC-U" "AZ" 0.0019198621771937625 "within_pad";
   mkCode "DECR" "AZ" 0.0017453292519943296 "random";
   mkCode "DRFR" "DREF" 2.2 "random";
   mkCode "DRFS" "DREF" 1 "systematic";
   mkCode "DSFS" "DSF" 0.00056 "systematic";
   mkCode "DSTG" "DST" 2.5e-07 "global";
   mkCode "MBXY-TI1S" "MBXY_TI1" 70 "systematic";
   mkCode "MBXY-TI2S" "MBXY_TI2" 70 "systematic";
   mkCode "MBZ" "MBZ" 70 "systematic";
   mkCode "MSXY-TI1S" "MSXY_TI1" 0.0016 "systematic";
   mkCode "MSXY-TI2S" "MSXY_TI2" 0.0016 "systematic";
   mkCode "MSXY-TI3S" "MSXY_TI3" 0.0016 "systematic";
   mkCode "MSZ" "MSZ" 0.0016 "systematic";
   mkCode "SAGE" "SAGE" 0.0013962634015954637 "systematic";
   mkCode "XCLA" "XCLA" 0.167 "random";
   mkCode "XCLH" "XCLH" 0.167 "random";
   mkCode "XYM1" "XYM1" 0.0017453292519943296 "systematic";
   mkCode "XYM2" "XYM2" 0.0017453292519943296 "systematic";
   mkCode "XYM3E" "XYM3E" 0.005235987755982988 "random";
   mkCode "XYM4E" "XYM4E" 0.005235987755982988 "random"]%string.
(** welleng/errors/tool_codes/A010Mc.yaml *)
Definition tool_A010Mc : tool_file := mkTool "MWD+IFR1+SAG+MS" 180 (XclTortuosity)
  [mkCode "ABXY-TI1S" "ABXY_TI1" 0.004 "systematic";
   mkCode "ABXY-TI2S" "ABXY_TI2" 0.004 "systematic";
   mkCode "ABZ" "ABZ" 0.004 "systematic";
   mkCode "AMIL" "AMIL" 100 "systematic";
   mkCode "ASXY-TI1S" "ASXY_TI1" 0.0005 "systematic";
   mkCode "ASXY-TI2S" "ASXY_TI2" 0.0005 "systematic";
   mkCode "ASXY-TI3S" "ASXY_TI3" 0.0005 "systematic";
   mkCode "ASZ" "ASZ" 0.0005 "systematic";
   mkCode "DBH-CI" "DBH" 12.426744274199626 "global";
   mkCode "DBH-OI" "DBH" 6.213372137099813 "global";
   mkCode "DBH-U" "DBH" 22.183134792847927 "within_pad";
   mkCode "DBHR" "DBH" 52.35987755982988 "random";
   mkCode "DEC-CI" "AZ" 0.0015707963267948964 "global";
   mkCode "DEC-OI" "AZ" 0.0008726646259971648 "global";
   mkCode "DEC-U" "AZ" 0.0019198621771937625 "within_pad";
   mkCode "DECR" "AZ" 0.0017453292519943296 "random";
   mkCode "DRFR" "DREF" 0.35 "random";
   mkCode "DSFS" "DSF" 0.00056 "systematic";
   mkCode "DSTG" "DST" 2.5e-07 "global";
   mkCode "MBXY-TI1S" "MBXY_TI1" 35 "systematic";
   mkCode "MBXY-TI2S" "MBXY_TI2" 35 "systematic";
   mkCode "MBZ" "MBZ" 35 "systematic";
   mkCode "MSXY-TI1S" "MSXY_TI1" 0.0008 "systematic";
   mkCode "MSXY-TI2S" "MSXY_TI2" 0.0008 "systematic";
   mkCode "MSXY-TI3S" "MSXY_TI3" 0.0008 "systematic";
   mkCode "MSZ" "MSZ" 0.0008 "systematic";
   mkCode "SAGE" "SAGE" 0.0013962634015954637 "systematic";
   mkCode "XCLA" "XCLA" 0.167 "random";
   mkCode "XCLH" "XCLH" 0.167 "random";
   mkCode "XYM1" "XYM1" 0.0017453292519943296 "systematic";
   mkCode "XYM2" "XYM2" 0.0017453292519943296 "systematic";
   mkCode "XYM3E" "XYM3E" 0.005235987755982988 "random";
   mkCode "XYM4E" "XYM4E" 0.005235987755982988 "random"]%string.
(** welleng/errors/tool_codes/A010Mc_Fl.yaml *)
Definition tool_A010Mc_Fl : tool_file := mkTool "MWD+IFR1+SAG+MS_Fl" 180 (XclTortuosity)
  [mkCode "ABXY-TI1S" "ABXY_TI1" 0.004 "systematic";
   mkCode "ABXY-TI2S" "ABXY_TI2" 0.004 "systematic";
   mkCode "ABZ" "ABZ" 0.004 "systematic";
   mkCode "AMIL" "AMIL" 100 "systematic";
   mkCode "ASXY-TI1S" "ASXY_TI1" 0.0005 "systematic";
   mkCode "ASXY-TI2S" "ASXY_TI2" 0.0005 "systematic";
   mkCode "ASXY-TI3S" "ASXY_TI3" 0.0005 "systematic";
   mkCode "ASZ" "ASZ" 0.0005 "systematic";
   mkCode "DBH-CI" "DBH" 12.426744274199626 "global";
   mkCode "DBH-OI" "DBH" 6.213372137099813 "global";
   mkCode "DBH-U" "DBH" 22.183134792847927 "within_pad";
   mkCode "DBHR" "DBH" 52.35987755982988 "random";
   mkCode "DEC-CI" "AZ" 0.0015707963267948964 "global";
   mkCode "DEC-OI" "AZ" 0.0008726646259971648 "global";
   mkCode "DEC-U" "AZ" 0.0019198621771937625 "within_pad";
   mkCode "DECR" "AZ" 0.0017453292519943296 "random";
   mkCode "DRFR" "DREF" 2.2 "random";
   mkCode "DRFS" "DREF" 1 "systematic";
   mkCode "DSFS" "DSF" 0.00056 "systematic";
   mkCode "DSTG" "DST" 2.5e-07 "global";
   mkCode "MBXY-TI1S" "MBXY_TI1" 35 "systematic";
   mkCode "MBXY-TI2S" "MBXY_TI2" 35 "systematic";
   mkCode "MBZ" "MBZ" 35 "systematic";
   mkCode "MSXY-TI1S" "MSXY_TI1" 0.0008 "systematic";
   mkCode "MSXY-TI2S" "MSXY_TI2" 0.0008 "systematic";
   mkCode "MSXY-TI3S" "MSXY_TI3" 0.0008 "systematic";
   mkCode "MSZ" "MSZ" 0.0008 "systematic";
   mkCode "SAGE" "SAGE" 0.0013962634015954637 "systematic";
   mkCode "XCLA" "XCLA" 0.167 "random";
   mkCode "XCLH" "XCLH" 0.167 "random";
   mkCode "XYM1" "XYM1" 0.0017453292519943296 "systematic";
   mkCode "XYM2" "XYM2" 0.0017453292519943296 "systematic";
   mkCode "XYM3E" "XYM3E" 0.005235987755982988 "random";
   mkCode "XYM4E" "XYM4E" 0.005235987755982988 "random"]%string.
(** welleng/errors/tool_codes/A011Mc.yaml *)
Definition tool_A011Mc : tool_file := mkTool "MWD+IFR2+AX+SAG" 180 (XclTortuosity)
  [mkCode "ABIXY-TI1S" "ABIXY_TI1" 0.004 "systematic";
   mkCode "ABIXY-TI2S" "ABIXY_TI2" 0.004 "systematic";
   mkCode "ABIZ" "ABIZ" 0.004 "systematic";
   mkCode "ASIXY-TI1S" "ASIXY_TI1" 0.0005 "systematic";
   mkCode "ASIXY-TI2S" "ASIXY_TI2" 0.0005 "systematic";
   mkCode "ASIXY-TI3S" "ASIXY_TI3" 0.0005 "systematic";
   mkCode "ASIZ" "ASIZ" 0.0005 "systematic";
   mkCode "DBH-CI" "DBH" 12.426744274199626 "global";
   mkCode "DBH-OI" "DBH" 6.213372137099813 "global";
   mkCode "DBH-U" "DBH" 16.807520696705392 "within_pad";
   mkCode "DBHR" "DBH" 13.08996938995747 "random";
   mkCode "DEC-CI" "AZ" 0.0015707963267948964 "global";
   mkCode "DEC-OI" "AZ" 0.0008726646259971648 "global";
   mkCode "DEC-U" "AZ" 0.0019198621771937625 "within_pad";
   mkCode "DECR" "AZ" 0.0008726646259971648 "random";
   mkCode "DRFR" "DREF" 0.35 "random";
   mkCode "DSFS" "DSF" 0.00056 "systematic";
   mkCode "DSTG" "DST" 2.5e-07 "global";
   mkCode "MBIXY-TI1S" "MBIXY_TI1" 70 "systematic";
   mkCode "MBIXY-TI2S" "MBIXY_TI2" 70 "systematic";
   mkCode "MDI-CI" "MDI" 0.0008726646259971648 "global";
   mkCode "MDI-OI" "MDI" 0.00034906585039886593 "global";
   mkCode "MDI-U" "MDI" 0.0010471975511965976 "within_pad";
   mkCode "MDIR" "MDI" 0.00034906585039886593 "random";
   mkCode "MFI-CI" "MFI" 27 "global";
   mkCode "MFI-OI" "MFI" 13 "global";
   mkCode "MFI-U" "MFI" 33 "within_pad";
   mkCode "MFIR" "MFI" 15 "random";
   mkCode "MSIXY-TI1S" "MSIXY_TI1" 0.0016 "systematic";
   mkCode "MSIXY-TI2S" "MSIXY_TI2" 0.0016 "systematic";
   mkCode "MSIXY-TI3S" "MSIXY_TI3" 0.0016 "systematic";
   mkCode "SAGE" "SAGE" 0.0013962634015954637 "systematic";
   mkCode "XCLA" "XCLA" 0.167 "random";
   mkCode "XCLH" "XCLH" 0.167 "random";
   mkCode "XYM1" "XYM1" 0.0017453292519943296 "systematic";
   mkCode "XYM2" "XYM2" 0.0017453292519943296 "systematic";
   mkCode "XYM3E" "XYM3E" 0.005235987755982988 "random";
   mkCode "XYM4E" "XYM4E" 0.005235987755982988 "random"]%string.
(** welleng/errors/tool_codes/A011Mc_Fl.yaml *)
Definition tool_A011Mc_Fl : tool_file := mkTool "MWD+IFR2+AX+SAG_Fl" 180 (XclTortuosity)
  [mkCode "ABIXY-TI1S" "ABIXY_TI1" 0.004 "systematic";
   mkCode "ABIXY-TI2S" "ABIXY_TI2" 0.004 "systematic";
   mkCode "ABIZ" "ABIZ" 0.004 "systematic";
   mkCode "ASIXY-TI1S" "ASIXY_TI1" 0.0005 "systematic";
   mkCode "ASIXY-TI2S" "ASIXY_TI2" 0.0005 "systematic";
   mkCode "ASIXY-TI3S" "ASIXY_TI3" 0.0005 "systematic";
   mkCode "ASIZ" "ASIZ" 0.0005 "systematic";
   mkCode "DBH-CI" "DBH" 12.426744274199626 "global";
   mkCode "DBH-OI" "DBH" 6.213372137099813 "global";
   mkCode "DBH-U" "DBH" 16.807520696705392 "within_pad";
   mkCode "DBHR" "DBH" 13.08996938995747 "random";
   mkCode "DEC-CI" "AZ" 0.0015707963267948964 "global";
   mkCode "DEC-OI" "AZ" 0.0008726646259971648 "global";
   mkCode "DEC-U" "AZ" 0.0019198621771937625 "within_pad";
   mkCode "DECR" "AZ" 0.0008726646259971648 "random";
   mkCode "DRFR" "DREF" 2.2 "random";
   mkCode "DRFS" "DREF" 1 "systematic";
   mkCode "DSFS" "DSF" 0.00056 "systematic";
   mkCode "DSTG" "DST" 2.5e-07 "global";
   mkCode "MBIXY-TI1S" "MBIXY_TI1" 70 "systematic";
   mkCode "MBIXY-TI2S" "MBIXY_TI2" 70 "systematic";
   mkCode "MDI-CI" "MDI" 0.0008726646259971648 "global";
   mkCode "MDI-OI" "MDI" 0.00034906585039886593 "global";
   mkCode "MDI-U" "MDI" 0.0010471975511965976 "within_pad";
   mkCode "MDIR" "MDI" 0.00034906585039886593 "random";
   mkCode "MFI-CI" "MFI" 27 "global";
   mkCode "MFI-OI" "MFI" 13 "global";
   mkCode "MFI-U" "MFI" 33 "within_pad";
   mkCode "MFIR" "MFI" 15 "random";
   mkCode "MSIXY-TI1S" "MSIXY_TI1" 0.0016 "systematic";
   mkCode "MSIXY-TI2S" "MSIXY_TI2" 0.0016 "systematic";
   mkCode "MSIXY-TI3S" "MSIXY_TI3" 0.0016 "systematic";
   mkCode "SAGE" "SAGE" 0.0013962634015954637 "systematic";
   mkCode "XCLA" "XCLA" 0.167 "random";
   mkCode "XCLH" "XCLH" 0.167 "random";
   mkCode "XYM1" "XYM1" 0.0017453292519943296 "systematic";
   mkCode "XYM2" "XYM2" 0.0017453292519943296 "systematic";
   mkCode "XYM3E" "XYM3E" 0.005235987755982988 "random";
   mkCode "XYM4E" "XYM4E" 0.005235987755982988 "random"]%string.
(** welleng/errors/tool_codes/A012Mc.yaml *)
Definition tool_A012Mc : tool_file := mkTool "MWD+IFR2+SAG" 180 (XclTortuosity)
  [mkCode "ABXY-TI1S" "ABXY_TI1" 0.004 "systematic";
   mkCode "ABXY-TI2S" "ABXY_TI2" 0.004 "systematic";
   mkCode "ABZ" "ABZ" 0.004 "systematic";
   mkCode "AMIL" "AMIL" 220 "systematic";
   mkCode "ASXY-TI1S" "ASXY_TI1" 0.0005 "systematic";
   mkCode "ASXY-TI2S" "ASXY_TI2" 0.0005 "systematic";
   mkCode "ASXY-TI3S" "ASXY_TI3" 0.0005 "systematic";
   mkCode "ASZ" "ASZ" 0.0005 "systematic";
   mkCode "DBH-CI" "DBH" 12.426744274199626 "global";
   mkCode "DBH-OI" "DBH" 6.213372137099813 "global";
   mkCode "DBH-U" "DBH" 16.807520696705392 "within_pad";
   mkCode "DBHR" "DBH" 13.08996938995747 "random";
   mkCode "DEC-CI" "AZ" 0.0015707963267948964 "global";
   mkCode "DEC-OI" "AZ" 0.0008726646259971648 "global";
   mkCode "DEC-U" "AZ" 0.0019198621771937625 "within_pad";
   mkCode "DECR" "AZ" 0.0008726646259971648 "random";
   mkCode "DRFR" "DREF" 0.35 "random";
   mkCode "DSFS" "DSF" 0.00056 "systematic";
   mkCode "DSTG" "DST" 2.5e-07 "global";
   mkCode "MBXY-TI1S" "MBXY_TI1" 70 "systematic";
   mkCode "MBXY-TI2S" "MBXY_TI2" 70 "systematic";
   mkCode "MBZ" "MBZ" 70 "systematic";
   mkCode "MSXY-TI1S" "MSXY_TI1" 0.0016 "systematic";
   mkCode "MSXY-TI2S" "MSXY_TI2" 0.0016 "systematic";
   mkCode "MSXY-TI3S" "MSXY_TI3" 0.0016 "systematic";
   mkCode "MSZ" "MSZ" 0.0016 "systematic";
   mkCode "SAGE" "SAGE" 0.0013962634015954637 "systematic";
   mkCode "XCLA" "XCLA" 0.167 "random";
   mkCode "XCLH" "XCLH" 0.167 "random";
   mkCode "XYM1" "XYM1" 0.0017453292519943296 "systematic";
   mkCode "XYM2" "XYM2" 0.0017453292519943296 "systematic";
   mkCode "XYM3E" "XYM3E" 0.005235987755982988 "random";
   mkCode "XYM4E" "XYM4E" 0.005235987755982988 "random"]%string.
(** welleng/errors/tool_codes/A012Mc_Fl.yaml *)
Definition tool_A012Mc_Fl : tool_file := mkTool "MWD+IFR2+SAG_Fl" 180 (XclTortuosity)
  [mkCode "ABXY-TI1S" "ABXY_TI1" 0.004 "systematic";
   mkCode "ABXY-TI2S" "ABXY_TI2" 0.004 "systematic";
   mkCode "ABZ" "ABZ" 0.004 "systematic";
   mkCode "AMIL" "AMIL" 220 "systematic";
   mkCode "ASXY-TI1S" "ASXY_TI1" 0.0005 "systematic";
   mkCode "ASXY-TI2S" "ASXY_TI2" 0.0005 "systematic";
   mkCode "ASXY-TI3S" "ASXY_TI3" 0.0005 "systematic";
   mkCode "ASZ" "ASZ" 0.0005 "systematic";
   mkCode "DBH-CI" "DBH" 12.426744274199626 "global";
   mkCode "DBH-OI" "DBH" 6.213372137099813 "global";
   mkCode "DBH-U" "DBH" 16.807520696705392 "within_pad";
   mkCode "DBHR" "DBH" 13.08996938995747 "random";
   mkCode "DEC-CI" "AZ" 0.0015707963267948964 "global";
   mkCode "DEC-OI" "AZ" 0.0008726646259971648 "global";
   mkCode "DEC-U" "AZ" 0.0019198621771937625 "within_pad";
   mkCode "DECR" "AZ" 0.0008726646259971648 "random";
   mkCode "DRFR" "DREF" 2.2 "random";
   mkCode "DRFS" "DREF" 1 "systematic";
   mkCode "DSFS" "DSF" 0.00056 "systematic";
   mkCode "DSTG" "DST" 2.5e-07 "global";
   mkCode "MBXY-TI1S" "MBXY_TI1" 70 "systematic";
   mkCode "MBXY-TI2S" "MBXY_TI2" 70 "systematic";
   mkCode "MBZ" "MBZ" 70 "systematic";
   mkCode "MSXY-TI1S" "MSXY_TI1" 0.0016 "systematic";
   mkCode "MSXY-TI2S" "MSXY_TI2" 0.0016 "systematic";
   mkCode "MSXY-TI3S" "MSXY_TI3" 0.0016 "systematic";
   mkCode "MSZ" "MSZ" 0.0016 "systematic";
   mkCode "SAGE" "SAGE" 0.0013962634015954637 "systematic";
   mkCode "XCLA" "XCLA" 0.167 "random";
   mkCode "XCLH" "XCLH" 0.167 "random";
   mkCode "XYM1" "XYM1" 0.0017453292519943296 "systematic";
   mkCode "XYM2" "XYM2" 0.0017453292519943296 "systematic";
   mkCode "XYM3E" "XYM3E" 0.005235987755982988 "random";
   mkCode "XYM4E" "XYM4E" 0.005235987755982988 "random"]%string.
(** welleng/errors/tool_codes/A013Mc.yaml *)
Definition tool_A013Mc : tool_file := mkTool "MWD+IFR2+SAG+MS" 180 (XclTortuosity)
  [mkCode "ABXY-TI1S" "ABXY_TI1" 0.004 "systematic";
   mkCode "ABXY-TI2S" "ABXY_TI2" 0.004 "systematic";
   mkCode "ABZ" "ABZ" 0.004 "systematic";
   mkCode "AMIL" "AMIL" 100 "systematic";
   mkCode "ASXY-TI1S" "ASXY_TI1" 0.0005 "systematic";
   mkCode "ASXY-TI2S" "ASXY_TI2" 0.0005 "systematic";
   mkCode "ASXY-TI3S" "ASXY_TI3" 0.0005 "systematic";
   mkCode "ASZ" "ASZ" 0.0005 "systematic";
   mkCode "DBH-CI" "DBH" 12.426744274199626 "global";
   mkCode "DBH-OI" "DBH" 6.213372137099813 "global";
   mkCode "DBH-U" "DBH" 16.807520696705392 "within_pad";
   mkCode "DBHR" "DBH" 13.08996938995747 "random";
   mkCode "DEC-CI" "AZ" 0.0015707963267948964 "global";
   mkCode "DEC-OI" "AZ" 0.0008726646259971648 "global";
   mkCode "DEC-U" "AZ" 0.0019198621771937625 "within_pad";
   mkCode "DECR" "AZ" 0.0008726646259971648 "random";
   mkCode "DRFR" "DREF" 0.35 "random";
   mkCode "DSFS" "DSF" 0.00056 "systematic";
   mkCode "DSTG" "DST" 2.5e-07 "global";
   mkCode "MBXY-TI1S" "MBXY_TI1" 35 "systematic";
   mkCode "MBXY-TI2S" "MBXY_TI2" 35 "systematic";
   mkCode "MBZ" "MBZ" 35 "systematic";
   mkCode "MSXY-TI1S" "MSXY_TI1" 0.0008 "systematic";
   mkCode "MSXY-TI2S" "MSXY_TI2" 0.0008 "systematic";
   mkCode "MSXY-TI3S" "MSXY_TI3" 0.0008 "systematic";
   mkCode "MSZ" "MSZ" 0.0008 "systematic";
   mkCode "SAGE" "SAGE" 0.0013962634015954637 "systematic";
   mkCode "XCLA" "XCLA" 0.167 "random";
   mkCode "XCLH" "XCLH" 0.167 "random";
   mkCode "XYM1" "XYM1" 0.0017453292519943296 "systematic";
   mkCode "XYM2" "XYM2" 0.0017453292519943296 "systematic";
   mkCode "XYM3E" "XYM3E" 0.005235987755982988 "random";
   mkCode "XYM4E" "XYM4E" 0.005235987755982988 "random"]%string.
(** welleng/errors/tool_codes/A013Mc_Fl.yaml *)
Definition tool_A013Mc_Fl : tool_file := mkTool "MWD+IFR2+SAG+MS_Fl" 180 (XclTortuosity)
  [mkCode "ABXY-TI1S" "ABXY_TI1" 0.004 "systematic";
   mkCode "ABXY-TI2S" "ABXY_TI2" 0.004 "systematic";
   mkCode "ABZ" "ABZ" 0.004 "systematic";
   mkCode "AMIL" "AMIL" 100 "systematic";
   mkCode "ASXY-TI1S" "ASXY_TI1" 0.0005 "systematic";
   mkCode "ASXY-TI2S" "ASXY_TI2" 0.0005 "systematic";
   mkCode "ASXY-TI3S" "ASXY_TI3" 0.0005 "systematic";
   mkCode "ASZ" "ASZ" 0.0005 "systematic";
   mkCode "DBH-CI" "DBH" 12.426744274199626 "global";
   mkCode "DBH-OI" "DBH" 6.213372137099813 "global";
   mkCode "DBH-U" "DBH" 16.807520696705392 "within_pad";
   mkCode "DBHR" "DBH" 13.08996938995747 "random";
   mkCode "DEC-CI" "AZ" 0.0015707963267948964 "global";
   mkCode "DEC-OI" "AZ" 0.0008726646259971648 "global";
   mkCode "DEC-U" "AZ" 0.0019198621771937625 "within_pad";
   mkCode "DECR" "AZ" 0.0008726646259971648 "random";
   mkCode "DRFR" "DREF" 2.2 "random";
   mkCode "DRFS" "DREF" 1 "systematic";
   mkCode "DSFS" "DSF" 0.00056 "systematic";
   mkCode "DSTG" "DST" 2.5e-07 "global";
   mkCode "MBXY-TI1S" "MBXY_TI1" 35 "systematic";
   mkCode "MBXY-TI2S" "MBXY_TI2" 35 "systematic";
   mkCode "MBZ" "MBZ" 35 "systematic";
   mkCode "MSXY-TI1S" "MSXY_TI1" 0.0008 "systematic";
   mkCode "MSXY-TI2S" "MSXY_TI2" 0.0008 "systematic";
   mkCode "MSXY-TI3S" "MSXY_TI3" 0.0008 "systematic";
   mkCode "MSZ" "MSZ" 0.0008 "systematic";
   mkCode "SAGE" "SAGE" 0.0013962634015954637 "systematic";
   mkCode "XCLA" "XCLA" 0.167 "random";
   mkCode "XCLH" "XCLH" 0.167 "random";
   mkCode "XYM1" "XYM1" 0.0017453292519943296 "systematic";
   mkCode "XYM2" "XYM2" 0.0017453292519943296 "systematic";
   mkCode "XYM3E" "XYM3E" 0.005235987755982988 "random";
   mkCode "XYM4E" "XYM4E" 0.005235987755982988 "random"]%string.
(** welleng/errors/tool_codes/A014Mc.yaml *)
Definition tool_A014Mc : tool_file := mkTool "EMS+SRGM" 180 (XclTortuosity)
  [mkCode "ABXY-TI1S" "ABXY_TI1" 0.004 "systematic";
   mkCode "ABXY-TI2S" "ABXY_TI2" 0.004 "systematic";
   mkCode "ABZ" "ABZ" 0.004 "systematic";
   mkCode "AMIL" "AMIL" 220 "systematic";
   mkCode "ASXY-TI1S" "ASXY_TI1" 0.0005 "systematic";
   mkCode "ASXY-TI2S" "ASXY_TI2" 0.0005 "systematic";
   mkCode "ASXY-TI3S" "ASXY_TI3" 0.0005 "systematic";
   mkCode "ASZ" "ASZ" 0.0005 "systematic";
   mkCode "DBH-OH" "DBH" 49.56735075663896 "global";
   mkCode "DBH-OI" "DBH" 6.213372137099813 "global";
   mkCode "DBH-OS" "DBH" 58.62560957448953 "global";
   mkCode "DBH-U" "DBH" 41.01523742186674 "within_pad";
   mkCode "DBHS" "DBH" 52.35987755982988 "systematic";
   mkCode "DEC-OH" "AZ" 0.003665191429188092 "global";
   mkCode "DEC-OI" "AZ" 0.0008726646259971648 "global";
   mkCode "DEC-OS" "AZ" 0.0041887902047863905 "global";
   mkCode "DEC-U" "AZ" 0.0027925268031909274 "within_pad";
   mkCode "DECS" "AZ" 0.0017453292519943296 "systematic";
   mkCode "DRFR" "DREF" 0.35 "random";
   mkCode "DSFS" "DSF" 0.00056 "systematic";
   mkCode "DSTG" "DST" 2.5e-07 "global";
   mkCode "MBXY-TI1S" "MBXY_TI1" 70 "systematic";
   mkCode "MBXY-TI2S" "MBXY_TI2" 70 "systematic";
   mkCode "MBZ" "MBZ" 70 "systematic";
   mkCode "MSXY-TI1S" "MSXY_TI1" 0.0016 "systematic";
   mkCode "MSXY-TI2S" "MSXY_TI2" 0.0016 "systematic";
   mkCode "MSXY-TI3S" "MSXY_TI3" 0.0016 "systematic";
   mkCode "MSZ" "MSZ" 0.0016 "systematic";
   mkCode "SAGE" "SAGE" 0.003490658503988659 "systematic";
   mkCode "XCLA" "XCLA" 0.167 "random";
   mkCode "XCLH" "XCLH" 0.167 "random";
   mkCode "XYM1" "XYM1" 0.0017453292519943296 "systematic";
   mkCode "XYM2" "XYM2" 0.0017453292519943296 "systematic";
   mkCode "XYM3E" "XYM3E" 0.005235987755982988 "random";
   mkCode "XYM4E" "XYM4E" 0.005235987755982988 "random"]%string.
(** welleng/errors/tool_codes/A014Mc_Fl.yaml *)
Definition tool_A014Mc_Fl : tool_file := mkTool "EMS+SRGM_Fl" 180 (XclTortuosity)
  [mkCode "ABXY-TI1S" "ABXY_TI1" 0.004 "systematic";
   mkCode "ABXY-TI2S" "ABXY_TI2" 0.004 "systematic";
   mkCode "ABZ" "ABZ" 0.004 "systematic";
   mkCode "AMIL" "AMIL" 220 "systematic";
   mkCode "ASXY-TI1S" "ASXY_TI1" 0.0005 "systematic";
   mkCode "ASXY-TI2S" "ASXY_TI2" 0.0005 "systematic";
   mkCode "ASXY-TI3S" "ASXY_TI3" 0.0005 "systematic";
   mkCode "ASZ" "ASZ" 0.0005 "systematic";
   mkCode "DBH-OH" "DBH" 49.56735075663896 "global";
   mkCode "DBH-OI" "DBH" 6.213372137099813 "global";
   mkCode "DBH-OS" "DBH" 58.62560957448953 "global";
   mkCode "DBH-U" "DBH" 41.01523742186674 "within_pad";
   mkCode "DBHS" "DBH" 52.35987755982988 "systematic";
   mkCode "DEC-OH" "AZ" 0.003665191429188092 "global";
   mkCode "DEC-OI" "AZ" 0.0008726646259971648 "global";
   mkCode "DEC-OS" "AZ" 0.0041887902047863905 "global";
   mkCode "DEC-U" "AZ" 0.0027925268031909274 "within_pad";
   mkCode "DECS" "AZ" 0.0017453292519943296 "systematic";
   mkCode "DRFR" "DREF" 2.2 "random";
   mkCode "DRFS" "DREF" 1 "systematic";
   mkCode "DSFS" "DSF" 0.00056 "systematic";
   mkCode "DSTG" "DST" 2.5e-07 "global";
   mkCode "MBXY-TI1S" "MBXY_TI1" 70 "systematic";
   mkCode "MBXY-TI2S" "MBXY_TI2" 70 "systematic";
   mkCode "MBZ" "MBZ" 70 "systematic";
   mkCode "MSXY-TI1S" "MSXY_TI1" 0.0016 "systematic";
   mkCode "MSXY-TI2S" "MSXY_TI2" 0.0016 "systematic";
   mkCode "MSXY-TI3S" "MSXY_TI3" 0.0016 "systematic";
   mkCode "MSZ" "MSZ" 0.0016 "systematic";
   mkCode "SAGE" "SAGE" 0.003490658503988659 "systematic";
   mkCode "XCLA" "XCLA" 0.167 "random";
   mkCode "XCLH" "XCLH" 0.167 "random";
   mkCode "XYM1" "XYM1" 0.0017453292519943296 "systematic";
   mkCode "XYM2" "XYM2" 0.0017453292519943296 "systematic";
   mkCode "XYM3E" "XYM3E" 0.005235987755982988 "random";
   mkCode "XYM4E" "XYM4E" 0.005235987755982988 "random"]%string.
(** welleng/errors/tool_codes/A015Mc.yaml *)
Definition tool_A015Mc : tool_file := mkTool "EMS+SRGM+AX" 180 (XclTortuosity)
  [mkCode "ABIXY-TI1S" "ABIXY_TI1" 0.004 "systematic";
   mkCode "ABIXY-TI2S" "ABIXY_TI2" 0.004 "systematic";
   mkCode "ABIZ" "ABIZ" 0.004 "systematic";
   mkCode "ASIXY-TI1S" "ASIXY_TI1" 0.0005 "systematic";
   mkCode "ASIXY-TI2S" "ASIXY_TI2" 0.0005 "systematic";
   mkCode "ASIXY-TI3S" "ASIXY_TI3" 0.0005 "systematic";
   mkCode "ASIZ" "ASIZ" 0.0005 "systematic";
   mkCode "DBH-OH" "DBH" 49.56735075663896 "global";
   mkCode "DBH-OI" "DBH" 6.213372137099813 "global";
   mkCode "DBH-OS" "DBH" 58.62560957448953 "global";
   mkCode "DBH-U" "DBH" 41.01523742186674 "within_pad";
   mkCode "DBHS" "DBH" 52.35987755982988 "systematic";
   mkCode "DEC-OH" "AZ" 0.003665191429188092 "global";
   mkCode "DEC-OI" "AZ" 0.0008726646259971648 "global";
   mkCode "DEC-OS" "AZ" 0.0041887902047863905 "global";
   mkCode "DEC-U" "AZ" 0.0027925268031909274 "within_pad";
   mkCode "DECS" "AZ" 0.0017453292519943296 "systematic";
   mkCode "DRFR" "DREF" 0.35 "random";
   mkCode "DSFS" "DSF" 0.00056 "systematic";
   mkCode "DSTG" "DST" 2.5e-07 "global";
   mkCode "MBIXY-TI1S" "MBIXY_TI1" 70 "systematic";
   mkCode "MBIXY-TI2S" "MBIXY_TI2" 70 "systematic";
   mkCode "MDI-OH" "MDI" 0.0019198621771937625 "global";
   mkCode "MDI-OI" "MDI" 0.0005235987755982988 "global";
   mkCode "MDI-OS" "MDI" 0.0024434609527920616 "global";
   mkCode "MDI-U" "MDI" 0.0015707963267948964 "within_pad";
   mkCode "MFI-OH" "MFI" 73 "global";
   mkCode "MFI-OI" "MFI" 13 "global";
   mkCode "MFI-OS" "MFI" 88 "global";
   mkCode "MFI-U" "MFI" 61 "within_pad";
   mkCode "MSIXY-TI1S" "MSIXY_TI1" 0.0016 "systematic";
   mkCode "MSIXY-TI2S" "MSIXY_TI2" 0.0016 "systematic";
   mkCode "MSIXY-TI3S" "MSIXY_TI3" 0.0016 "systematic";
   mkCode "SAGE" "SAGE" 0.003490658503988659 "systematic";
   mkCode "XCLA" "XCLA" 0.167 "random";
   mkCode "XCLH" "XCLH" 0.167 "random";
   mkCode "XYM1" "XYM1" 0.0017453292519943296 "systematic";
   mkCode "XYM2" "XYM2" 0.0017453292519943296 "systematic";
   mkCode "XYM3E" "XYM3E" 0.005235987755982988 "random";
   mkCode "XYM4E" "XYM4E" 0.005235987755982988 "random"]%string.
(** welleng/errors/tool_codes/A015Mc_Fl.yaml *)
Definition tool_A015Mc_Fl : tool_file := mkTool "EMS+SRGM+AX_Fl" 180 (XclTortuosity)
  [mkCode "ABIXY-TI1S" "ABIXY_TI1" 0.004 "systematic";
   mkCode "ABIXY-TI2S" "ABIXY_TI2" 0.004 "systematic";
   mkCode "ABIZ" "ABIZ" 0.004 "systematic";
   mkCode "ASIXY-TI1S" "ASIXY_TI1" 0.0005 "systematic";
   mkCode "ASIXY-TI2S" "ASIXY_TI2" 0.0005 "systematic";
   mkCode "ASIXY-TI3S" "ASIXY_TI3" 0.0005 "systematic";
   mkCode "ASIZ" "ASIZ" 0.0005 "systematic";
   mkCode "DBH-OH" "DBH" 49.56735075663896 "global";
   mkCode "DBH-OI" "DBH" 6.213372137099813 "global";
   mkCode "DBH-OS" "DBH" 58.62560957448953 "global";
   mkCode "DBH-U" "DBH" 41.01523742186674 "within_pad";
   mkCode "DBHS" "DBH" 52.35987755982988 "systematic";
   mkCode "DEC-OH" "AZ" 0.003665191429188092 "global";
   mkCode "DEC-OI" "AZ" 0.0008726646259971648 "global";
   mkCode "DEC-OS" "AZ" 0.0041887902047863905 "global";
   mkCode "DEC-U" "AZ" 0.0027925268031909274 "within_pad";
   mkCode "DECS" "AZ" 0.0017453292519943296 "systematic";
   mkCode "DRFR" "DREF" 2.2 "random";
   mkCode "DRFS" "DREF" 1 "systematic";
   mkCode "DSFS" "DSF" 0.00056 "systematic";
   mkCode "DSTG" "DST" 2.5e-07 "global";
   mkCode "MBIXY-TI1S" "MBIXY_TI1" 70 "systematic";
   mkCode "MBIXY-TI2S" "MBIXY_TI2" 70 "systematic";
   mkCode "MDI-OH" "MDI" 0.0019198621771937625 "global";
   mkCode "MDI-OI" "MDI" 0.0005235987755982988 "global";
   mkCode "MDI-OS" "MDI" 0.0024434609527920616 "global";
   mkCode "MDI-U" "MDI" 0.0015707963267948964 "within_pad";
   mkCode "MFI-OH" "MFI" 73 "global";
   mkCode "MFI-OI" "MFI" 13 "global";
   mkCode "MFI-OS" "MFI" 88 "global";
   mkCode "MFI-U" "MFI" 61 "within_pad";
   mkCode "MSIXY-TI1S" "MSIXY_TI1" 0.0016 "systematic";
   mkCode "MSIXY-TI2S" "MSIXY_TI2" 0.0016 "systematic";
   mkCode "MSIXY-TI3S" "MSIXY_TI3" 0.0016 "systematic";
   mkCode "SAGE" "SAGE" 0.003490658503988659 "systematic";
   mkCode "XCLA" "XCLA" 0.167 "random";
   mkCode "XCLH" "XCLH" 0.167 "random";
   mkCode "XYM1" "XYM1" 0.0017453292519943296 "systematic";
   mkCode "XYM2" "XYM2" 0.0017453292519943296 "systematic";
   mkCode "XYM3E" "XYM3E" 0.005235987755982988 "random";
   mkCode "XYM4E" "XYM4E" 0.005235987755982988 "random"]%string.
(** welleng/errors/tool_codes/A016Mc.yaml *)
Definition tool_A016Mc : tool_file := mkTool "EMS+SRGM+AX+SAG" 180 (XclTortuosity)
  [mkCode "ABIXY-TI1S" "ABIXY_TI1" 0.004 "systematic";
   mkCode "ABIXY-TI2S" "ABIXY_TI2" 0.004 "systematic";
   mkCode "ABIZ" "ABIZ" 0.004 "systematic";
   mkCode "ASIXY-TI1S" "ASIXY_TI1" 0.0005 "systematic";
   mkCode "ASIXY-TI2S" "ASIXY_TI2" 0.0005 "systematic";
   mkCode "ASIXY-TI3S" "ASIXY_TI3" 0.0005 "systematic";
   mkCode "ASIZ" "ASIZ" 0.0005 "systematic";
   mkCode "DBH-OH" "DBH" 49.56735075663896 "global";
   mkCode "DBH-OI" "DBH" 6.213372137099813 "global";
   mkCode "DBH-OS" "DBH" 58.62560957448953 "global";
   mkCode "DBH-U" "DBH" 41.01523742186674 "within_pad";
   mkCode "DBHS" "DBH" 52.35987755982988 "systematic";
   mkCode "DEC-OH" "AZ" 0.003665191429188092 "global";
   mkCode "DEC-OI" "AZ" 0.0008726646259971648 "global";
   mkCode "DEC-OS" "AZ" 0.0041887902047863905 "global";
   mkCode "DEC-U" "AZ" 0.0027925268031909274 "within_pad";
   mkCode "DECS" "AZ" 0.0017453292519943296 "systematic";
   mkCode "DRFR" "DREF" 0.35 "random";
   mkCode "DSFS" "DSF" 0.00056 "systematic";
   mkCode "DSTG" "DST" 2.5e-07 "global";
   mkCode "MBIXY-TI1S" "MBIXY_TI1" 70 "systematic";
   mkCode "MBIXY-TI2S" "MBIXY_TI2" 70 "systematic";
   mkCode "MDI-OH" "MDI" 0.0019198621771937625 "global";
   mkCode "MDI-OI" "MDI" 0.0005235987755982988 "global";
   mkCode "MDI-OS" "MDI" 0.0024434609527920616 "global";
   mkCode "MDI-U" "MDI" 0.0015707963267948964 "within_pad";
   mkCode "MFI-OH" "MFI" 73 "global";
   mkCode "MFI-OI" "MFI" 13 "global";
   mkCode "MFI-OS" "MFI" 88 "global";
   mkCode "MFI-U" "MFI" 61 "within_pad";
   mkCode "MSIXY-TI1S" "MSIXY_TI1" 0.0016 "systematic";
   mkCode "MSIXY-TI2S" "MSIXY_TI2" 0.0016 "systematic";
   mkCode "MSIXY-TI3S" "MSIXY_TI3" 0.0016 "systematic";
   mkCode "SAGE" "SAGE" 0.0013962634015954637 "systematic";
   mkCode "XCLA" "XCLA" 0.167 "random";
   mkCode "XCLH" "XCLH" 0.167 "random";
   mkCode "XYM1" "XYM1" 0.0017453292519943296 "systematic";
   mkCode "XYM2" "XYM2" 0.0017453292519943296 "systematic";
   mkCode "XYM3E" "XYM3E" 0.005235987755982988 "random";
   mkCode "XYM4E" "XYM4E" 0.005235987755982988 "random"]%string.
(** welleng/errors/tool_codes/A016Mc_Fl.yaml *)
Definition tool_A016Mc_Fl : tool_file := mkTool "EMS+SRGM+AX+SAG_Fl" 180 (XclTortuosity)
  [mkCode "ABIXY-TI1S" "ABIXY_TI1" 0.004 "systematic";
   mkCode "ABIXY-TI2S" "ABIXY_TI2" 0.004 "systematic";
   mkCode "ABIZ" "ABIZ" 0.004 "systematic";
   mkCode "ASIXY-TI1S" "ASIXY_TI1" 0.0005 "systematic";
   mkCode "ASIXY-TI2S" "ASIXY_TI2" 0.0005 "systematic";
   mkCode "ASIXY-TI3S" "ASIXY_TI3" 0.0005 "systematic";
   mkCode "ASIZ" "ASIZ" 0.0005 "systematic";
   mkCode "DBH-OH" "DBH" 49.56735075663896 "global";
   mkCode "DBH-OI" "DBH" 6.213372137099813 "global";
   mkCode "DBH-OS" "DBH" 58.62560957448953 "global";
   mkCode "DBH-U" "DBH" 41.01523742186674 "within_pad";
   mkCode "DBHS" "DBH" 52.35987755982988 "systematic";
   mkCode "DEC-OH" "AZ" 0.003665191429188092 "global";
   mkCode "DEC-OI" "AZ" 0.0008726646259971648 "global";
   mkCode "DEC-OS" "AZ" 0.0041887902047863905 "global";
   mkCode "DEC-U" "AZ" 0.0027925268031909274 "within_pad";
   mkCode "DECS" "AZ" 0.0017453292519943296 "systematic";
   mkCode "DRFR" "DREF" 2.2 "random";
   mkCode "DRFS" "DREF" 1 "systematic";
   mkCode "DSFS" "DSF" 0.00056 "systematic";
   mkCode "DSTG" "DST" 2.5e-07 "global";
   mkCode "MBIXY-TI1S" "MBIXY_TI1" 70 "systematic";
   mkCode "MBIXY-TI2S" "MBIXY_TI2" 70 "systematic";
   mkCode "MDI-OH" "MDI" 0.0019198621771937625 "global";
   mkCode "MDI-OI" "MDI" 0.0005235987755982988 "global";
   mkCode "MDI-OS" "MDI" 0.0024434609527920616 "global";
   mkCode "MDI-U" "MDI" 0.0015707963267948964 "within_pad";
   mkCode "MFI-OH" "MFI" 73 "global";
   mkCode "MFI-OI" "MFI" 13 "global";
   mkCode "MFI-OS" "MFI" 88 "global";
   mkCode "MFI-U" "MFI" 61 "within_pad";
   mkCode "MSIXY-TI1S" "MSIXY_TI1" 0.0016 "systematic";
   mkCode "MSIXY-TI2S" "MSIXY_TI2" 0.0016 "systematic";
   mkCode "MSIXY-TI3S" "MSIXY_TI3" 0.0016 "systematic";
   mkCode "SAGE" "SAGE" 0.0013962634015954637 "systematic";
   mkCode "XCLA" "XCLA" 0.167 "random";
   mkCode "XCLH" "XCLH" 0.167 "random";
   mkCode "XYM1" "XYM1" 0.0017453292519943296 "systematic";
   mkCode "XYM2" "XYM2" 0.0017453292519943296 "systematic";
   mkCode "XYM3E" "XYM3E" 0.005235987755982988 "random";
   mkCode "XYM4E" "XYM4E" 0.005235987755982988 "random"]%string.
(** welleng/errors/tool_codes/A017Mc.yaml *)
Definition tool_A017Mc : tool_file := mkTool "EMS+SRGM+SAG" 180 (XclTortuosity)
  [mkCode "ABXY-TI1S" "ABXY_TI1" 0.004 "systematic";
   mkCode "ABXY-TI2S" "ABXY_TI2" 0.004 "systematic";
   mkCode "ABZ" "ABZ" 0.004 "systematic";
   mkCode "AMIL" "AMIL" 220 "systematic";
   mkCode "ASXY-TI1S" "ASXY_TI1" 0.0005 "systematic";
   mkCode "ASXY-TI2S" "ASXY_TI2" 0.0005 "systematic";
   mkCode "ASXY-TI3S" "ASXY_TI3" 0.0005 "systematic";
   mkCode "ASZ" "ASZ" 0.0005 "systematic";
   mkCode "DBH-OH" "DBH" 49.56735075663896 "global";
   mkCode "DBH-OI" "DBH" 6.213372137099813 "global";
   mkCode "DBH-OS" "DBH" 58.62560957448953 "global";
   mkCode "DBH-U" "DBH" 41.01523742186674 "within_pad";
   mkCode "DBHS" "DBH" 52.35987755982988 "systematic";
   mkCode "DEC-OH" "AZ" 0.003665191429188092 "global";
   mkCode "DEC-OI" "AZ" 0.0008726646259971648 "global";
   mkCode "DEC-OS" "AZ" 0.0041887902047863905 "global";
   mkCode "DEC-U" "AZ" 0.0027925268031909274 "within_pad";
   mkCode "DECS" "AZ" 0.0017453292519943296 "systematic";
   mkCode "DRFR" "DREF" 0.35 "random";
   mkCode "DSFS" "DSF" 0.00056 "systematic";
   mkCode "DSTG" "DST" 2.5e-07 "global";
   mkCode "MBXY-TI1S" "MBXY_TI1" 70 "systematic";
   mkCode "MBXY-TI2S" "MBXY_TI2" 70 "systematic";
   mkCode "MBZ" "MBZ" 70 "systematic";
   mkCode "MSXY-TI1S" "MSXY_TI1" 0.0016 "systematic";
   mkCode "MSXY-TI2S" "MSXY_TI2" 0.0016 "systematic";
   mkCode "MSXY-TI3S" "MSXY_TI3" 0.0016 "systematic";
   mkCode "MSZ" "MSZ" 0.0016 "systematic";
   mkCode "SAGE" "SAGE" 0.0013962634015954637 "systematic";
   mkCode "XCLA" "XCLA" 0.167 "random";
   mkCode "XCLH" "XCLH" 0.167 "random";
   mkCode "XYM1" "XYM1" 0.0017453292519943296 "systematic";
   mkCode "XYM2" "XYM2" 0.0017453292519943296 "systematic";
   mkCode "XYM3E" "XYM3E" 0.005235987755982988 "random";
   mkCode "XYM4E" "XYM4E" 0.005235987755982988 "random"]%string.
(** welleng/errors/tool_codes/A017Mc_Fl.yaml *)
Definition tool_A017Mc_Fl : tool_file := mkTool "EMS+SRGM+SAG_Fl" 180 (XclTortuosity)
  [mkCode "ABXY-TI1S" "ABXY_TI1" 0.004 "systematic";
   mkCode "ABXY-TI2S" "ABXY_TI2" 0.004 "systematic";
   mkCode "ABZ" "ABZ" 0.004 "systematic";
   mkCode "AMIL" "AMIL" 220 "systematic";
   mkCode "ASXY-TI1S" "ASXY_TI1" 0.0005 "systematic";
   mkCode "ASXY-TI2S" "ASXY_TI2" 0.0005 "systematic";
   mkCode "ASXY-TI3S" "ASXY_TI3" 0.0005 "systematic";
   mkCode "ASZ" "ASZ" 0.0005 "systematic";
   mkCode "DBH-OH" "DBH" 49.56735075663896 "global";
   mkCode "DBH-OI" "DBH" 6.213372137099813 "global";
   mkCode "DBH-OS" "DBH" 58.62560957448953 "global";
   mkCode "DBH-U" "DBH" 41.01523742186674 "within_pad";
   mkCode "DBHS" "DBH" 52.35987755982988 "systematic";
   mkCode "DEC-OH" "AZ" 0.003665191429188092 "global";
   mkCode "DEC-OI" "AZ" 0.0008726646259971648 "global";
   mkCode "DEC-OS" "AZ" 0.0041887902047863905 "global";
   mkCode "DEC-U" "AZ" 0.0027925268031909274 "within_pad";
   mkCode "DECS" "AZ" 0.0017453292519943296 "systematic";
   mkCode "DRFR" "DREF" 2.2 "random";
   mkCode "DRFS" "DREF" 1 "systematic";
   mkCode "DSFS" "DSF" 0.00056 "systematic";
   mkCode "DSTG" "DST" 2.5e-07 "global";
   mkCode "MBXY-TI1S" "MBXY_TI1" 70 "systematic";
   mkCode "MBXY-TI2S" "MBXY_TI2" 70 "systematic";
   mkCode "MBZ" "MBZ" 70 "systematic";
   mkCode "MSXY-TI1S" "MSXY_TI1" 0.0016 "systematic";
   mkCode "MSXY-TI2S" "MSXY_TI2" 0.0016 "systematic";
   mkCode "MSXY-TI3S" "MSXY_TI3" 0.0016 "systematic";
   mkCode "MSZ" "MSZ" 0.0016 "systematic";
   mkCode "SAGE" "SAGE" 0.0013962634015954637 "systematic";
   mkCode "XCLA" "XCLA" 0.167 "random";
   mkCode "XCLH" "XCLH" 0.167 "random";
   mkCode "XYM1" "XYM1" 0.0017453292519943296 "systematic";
   mkCode "XYM2" "XYM2" 0.0017453292519943296 "systematic";
   mkCode "XYM3E" "XYM3E" 0.005235987755982988 "random";
   mkCode "XYM4E" "XYM4E" 0.005235987755982988 "random"]%string.
(** welleng/errors/tool_codes/A018Mb.yaml *)
Definition tool_A018Mb : tool_file := mkTool "DIPMETER" 180 (XclTortuosity)
  [mkCode "AMIC" "AZ" 0.017453292519943295 "systematic";
   mkCode "AMID" "AMID" 0.04363323129985824 "systematic";
   mkCode "AZMS" "AZ" 0.017453292519943295 "systematic";
   mkCode "DBHG" "DBH" 87.26646259971648 "global";
   mkCode "DECG" "AZ" 0.006283185307179586 "global";
   mkCode "DRFS" "DREF" 0.2 "systematic";
   mkCode "DSFW" "DSF" 0.0006 "within_pad";
   mkCode "DSTG" "DST" 2.0e-07 "global";
   mkCode "SAG" "SAG" 0.0017453292519943296 "systematic";
   mkCode "XCLA" "XCLA" 0.167 "random";
   mkCode "XCLH" "XCLH" 0.167 "random";
   mkCode "XYM1" "XYM1" 0.0066322511575784525 "systematic";
   mkCode "XYM2" "XYM2" 0.0066322511575784525 "systematic";
   mkCode "XYM3" "XYM3" 0.0066322511575784525 "systematic";
   mkCode "XYM4" "XYM4" 0.0066322511575784525 "systematic"]%string.
(** welleng/errors/tool_codes/A018Mb_Fl.yaml *)
Definition tool_A018Mb_Fl : tool_file := mkTool "DIPMETER_Fl" 180 (XclTortuosity)
  [mkCode "AMIC" "AZ" 0.017453292519943295 "systematic";
   mkCode "AMID" "AMID" 0.04363323129985824 "systematic";
   mkCode "AZMS" "AZ" 0.017453292519943295 "systematic";
   mkCode "DBHG" "DBH" 87.26646259971648 "global";
   mkCode "DECG" "AZ" 0.006283185307179586 "global";
   mkCode "DRFR" "DREF" 2.2 "random";
   mkCode "DRFS" "DREF" 1 "systematic";
   mkCode "DSFW" "DSF" 0.0006 "within_pad";
   mkCode "DSTG" "DST" 2.0e-07 "global";
   mkCode "SAG" "SAG" 0.0017453292519943296 "systematic";
   mkCode "XCLA" "XCLA" 0.167 "random";
   mkCode "XCLH" "XCLH" 0.167 "random";
   mkCode "XYM1" "XYM1" 0.0066322511575784525 "systematic";
   mkCode "XYM2" "XYM2" 0.0066322511575784525 "systematic";
   mkCode "XYM3" "XYM3" 0.0066322511575784525 "systematic";
   mkCode "XYM4" "XYM4" 0.0066322511575784525 "systematic"]%string.
(** welleng/errors/tool_codes/A024Mb.yaml *)
Definition tool_A024Mb : tool_file := mkTool "CB_Film_MMS" 180 (XclTortuosity)
  [mkCode "AMIC" "AZ" 0.008726646259971648 "systematic";
   mkCode "AMID" "AMID" 0.026179938779914945 "systematic";
   mkCode "AZMR" "AZ" 0.008726646259971648 "random";
   mkCode "AZMS" "AZ" 0.019198621771937627 "systematic";
   mkCode "DBHG" "DBH" 87.26646259971648 "global";
   mkCode "DECG" "AZ" 0.006283185307179586 "global";
   mkCode "DRFR" "DREF" 0.35 "random";
   mkCode "DSFS" "DSF" 0.00056 "systematic";
   mkCode "DSTG" "DST" 2.5e-07 "global";
   mkCode "SAG" "SAG" 0.003490658503988659 "systematic";
   mkCode "XCLA" "XCLA" 0.167 "random";
   mkCode "XCLH" "XCLH" 0.167 "random";
   mkCode "XYM1" "XYM1" 0.005585053606381855 "systematic";
   mkCode "XYM2" "XYM2" 0.005585053606381855 "systematic";
   mkCode "XYM3" "XYM3" 0.005585053606381855 "systematic";
   mkCode "XYM4" "XYM4" 0.005585053606381855 "systematic"]%string.
(** welleng/errors/tool_codes/A024Mb_Fl.yaml *)
Definition tool_A024Mb_Fl : tool_file := mkTool "CB_Film_MMS_Fl" 180 (XclTortuosity)
  [mkCode "AMIC" "AZ" 0.008726646259971648 "systematic";
   mkCode "AMID" "AMID" 0.026179938779914945 "systematic";
   mkCode "AZMR" "AZ" 0.008726646259971648 "random";
   mkCode "AZMS" "AZ" 0.019198621771937627 "systematic";
   mkCode "DBHG" "DBH" 87.26646259971648 "global";
   mkCode "DECG" "AZ" 0.006283185307179586 "global";
   mkCode "DRFR" "DREF" 2.2 "random";
   mkCode "DRFS" "DREF" 1 "systematic";
   mkCode "DSFS" "DSF" 0.00056 "systematic";
   mkCode "DSTG" "DST" 2.5e-07 "global";
   mkCode "SAG" "SAG" 0.003490658503988659 "systematic";
   mkCode "XCLA" "XCLA" 0.167 "random";
   mkCode "XCLH" "XCLH" 0.167 "random";
   mkCode "XYM1" "XYM1" 0.005585053606381855 "systematic";
   mkCode "XYM2" "XYM2" 0.005585053606381855 "systematic";
   mkCode "XYM3" "XYM3" 0.005585053606381855 "systematic";
   mkCode "XYM4" "XYM4" 0.005585053606381855 "systematic"]%string.
(** welleng/errors/tool_codes/A025Mb.yaml *)
Definition tool_A025Mb : tool_file := mkTool "CB_Film_MSS" 180 (XclTortuosity)
  [mkCode "AMIC" "AZ" 0.008726646259971648 "systematic";
   mkCode "AMID" "AMID" 0.026179938779914945 "systematic";
   mkCode "AZMR" "AZ" 0.008726646259971648 "random";
   mkCode "AZMS" "AZ" 0.019198621771937627 "systematic";
   mkCode "DBHG" "DBH" 87.26646259971648 "global";
   mkCode "DECG" "AZ" 0.006283185307179586 "global";
   mkCode "DRFR" "DREF" 0.35 "random";
   mkCode "DSFS" "DSF" 0.00056 "systematic";
   mkCode "DSTG" "DST" 2.5e-07 "global";
   mkCode "SAG" "SAG" 0.003490658503988659 "systematic";
   mkCode "XCLA" "XCLA" 0.167 "random";
   mkCode "XCLH" "XCLH" 0.167 "random";
   mkCode "XYM1" "XYM1" 0.0017453292519943296 "systematic";
   mkCode "XYM2" "XYM2" 0.0017453292519943296 "systematic";
   mkCode "XYM3" "XYM3" 0.0017453292519943296 "systematic";
   mkCode "XYM4" "XYM4" 0.0017453292519943296 "systematic"]%string.
(** welleng/errors/tool_codes/A025Mb_Fl.yaml *)
Definition tool_A025Mb_Fl : tool_file := mkTool "CB_Film_MSS_Fl" 180 (XclTortuosity)
  [mkCode "AMIC" "AZ" 0.008726646259971648 "systematic";
   mkCode "AMID" "AMID" 0.026179938779914945 "systematic";
   mkCode "AZMR" "AZ" 0.008726646259971648 "random";
   mkCode "AZMS" "AZ" 0.019198621771937627 "systematic";
   mkCode "DBHG" "DBH" 87.26646259971648 "global";
   mkCode "DECG" "AZ" 0.006283185307179586 "global";
   mkCode "DRFR" "DREF" 2.2 "random";
   mkCode "DRFS" "DREF" 1 "systematic";
   mkCode "DSFS" "DSF" 0.00056 "systematic";
   mkCode "DSTG" "DST" 2.5e-07 "global";
   mkCode "SAG" "SAG" 0.003490658503988659 "systematic";
   mkCode "XCLA" "XCLA" 0.167 "random";
   mkCode "XCLH" "XCLH" 0.167 "random";
   mkCode "XYM1" "XYM1" 0.0017453292519943296 "systematic";
   mkCode "XYM2" "XYM2" 0.0017453292519943296 "systematic";
   mkCode "XYM3" "XYM3" 0.0017453292519943296 "systematic";
   mkCode "XYM4" "XYM4" 0.0017453292519943296 "systematic"]%string.
(** welleng/errors/tool_codes/A026Ua.yaml *)
Definition tool_A026Ua : tool_file := mkTool "BLIND" 180 (NoTortuosity)
  [mkCode "AZMS" "AZ" 0.10471975511965978 "systematic";
   mkCode "AZRF" "AZ" 0.7853981633974483 "systematic";
   mkCode "CNA" "CNA" 0.35 "systematic";
   mkCode "CNI" "CNI" 0.35 "systematic";
   mkCode "DRFR" "DREF" 0.35 "random";
   mkCode "DSFS" "DSF" 0.00056 "systematic";
   mkCode "DSTG" "DST" 2.5e-07 "global"]%string.
(** welleng/errors/tool_codes/A026Ua_Fl.yaml *)
Definition tool_A026Ua_Fl : tool_file := mkTool "BLIND_Fl" 180 (NoTortuosity)
  [mkCode "AZMS" "AZ" 0.10471975511965978 "systematic";
   mkCode "AZRF" "AZ" 0.7853981633974483 "systematic";
   mkCode "CNA" "CNA" 0.35 "systematic";
   mkCode "CNI" "CNI" 0.35 "systematic";
   mkCode "DRFR" "DREF" 2.2 "random";
   mkCode "DRFS" "DREF" 1 "systematic";
   mkCode "DSFS" "DSF" 0.00056 "systematic";
   mkCode "DSTG" "DST" 2.5e-07 "global"]%string.
(** welleng/errors/tool_codes/A027Ub.yaml *)
Definition tool_A027Ub : tool_file := mkTool "INC-ONLY" 30 (NoTortuosity)
  [mkCode "DRFR" "DREF" 0.35 "random";
   mkCode "DSFS" "DSF" 0.00056 "systematic";
   mkCode "DSTG" "DST" 2.5e-07 "global";
   mkCode "XCLA" "XCLA" 0.167 "random";
   mkCode "XCLH" "XCLH" 0.167 "random";
   mkCode "XYM1" "XYM1" 0.3490658503988659 "systematic";
   mkCode "XYM2" "XYM2" 0.3490658503988659 "systematic";
   mkCode "XYM3" "XYM3" 0.008726646259971648 "systematic";
   mkCode "XYM4" "XYM4" 0.008726646259971648 "systematic"]%string.
(** welleng/errors/tool_codes/A027Ub_Fl.yaml *)
Definition tool_A027Ub_Fl : tool_file := mkTool "INC-ONLY_Fl" 30 (NoTortuosity)
  [mkCode "DRFR" "DREF" 2.2 "random";
   mkCode "DRFS" "DREF" 1 "systematic";
   mkCode "DSFS" "DSF" 0.00056 "systematic";
   mkCode "DSTG" "DST" 2.5e-07 "global";
   mkCode "XCLA" "XCLA" 0.167 "random";
   mkCode "XCLH" "XCLH" 0.167 "random";
   mkCode "XYM1" "XYM1" 0.3490658503988659 "systematic";
   mkCode "XYM2" "XYM2" 0.3490658503988659 "systematic";
   mkCode "XYM3" "XYM3" 0.008726646259971648 "systematic";
   mkCode "XYM4" "XYM4" 0.008726646259971648 "systematic"]%string.
(** welleng/errors/tool_codes/A028Ub.yaml *)
Definition tool_A028Ub : tool_file := mkTool "INC-ONLY_PLANNED_5_DEG" 5 (NoTortuosity)
  [mkCode "DRFR" "DREF" 0.35 "random";
   mkCode "DSFS" "DSF" 0.00056 "systematic";
   mkCode "DSTG" "DST" 2.5e-07 "global";
   mkCode "XCLA" "XCLA" 0.167 "random";
   mkCode "XCLH" "XCLH" 0.167 "random";
   mkCode "XYM3" "XYM3" 0.04363323129985824 "systematic";
   mkCode "XYM4" "XYM4" 0.04363323129985824 "systematic"]%string.
(** welleng/errors/tool_codes/A028Ub_Fl.yaml *)
Definition tool_A028Ub_Fl : tool_file := mkTool "INC-ONLY_PLANNED_5_DEG_Fl" 5 (NoTortuosity)
  [mkCode "DRFR" "DREF" 2.2 "random";
   mkCode "DRFS" "DREF" 1 "systematic";
   mkCode "DSFS" "DSF" 0.00056 "systematic";
   mkCode "DSTG" "DST" 2.5e-07 "global";
   mkCode "XCLA" "XCLA" 0.167 "random";
   mkCode "XCLH" "XCLH" 0.167 "random";
   mkCode "XYM3" "XYM3" 0.04363323129985824 "systematic";
   mkCode "XYM4" "XYM4" 0.04363323129985824 "systematic"]%string.
(** welleng/errors/tool_codes/A029Ub.yaml *)
Definition tool_A029Ub : tool_file := mkTool "UNKNOWN" 180 (XclTortuosity)
  [mkCode "AZMS" "AZ" 0.05235987755982989 "systematic";
   mkCode "CNA" "CNA" 0.02 "systematic";
   mkCode "CNI" "CNI" 0.02 "systematic";
   mkCode "DRFR" "DREF" 0.35 "random";
   mkCode "DSFS" "DSF" 0.00056 "systematic";
   mkCode "DSTG" "DST" 2.5e-07 "global";
   mkCode "XCLA" "XCLA" 0.167 "random";
   mkCode "XCLH" "XCLH" 0.167 "random"]%string.
(** welleng/errors/tool_codes/A029Ub_Fl.yaml *)
Definition tool_A029Ub_Fl : tool_file := mkTool "UNKNOWN_Fl" 180 (XclTortuosity)
  [mkCode "AZMS" "AZ" 0.05235987755982989 "systematic";
   mkCode "CNA" "CNA" 0.02 "systematic";
   mkCode "CNI" "CNI" 0.02 "systematic";
   mkCode "DRFR" "DREF" 2.2 "random";
   mkCode "DRFS" "DREF" 1 "systematic";
   mkCode "DSFS" "DSF" 0.00056 "systematic";
   mkCode "DSTG" "DST" 2.5e-07 "global";
   mkCode "XCLA" "XCLA" 0.167 "random";
   mkCode "XCLH" "XCLH" 0.167 "random"]%string.
(** welleng/errors/tool_codes/A030Ua.yaml *)
Definition tool_A030Ua : tool_file := mkTool "ZERO-ERROR" 180 (NoTortuosity)
  []%string.
(** welleng/errors/tool_codes/ISCWSA MWD Rev4.yaml *)
Definition tool_ISCWSA_MWD_Rev4 : tool_file := mkTool "ISCWSA MWD Rev4" 180 (NoTortuosity)
  [mkCode "ABXY-TI1S" "ABXY_TI1" 0.004 "systematic";
   mkCode "ABXY-TI2S" "ABXY_TI2" 0.004 "systematic";
   mkCode "ABZ" "ABZ" 0.004 "systematic";
   mkCode "AMIL" "AMIL" 220 "systematic";
   mkCode "ASXY-TI1S" "ASXY_TI1" 0.0005 "systematic";
   mkCode "ASXY-TI2S" "ASXY_TI2" 0.0005 "systematic";
   mkCode "ASXY-TI3S" "ASXY_TI3" 0.0005 "systematic";
   mkCode "ASZ" "ASZ" 0.0005 "systematic";
   mkCode "DBHG" "DBH" 87.26646259971648 "global";
   mkCode "DBHR" "DBH" 52.35987755982988 "random";
   mkCode "DECG" "AZ" 0.006283185307179586 "global";
   mkCode "DECR" "AZ" 0.0017453292519943296 "random";
   mkCode "DRFR" "DREF" 0.35 "random";
   mkCode "DSFS" "DSF" 0.00056 "systematic";
   mkCode "DSTG" "DST" 2.5e-07 "global";
   mkCode "MBXY-TI1S" "MBXY_TI1" 70 "systematic";
   mkCode "MBXY-TI2S" "MBXY_TI2" 70 "systematic";
   mkCode "MBZ" "MBZ" 70 "systematic";
   mkCode "MSXY-TI1S" "MSXY_TI1" 0.0016 "systematic";
   mkCode "MSXY-TI2S" "MSXY_TI2" 0.0016 "systematic";
   mkCode "MSXY-TI3S" "MSXY_TI3" 0.0016 "systematic";
   mkCode "MSZ" "MSZ" 0.0016 "systematic";
   mkCode "SAG" "SAG" 0.003490658503988659 "systematic";
   mkCode "XYM1" "XYM1" 0.0017453292519943296 "systematic";
   mkCode "XYM2" "XYM2" 0.0017453292519943296 "systematic";
   mkCode "XYM3" "XYM3" 0.0017453292519943296 "systematic";
   mkCode "XYM4" "XYM4" 0.0017453292519943296 "systematic"]%string.
(** welleng/errors/tool_codes/ISCWSA MWD Rev5.11.yaml *)
Definition tool_ISCWSA_MWD_Rev5_11 : tool_file := mkTool "ISCWSA MWD Rev5" 180 (Tortuosity 0.000572615)
  [mkCode "ABXY-TI1S" "ABXY_TI1" 0.004 "systematic";
   mkCode "ABXY-TI2S" "ABXY_TI2" 0.004 "systematic";
   mkCode "ABZ" "ABZ" 0.004 "systematic";
   mkCode "AMIL" "AMIL" 220 "systematic";
   mkCode "ASXY-TI1S" "ASXY_TI1" 0.0005 "systematic";
   mkCode "ASXY-TI2S" "ASXY_TI2" 0.0005 "systematic";
   mkCode "ASXY-TI3S" "ASXY_TI3" 0.0005 "systematic";
   mkCode "ASZ" "ASZ" 0.0005 "systematic";
   mkCode "DBH-OH" "DBH" 49.56735075663896 "global";
   mkCode "DBH-OI" "DBH" 6.213372137099813 "global";
   mkCode "DBH-OS" "DBH" 58.62560957448953 "global";
   mkCode "DBH-U" "DBH" 41.01523742186674 "global";
   mkCode "DBHR" "DBH" 52.35987755982988 "random";
   mkCode "DEC-OH" "AZ" 0.003665191429188092 "global";
   mkCode "DEC-OI" "AZ" 0.0008726646259971648 "global";
   mkCode "DEC-OS" "AZ" 0.0041887902047863905 "global";
   mkCode "DEC-U" "AZ" 0.0027925268031909274 "global";
   mkCode "DECR" "AZ" 0.0017453292519943296 "random";
   mkCode "DRFR" "DREF" 0.35 "random";
   mkCode "DSFS" "DSF" 0.00056 "systematic";
   mkCode "DSTG" "DST" 2.5e-07 "global";
   mkCode "MBXY-TI1S" "MBXY_TI1" 70 "systematic";
   mkCode "MBXY-TI2S" "MBXY_TI2" 70 "systematic";
   mkCode "MBZ" "MBZ" 70 "systematic";
   mkCode "MSXY-TI1S" "MSXY_TI1" 0.0016 "systematic";
   mkCode "MSXY-TI2S" "MSXY_TI2" 0.0016 "systematic";
   mkCode "MSXY-TI3S" "MSXY_TI3" 0.0016 "systematic";
   mkCode "MSZ" "MSZ" 0.0016 "systematic";
   mkCode "SAGE" "SAGE" 0.003490658503988659 "systematic";
   mkCode "XCLA" "XCL" 0.167 "random";
   mkCode "XCLH" "XCL" 0.167 "random";
   mkCode "XYM1" "XYM1" 0.0017453292519943296 "systematic";
   mkCode "XYM2" "XYM2" 0.0017453292519943296 "random";
   mkCode "XYM3E" "XYM3L" 0.005235987755982988 "random";
   mkCode "XYM4E" "XYM4L" 0.005235987755982988 "systematic"]%string.

(** the files of tool_codes *)
Definition tool_codes : list (string * tool_file) :=
  [("A001Mc", tool_A001Mc);
   ("A001Mc_Fl", tool_A001Mc_Fl);
   ("A002Mc", tool_A002Mc);
   ("A002Mc_Fl", tool_A002Mc_Fl);
   ("A003Mc", tool_A003Mc);
   ("A003Mc_Fl", tool_A003Mc_Fl);
   ("A004Mc", tool_A004Mc);
   ("A004Mc_Fl", tool_A004Mc_Fl);
   ("A005Mc", tool_A005Mc);
   ("A005Mc_Fl", tool_A005Mc_Fl);
   ("A006Mc", tool_A006Mc);
   ("A006Mc_Fl", tool_A006Mc_Fl);
   ("A007Mc", tool_A007Mc);
   ("A007Mc_Fl", tool_A007Mc_Fl);
   ("A008Mc", tool_A008Mc);
   ("A008Mc_Fl", tool_A008Mc_Fl);
   ("A009Mc", tool_A009Mc);
   ("A009Mc_Fl", tool_A009Mc_Fl);
   ("A010Mc", tool_A010Mc);
   ("A010Mc_Fl", tool_A010Mc_Fl);
   ("A011Mc", tool_A011Mc);
   ("A011Mc_Fl", tool_A011Mc_Fl);
   ("A012Mc", tool_A012Mc);
   ("A012Mc_Fl", tool_A012Mc_Fl);
   ("A013Mc", tool_A013Mc);
   ("A013Mc_Fl", tool_A013Mc_Fl);
   ("A014Mc", tool_A014Mc);
   ("A014Mc_Fl", tool_A014Mc_Fl);
   ("A015Mc", tool_A015Mc);
   ("A015Mc_Fl", tool_A015Mc_Fl);
   ("A016Mc", tool_A016Mc);
   ("A016Mc_Fl", tool_A016Mc_Fl);
   ("A017Mc", tool_A017Mc);
   ("A017Mc_Fl", tool_A017Mc_Fl);
   ("A018Mb", tool_A018Mb);
   ("A018Mb_Fl", tool_A018Mb_Fl);
   ("A024Mb", tool_A024Mb);
   ("A024Mb_Fl", tool_A024Mb_Fl);
   ("A025Mb", tool_A025Mb);
   ("A025Mb_Fl", tool_A025Mb_Fl);
   ("A026Ua", tool_A026Ua);
   ("A026Ua_Fl", tool_A026Ua_Fl);
   ("A027Ub", tool_A027Ub);
   ("A027Ub_Fl", tool_A027Ub_Fl);
   ("A028Ub", tool_A028Ub);
   ("A028Ub_Fl", tool_A028Ub_Fl);
   ("A029Ub", tool_A029Ub);
   ("A029Ub_Fl", tool_A029Ub_Fl);
   ("A030Ua", tool_A030Ua);
   ("ISCWSA MWD Rev4", tool_ISCWSA_MWD_Rev4);
   ("ISCWSA MWD Rev5.11", tool_ISCWSA_MWD_Rev5_11)]%string.

(** welleng/errors/iscwsa_json, directories and files in alphabetical order *)
Definition iscwsa_json : list (string * list json_file) :=
  [("owsg_a",
    [mkJson "BLIND.json" "A026Ua" "BLIND";
     mkJson "BLIND_Fl.json" "A026Ua" "BLIND_Fl";
     mkJson "CB_Film_GMS.json" "A022Gb" "CB_Film_GMS";
     mkJson "CB_Film_GMS_Fl.json" "A022Gb" "CB_Film_GMS_Fl";
     mkJson "CB_Film_GSS.json" "A023Gb" "CB_Film_GSS";
     mkJson "CB_Film_GSS_Fl.json" "A023Gb" "CB_Film_GSS_Fl";
     mkJson "CB_Film_MMS.json" "A024Mb" "CB_Film_MMS";
     mkJson "CB_Film_MMS_Fl.json" "A024Mb" "CB_Film_MMS_Fl";
     mkJson "CB_Film_MSS.json" "A025Mb" "CB_Film_MSS";
     mkJson "CB_Film_MSS_Fl.json" "A025Mb" "CB_Film_MSS_Fl";
     mkJson "DIPMETER.json" "A018Mb" "DIPMETER";
     mkJson "DIPMETER_Fl.json" "A018Mb" "DIPMETER_Fl";
     mkJson "EMS+SRGM+AX+SAG.json" "A016Mc" "EMS+SRGM+AX+SAG";
     mkJson "EMS+SRGM+AX+SAG_Fl.json" "A016Mc" "EMS+SRGM+AX+SAG_Fl";
     mkJson "EMS+SRGM+AX.json" "A015Mc" "EMS+SRGM+AX";
     mkJson "EMS+SRGM+AX_Fl.json" "A015Mc" "EMS+SRGM+AX_Fl";
     mkJson "EMS+SRGM+SAG.json" "A017Mc" "EMS+SRGM+SAG";
     mkJson "EMS+SRGM+SAG_Fl.json" "A017Mc" "EMS+SRGM+SAG_Fl";
     mkJson "EMS+SRGM.json" "A014Mc" "EMS+SRGM";
     mkJson "EMS+SRGM_Fl.json" "A014Mc" "EMS+SRGM_Fl";
     mkJson "GYRO-MWD.json" "A019Gb" "GYRO-MWD";
     mkJson "GYRO-MWD_Fl.json" "A019Gb" "GYRO-MWD_Fl";
     mkJson "GYRO-NS-CT.json" "A021Gc" "GYRO-NS-CT";
     mkJson "GYRO-NS-CT_Fl.json" "A021Gc" "GYRO-NS-CT_Fl";
     mkJson "GYRO-NS.json" "A020Gb" "GYRO-NS";
     mkJson "GYRO-NS_Fl.json" "A020Gb" "GYRO-NS_Fl";
     mkJson "INC-ONLY.json" "A027Ub" "INC-ONLY";
     mkJson "INC-ONLY_Fl.json" "A027Ub" "INC-ONLY_Fl";
     mkJson "INC-ONLY_PLANNED_5_DEG.json" "A028Ub" "INC-ONLY_PLANNED_5_DEG";
     mkJson "INC-ONLY_PLANNED_5_DEG_Fl.json" "A028Ub" "INC-ONLY_PLANNED_5_DEG_Fl";
     mkJson "MWD+IFR1+AX+SAG.json" "A007Mc" "MWD+IFR1+AX+SAG";
     mkJson "MWD+IFR1+AX+SAG_Fl.json" "A007Mc" "MWD+IFR1+AX+SAG_Fl";
     mkJson "MWD+IFR1+AX.json" "A006Mc" "MWD+IFR1+AX";
     mkJson "MWD+IFR1+AX_Fl.json" "A006Mc" "MWD+IFR1+AX_Fl";
     mkJson "MWD+IFR1+MS.json" "A008Mc" "MWD+IFR1+MS";
     mkJson "MWD+IFR1+MS_Fl.json" "A008Mc" "MWD+IFR1+MS_Fl";
     mkJson "MWD+IFR1+SAG+MS.json" "A010Mc" "MWD+IFR1+SAG+MS";
     mkJson "MWD+IFR1+SAG+MS_Fl.json" "A010Mc" "MWD+IFR1+SAG+MS_Fl";
     mkJson "MWD+IFR1+SAG.json" "A009Mc" "MWD+IFR1+SAG";
     mkJson "MWD+IFR1+SAG_Fl.json" "A009Mc" "MWD+IFR1+SAG_Fl";
     mkJson "MWD+IFR1.json" "A005Mc" "MWD+IFR1";
     mkJson "MWD+IFR1_Fl.json" "A005Mc" "MWD+IFR1_Fl";
     mkJson "MWD+IFR2+AX+SAG.json" "A011Mc" "MWD+IFR2+AX+SAG";
     mkJson "MWD+IFR2+AX+SAG_Fl.json" "A011Mc" "MWD+IFR2+AX+SAG_Fl";
     mkJson "MWD+IFR2+SAG+MS.json" "A013Mc" "MWD+IFR2+SAG+MS";
     mkJson "MWD+IFR2+SAG+MS_Fl.json" "A013Mc" "MWD+IFR2+SAG+MS_Fl";
     mkJson "MWD+IFR2+SAG.json" "A012Mc" "MWD+IFR2+SAG";
     mkJson "MWD+IFR2+SAG_Fl.json" "A012Mc" "MWD+IFR2+SAG_Fl";
     mkJson "MWD+SRGM+AX+SAG.json" "A004Mc" "MWD+SRGM+AX+SAG";
     mkJson "MWD+SRGM+AX+SAG_Fl.json" "A004Mc" "MWD+SRGM+AX+SAG_Fl";
     mkJson "MWD+SRGM+AX.json" "A003Mc" "MWD+SRGM+AX";
     mkJson "MWD+SRGM+AX_Fl.json" "A003Mc" "MWD+SRGM+AX_Fl";
     mkJson "MWD+SRGM+SAG.json" "A002Mc" "MWD+SRGM+SAG";
     mkJson "MWD+SRGM+SAG_Fl.json" "A002Mc" "MWD+SRGM+SAG_Fl";
     mkJson "MWD+SRGM.json" "A001Mc" "MWD+SRGM";
     mkJson "MWD+SRGM_Fl.json" "A001Mc" "MWD+SRGM_Fl";
     mkJson "UNKNOWN.json" "A029Ub" "UNKNOWN";
     mkJson "UNKNOWN_Fl.json" "A029Ub" "UNKNOWN_Fl"]);
   ("owsg_b",
    [mkJson "BLIND+TREND.json" "B022Ua" "BLIND+TREND";
     mkJson "EMS+HRGM+AX+SAG.json" "B015Mc" "EMS+HRGM+AX+SAG";
     mkJson "EMS+HRGM+AX+SAG_Fl.json" "B015Mc" "EMS+HRGM+AX+SAG_Fl";
     mkJson "EMS+HRGM+AX.json" "B014Mc" "EMS+HRGM+AX";
     mkJson "EMS+HRGM+AX_Fl.json" "B014Mc" "EMS+HRGM+AX_Fl";
     mkJson "EMS+HRGM+SAG.json" "B016Mc" "EMS+HRGM+SAG";
     mkJson "EMS+HRGM+SAG_Fl.json" "B016Mc" "EMS+HRGM+SAG_Fl";
     mkJson "EMS+HRGM.json" "B013Mc" "EMS+HRGM";
     mkJson "EMS+HRGM_Fl.json" "B013Mc" "EMS+HRGM_Fl";
     mkJson "EMS+IFR1+AX+SAG.json" "B010Mc" "EMS+IFR1+AX+SAG";
     mkJson "EMS+IFR1+AX+SAG_Fl.json" "B010Mc" "EMS+IFR1+AX+SAG_Fl";
     mkJson "EMS+IFR1+SAG+MS.json" "B012Mc" "EMS+IFR1+SAG+MS";
     mkJson "EMS+IFR1+SAG+MS_Fl.json" "B012Mc" "EMS+IFR1+SAG+MS_Fl";
     mkJson "EMS+IFR1+SAG.json" "B011Mc" "EMS+IFR1+SAG";
     mkJson "EMS+IFR1+SAG_Fl.json" "B011Mc" "EMS+IFR1+SAG_Fl";
     mkJson "EMS+LRGM+AX+SAG.json" "B019Md" "EMS+LRGM+AX+SAG";
     mkJson "EMS+LRGM+AX+SAG_Fl.json" "B019Md" "EMS+LRGM+AX+SAG_Fl";
     mkJson "EMS+LRGM+AX.json" "B018Md" "EMS+LRGM+AX";
     mkJson "EMS+LRGM+AX_Fl.json" "B018Md" "EMS+LRGM+AX_Fl";
     mkJson "EMS+LRGM+SAG.json" "B020Mc" "EMS+LRGM+SAG";
     mkJson "EMS+LRGM+SAG_Fl.json" "B020Mc" "EMS+LRGM+SAG_Fl";
     mkJson "EMS+LRGM.json" "B017Mc" "EMS+LRGM";
     mkJson "EMS+LRGM_Fl.json" "B017Mc" "EMS+LRGM_Fl";
     mkJson "FINDS.json" "B021Ga" "FINDS";
     mkJson "MWD+HRGM+AX+SAG.json" "B003Mc" "MWD+HRGM+AX+SAG";
     mkJson "MWD+HRGM+AX+SAG_Fl.json" "B003Mc" "MWD+HRGM+AX+SAG_Fl";
     mkJson "MWD+HRGM+AX.json" "B002Mc" "MWD+HRGM+AX";
     mkJson "MWD+HRGM+AX_Fl.json" "B002Mc" "MWD+HRGM+AX_Fl";
     mkJson "MWD+HRGM+SAG+MS.json" "B005Mc" "MWD+HRGM+SAG+MS";
     mkJson "MWD+HRGM+SAG+MS_Fl.json" "B005Mc" "MWD+HRGM+SAG+MS_Fl";
     mkJson "MWD+HRGM+SAG.json" "B004Mc" "MWD+HRGM+SAG";
     mkJson "MWD+HRGM+SAG_Fl.json" "B004Mc" "MWD+HRGM+SAG_Fl";
     mkJson "MWD+HRGM.json" "B001Mc" "MWD+HRGM";
     mkJson "MWD+HRGM_Fl.json" "B001Mc" "MWD+HRGM_Fl";
     mkJson "MWD+LRGM+AX+SAG.json" "B008Mc" "MWD+LRGM+AX+SAG";
     mkJson "MWD+LRGM+AX+SAG_Fl.json" "B008Mc" "MWD+LRGM+AX+SAG_Fl";
     mkJson "MWD+LRGM+AX.json" "B007Mc" "MWD+LRGM+AX";
     mkJson "MWD+LRGM+AX_Fl.json" "B007Mc" "MWD+LRGM+AX_Fl";
     mkJson "MWD+LRGM+SAG.json" "B009Mc" "MWD+LRGM+SAG";
     mkJson "MWD+LRGM+SAG_Fl.json" "B009Mc" "MWD+LRGM+SAG_Fl";
     mkJson "MWD+LRGM.json" "B006Mc" "MWD+LRGM";
     mkJson "MWD+LRGM_Fl.json" "B006Mc" "MWD+LRGM_Fl"])]%string.

(** the terms of the files that carry the key of a model without a yaml file *)
Definition json_models : list json_model :=
  [mkJModel "CB_Film_GMS.json" 89
   [mkJTerm "DRFS" 0.2 "Systematic" "m";
    mkJTerm "DSFW" 0.0006 "Well" "-";
    mkJTerm "DSTG" 2e-07 "Global" "1/m";
    mkJTerm "SAG" 0.25 "Systematic" "deg";
    mkJTerm "XYM1" 0.25 "Systematic" "deg";
    mkJTerm "XYM2" 0.25 "Systematic" "deg";
    mkJTerm "XYM3" 0.25 "Systematic" "deg";
    mkJTerm "XYM4" 0.25 "Systematic" "deg";
    mkJTerm "XCLA" 0.167 "Random" "-";
    mkJTerm "XCLH" 0.167 "Random" "-";
    mkJTerm "EXT-REF" 0.6 "Systematic" "deg";
    mkJTerm "GZ-GD" 5.5 "Systematic" "deg/hr"];
   mkJModel "CB_Film_GMS_Fl.json" 89
   [mkJTerm "DRFR" 2.2 "Random" "m";
    mkJTerm "DRFS" 1.0 "Systematic" "m";
    mkJTerm "DSFW" 0.0006 "Well" "-";
    mkJTerm "DSTG" 2e-07 "Global" "1/m";
    mkJTerm "SAG" 0.25 "Systematic" "deg";
    mkJTerm "XYM1" 0.25 "Systematic" "deg";
    mkJTerm "XYM2" 0.25 "Systematic" "deg";
    mkJTerm "XYM3" 0.25 "Systematic" "deg";
    mkJTerm "XYM4" 0.25 "Systematic" "deg";
    mkJTerm "XCLA" 0.167 "Random" "-";
    mkJTerm "XCLH" 0.167 "Random" "-";
    mkJTerm "EXT-REF" 0.6 "Systematic" "deg";
    mkJTerm "GZ-GD" 5.5 "Systematic" "deg/hr"];
   mkJModel "CB_Film_GSS.json" 89
   [mkJTerm "DRFR" 0.35 "Random" "m";
    mkJTerm "DSFS" 0.00056 "Systematic" "-";
    mkJTerm "DSTS" 2.5e-07 "Systematic" "1/m";
    mkJTerm "SAG" 0.25 "Systematic" "deg";
    mkJTerm "XYM1" 0.25 "Systematic" "deg";
    mkJTerm "XYM2" 0.25 "Systematic" "deg";
    mkJTerm "XYM3" 0.25 "Systematic" "deg";
    mkJTerm "XYM4" 0.25 "Systematic" "deg";
    mkJTerm "XCLA" 0.167 "Random" "-";
    mkJTerm "XCLH" 0.167 "Random" "-";
    mkJTerm "EXT-REF" 0.6 "Systematic" "deg";
    mkJTerm "GZ-GD" 5.5 "Systematic" "deg/hr"];
   mkJModel "CB_Film_GSS_Fl.json" 89
   [mkJTerm "DRFR" 2.2 "Random" "m";
    mkJTerm "DRFS" 1.0 "Systematic" "m";
    mkJTerm "DSFS" 0.00056 "Systematic" "-";
    mkJTerm "DSTS" 2.5e-07 "Systematic" "1/m";
    mkJTerm "SAG" 0.25 "Systematic" "deg";
    mkJTerm "XYM1" 0.25 "Systematic" "deg";
    mkJTerm "XYM2" 0.25 "Systematic" "deg";
    mkJTerm "XYM3" 0.25 "Systematic" "deg";
    mkJTerm "XYM4" 0.25 "Systematic" "deg";
    mkJTerm "XCLA" 0.167 "Random" "-";
    mkJTerm "XCLH" 0.167 "Random" "-";
    mkJTerm "EXT-REF" 0.6 "Systematic" "deg";
    mkJTerm "GZ-GD" 5.5 "Systematic" "deg/hr"];
   mkJModel "GYRO-MWD.json" 89
   [mkJTerm "DRFR" 0.35 "Random" "m";
    mkJTerm "DSFS" 0.00056 "Systematic" "-";
    mkJTerm "DSTG" 2.5e-07 "Global" "1/m";
    mkJTerm "SAGE" 0.2 "Systematic" "deg";
    mkJTerm "XYM1" 0.1 "Systematic" "deg";
    mkJTerm "XYM2" 0.1 "Systematic" "deg";
    mkJTerm "XYM3E" 0.3 "Random" "deg";
    mkJTerm "XYM4E" 0.3 "Random" "deg";
    mkJTerm "XCLA" 0.167 "Random" "-";
    mkJTerm "XCLH" 0.167 "Random" "-";
    mkJTerm "AXYZ-MIS" 0.0095 "Systematic" "deg";
    mkJTerm "AXYZ-SF" 0.000111 "Systematic" "-";
    mkJTerm "AXYZ-ZB" 0.0017 "Systematic" "m/s2";
    mkJTerm "GXY-B1R" 0.15 "Random" "deg/hr";
    mkJTerm "GXY-B2R" 0.15 "Random" "deg/hr";
    mkJTerm "GXY-G1" 0.4 "Systematic" "deg/hr";
    mkJTerm "GXY-G4" 1.0 "Systematic" "deg/hr";
    mkJTerm "GXY-RN" 0.6 "Random" "deg/hr"];
   mkJModel "GYRO-MWD_Fl.json" 89
   [mkJTerm "DRFR" 2.2 "Random" "m";
    mkJTerm "DRFS" 1.0 "Systematic" "m";
    mkJTerm "DSFS" 0.00056 "Systematic" "-";
    mkJTerm "DSTG" 2.5e-07 "Global" "1/m";
    mkJTerm "SAGE" 0.2 "Systematic" "deg";
    mkJTerm "XYM1" 0.1 "Systematic" "deg";
    mkJTerm "XYM2" 0.1 "Systematic" "deg";
    mkJTerm "XYM3E" 0.3 "Random" "deg";
    mkJTerm "XYM4E" 0.3 "Random" "deg";
    mkJTerm "XCLA" 0.167 "Random" "-";
    mkJTerm "XCLH" 0.167 "Random" "-";
    mkJTerm "AXYZ-MIS" 0.0095 "Systematic" "deg";
    mkJTerm "AXYZ-SF" 0.000111 "Systematic" "-";
    mkJTerm "AXYZ-ZB" 0.0017 "Systematic" "m/s2";
    mkJTerm "GXY-B1R" 0.15 "Random" "deg/hr";
    mkJTerm "GXY-B2R" 0.15 "Random" "deg/hr";
    mkJTerm "GXY-G1" 0.4 "Systematic" "deg/hr";
    mkJTerm "GXY-G4" 1.0 "Systematic" "deg/hr";
    mkJTerm "GXY-RN" 0.6 "Random" "deg/hr"];
   mkJModel "GYRO-NS-CT.json" 150
   [mkJTerm "DRFR" 0.35 "Random" "m";
    mkJTerm "DSFS" 0.00056 "Systematic" "-";
    mkJTerm "DSTG" 2.5e-07 "Global" "1/m";
    mkJTerm "XYM1" 0.1 "Systematic" "deg";
    mkJTerm "XYM2" 0.1 "Systematic" "deg";
    mkJTerm "XYM3E" 0.3 "Random" "deg";
    mkJTerm "XYM4E" 0.3 "Random" "deg";
    mkJTerm "XCLA" 0.167 "Random" "-";
    mkJTerm "XCLH" 0.167 "Random" "-";
    mkJTerm "AXYZ-MIS" 0.0095 "Systematic" "deg";
    mkJTerm "AXYZ-SF" 0.000111 "Systematic" "-";
    mkJTerm "AXYZ-ZB" 0.0017 "Systematic" "m/s2";
    mkJTerm "GXY-B1S" 0.15 "Systematic" "deg/hr";
    mkJTerm "GXY-B2S" 0.15 "Systematic" "deg/hr";
    mkJTerm "GXY-G4" 0.6 "Systematic" "deg/hr";
    mkJTerm "GXY-RN" 0.4 "Random" "deg/hr";
    mkJTerm "GXY-GD" 0.5 "Systematic" "deg/hr";
    mkJTerm "GXY-GRW" 0.25 "Systematic" "deg/sqr(hr)";
    mkJTerm "SAGE" 0.08 "Systematic" "deg"];
   mkJModel "GYRO-NS-CT_Fl.json" 150
   [mkJTerm "DRFR" 2.2 "Random" "m";
    mkJTerm "DRFS" 1.0 "Systematic" "m";
    mkJTerm "DSFS" 0.00056 "Systematic" "-";
    mkJTerm "DSTG" 2.5e-07 "Global" "1/m";
    mkJTerm "XYM1" 0.1 "Systematic" "deg";
    mkJTerm "XYM2" 0.1 "Systematic" "deg";
    mkJTerm "XYM3E" 0.3 "Random" "deg";
    mkJTerm "XYM4E" 0.3 "Random" "deg";
    mkJTerm "XCLA" 0.167 "Random" "-";
    mkJTerm "XCLH" 0.167 "Random" "-";
    mkJTerm "AXYZ-MIS" 0.0095 "Systematic" "deg";
    mkJTerm "AXYZ-SF" 0.000111 "Systematic" "-";
    mkJTerm "AXYZ-ZB" 0.0017 "Systematic" "m/s2";
    mkJTerm "GXY-B1S" 0.15 "Systematic" "deg/hr";
    mkJTerm "GXY-B2S" 0.15 "Systematic" "deg/hr";
    mkJTerm "GXY-G4" 0.6 "Systematic" "deg/hr";
    mkJTerm "GXY-RN" 0.4 "Random" "deg/hr";
    mkJTerm "GXY-GD" 0.5 "Systematic" "deg/hr";
    mkJTerm "GXY-GRW" 0.25 "Systematic" "deg/sqr(hr)";
    mkJTerm "SAGE" 0.08 "Systematic" "deg"];
   mkJModel "GYRO-NS.json" 89
   [mkJTerm "DRFR" 0.35 "Random" "m";
    mkJTerm "DSFS" 0.00056 "Systematic" "-";
    mkJTerm "DSTG" 2.5e-07 "Global" "1/m";
    mkJTerm "SAGE" 0.2 "Systematic" "deg";
    mkJTerm "XYM1" 0.1 "Systematic" "deg";
    mkJTerm "XYM2" 0.1 "Systematic" "deg";
    mkJTerm "XYM3E" 0.3 "Random" "deg";
    mkJTerm "XYM4E" 0.3 "Random" "deg";
    mkJTerm "XCLA" 0.167 "Random" "-";
    mkJTerm "XCLH" 0.167 "Random" "-";
    mkJTerm "AXYZ-MIS" 0.0095 "Systematic" "deg";
    mkJTerm "AXYZ-SF" 0.000111 "Systematic" "-";
    mkJTerm "AXYZ-ZB" 0.0017 "Systematic" "m/s2";
    mkJTerm "GXY-B1R" 0.15 "Random" "deg/hr";
    mkJTerm "GXY-B2R" 0.15 "Random" "deg/hr";
    mkJTerm "GXY-G1" 0.2 "Systematic" "deg/hr";
    mkJTerm "GXY-G4" 0.6 "Systematic" "deg/hr";
    mkJTerm "GXY-RN" 0.4 "Random" "deg/hr"];
   mkJModel "GYRO-NS_Fl.json" 89
   [mkJTerm "DRFR" 2.2 "Random" "m";
    mkJTerm "DRFS" 1.0 "Systematic" "m";
    mkJTerm "DSFS" 0.00056 "Systematic" "-";
    mkJTerm "DSTG" 2.5e-07 "Global" "1/m";
    mkJTerm "SAGE" 0.2 "Systematic" "deg";
    mkJTerm "XYM1" 0.1 "Systematic" "deg";
    mkJTerm "XYM2" 0.1 "Systematic" "deg";
    mkJTerm "XYM3E" 0.3 "Random" "deg";
    mkJTerm "XYM4E" 0.3 "Random" "deg";
    mkJTerm "XCLA" 0.167 "Random" "-";
    mkJTerm "XCLH" 0.167 "Random" "-";
    mkJTerm "AXYZ-MIS" 0.0095 "Systematic" "deg";
    mkJTerm "AXYZ-SF" 0.000111 "Systematic" "-";
    mkJTerm "AXYZ-ZB" 0.0017 "Systematic" "m/s2";
    mkJTerm "GXY-B1R" 0.15 "Random" "deg/hr";
    mkJTerm "GXY-B2R" 0.15 "Random" "deg/hr";
    mkJTerm "GXY-G1" 0.2 "Systematic" "deg/hr";
    mkJTerm "GXY-G4" 0.6 "Systematic" "deg/hr";
    mkJTerm "GXY-RN" 0.4 "Random" "deg/hr"]]%string.
