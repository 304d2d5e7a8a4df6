(** Vocabulary of C122 and C123: the names of the error models that ship with the
    library, and what a survey must be like for them. *)
Require Import Reals ZArith Bool String List Permutation.
Require Import Verif.Base Verif.M_Error Verif.M_Weights Verif.M_Bundle Verif.Spec_Weights.
Import ListNotations.
Local Open Scope R_scope.

(** the names get_error_models lists, and the deprecated alias *)
Definition accepted_name (name : string) : Prop :=
  In name (map snd tool_index) \/ name = "ISCWSA MWD Rev5"%string.

(** names without a file *)
Definition missing_models : list string :=
  ["GYRO-MWD_Fl"; "GYRO-NS_Fl"; "GYRO-NS-CT_Fl"; "CB_Film_GMS_Fl"; "CB_Film_GSS_Fl"; "spe-90408-ma_example_table_3"]%string.
(** names whose file has a course length term but no tortuosity *)
Definition inc_only_models : list string :=
  ["INC-ONLY"; "INC-ONLY_Fl"; "INC-ONLY_PLANNED_5_DEG"; "INC-ONLY_PLANNED_5_DEG_Fl"]%string.
(** names served by json files, each with the two files that carry its key *)
Definition gyro_models : list (string * (string * string)) :=
  [("GYRO-MWD", ("GYRO-MWD.json", "GYRO-MWD_Fl.json"));
   ("GYRO-NS", ("GYRO-NS.json", "GYRO-NS_Fl.json"));
   ("GYRO-NS-CT", ("GYRO-NS-CT.json", "GYRO-NS-CT_Fl.json"));
   ("CB_Film_GMS", ("CB_Film_GMS.json", "CB_Film_GMS_Fl.json"));
   ("CB_Film_GSS", ("CB_Film_GSS.json", "CB_Film_GSS_Fl.json"))]%string.
(** the inclination, in degrees, below which they may be used *)
Definition gyro_limit (name : string) : R := if string_dec name "GYRO-NS-CT" then 150 else 89.
(** all the others *)
Definition regular_model (name : string) : Prop :=
  accepted_name name /\ ~ In name missing_models /\ ~ In name inc_only_models /\ ~ In name (map fst gyro_models).

(** models with axial correction: "+AX" is part of the name *)
Definition axial_model (name : string) : Prop := index 0 "+AX" name <> None.
(** models with terms that grow for short intervals *)
Definition interval_model (name : string) : Prop :=
  prefix "MWD+" name = true \/ prefix "EMS+" name = true \/
  In name ["ISCWSA MWD Rev5"; "ISCWSA MWD Rev5.11"]%string.

(** The files of iscwsa_json in any order in which the file system may list
    the two directories and the files in them. *)
Definition some_order (tree : list (string * list json_file)) : Prop :=
  exists t, Permutation t iscwsa_json /\
    Forall2 (fun a b => fst a = fst b /\ Permutation (snd a) (snd b)) tree t.

(** a survey of at least three stations with inclinations from 0 to 180 degrees and a
    usable header *)
Definition regular_survey (h : header) (l : list wstation) : Prop :=
  sensible h /\ 0 < h_limit h /\ (3 <= length l)%nat /\ forall s, In s l -> 0 <= w_inc s <= PI.

(** the six components of a covariance in the order nn, ee, vv, ne, nv, ev *)
Definition six (c : M3) : list R :=
  [vx (r1 c); vy (r2 c); vz (r3 c); vy (r1 c); vz (r1 c); vz (r2 c)].

(** The tortuosity a model file assumes: what its header states in radians per metre;
    else, when the header mentions an XCL tortuosity, one degree per 100 ft at 3.281 ft
    to the metre; else none, and then no term of the file needs one *)
Definition assumed_tortuosity (m : tool_file) (rate : R) : Prop :=
  match tf_tort m with
  | Tortuosity r => rate = r
  | XclTortuosity => rate = 1 * (PI / 180) / (100 / 3.281)
  | NoTortuosity => rate = 0 /\ forall c, In c (tf_codes m) -> ~ In (c_function c) ["XCL"; "XCLA"; "XCLH"]%string
  end.
