(** Vocabulary of the property about the older class for the MWD models. *)
Require Import Reals String.
Local Open Scope R_scope.

(** the two names under which the Rev5 model is found *)
Definition rev5_name (name : string) : Prop := name = "ISCWSA MWD Rev5.11"%string \/ name = "ISCWSA MWD Rev5"%string.
(** the magnitude of the declination term in the older file (0.2 degrees) over that of the tool file (0.21 degrees) *)
Definition dec_ratio : R := 0.003490658503988659 / 0.003665191429188092.
