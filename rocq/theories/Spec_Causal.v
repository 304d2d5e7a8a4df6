(** Vocabulary of C121: two sets of covariances that agree at a station; the
    weight functions that drop the last interval of a survey ending vertically. *)
Require Import Reals String List.
Require Import Verif.Base Verif.M_Error Verif.M_Weights.
Import ListNotations.
Local Open Scope R_scope.

(** the total covariance and its four parts are the same at station [k] *)
Definition same_at (k : nat) (t t' : totals) : Prop :=
  nth_error (t_all t) k = nth_error (t_all t') k /\
  nth_error (t_random t) k = nth_error (t_random t') k /\
  nth_error (t_systematic t) k = nth_error (t_systematic t') k /\
  nth_error (t_global t) k = nth_error (t_global t') k /\
  nth_error (t_within_pad t) k = nth_error (t_within_pad t') k.

(** the names of the weight functions concerned *)
Definition drops_end (func : string) : Prop :=
  In func ["XYM3"; "XYM4"; "CNA"; "ABXY_TI2"; "ABIXY_TI2"]%string.

(** the magnitude of such a source as an angle: accelerometer biases are divided
    by gravity *)
Definition angle_of (func : string) (h : header) (mag : R) : R :=
  if string_dec func "ABXY_TI2" then mag / h_G h
  else if string_dec func "ABIXY_TI2" then mag / h_G h else mag.

(** one term of a JSON model evaluated on a survey and on a longer one: the
    values at the first stations are the same *)
Definition same_term (n more : nat) (t t' : term) : Prop :=
  tm_name t = tm_name t' /\ tm_value t = tm_value t' /\ tm_mode t = tm_mode t' /\
  tm_unit t = tm_unit t' /\
  ((tm_dpde t = None /\ tm_dpde t' = None) \/
   exists d d', tm_dpde t = Some d /\ tm_dpde t' = Some (d ++ d') /\
     length d = n /\ length d' = more).
