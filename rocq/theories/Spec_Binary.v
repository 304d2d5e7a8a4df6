(** Binary floating point numbers of 53 digits, as a machine: every operation and
    every library function returns the number nearest to the exact result, ties to
    even.  Exponents are unbounded. *)
Require Import Reals ZArith.
From Flocq Require Import Core.
Require Import Verif.Base Verif.M_Round.
Open Scope R_scope.

Definition nearest (x : R) : R := round radix2 (FLX_exp 53) ZnearestE x.

Definition binary64 : machine :=
  mkMachine nearest (fun x => nearest (sin x)) (fun x => nearest (cos x))
    (fun x => nearest (tan x)) (fun x => nearest (asin x)) (fun x => nearest (acos x))
    (fun x => nearest (sqrt x)).

(** the unit roundoff 2^-53 *)
Definition roundoff : R := / 9007199254740992.
