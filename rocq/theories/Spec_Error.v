(** Vocabulary of the error-model properties. *)
Require Import Reals String List.
Require Import Verif.Base Verif.Spec Verif.M_Utils Verif.M_Error.
Import ListNotations.
Open Scope R_scope.

(** wellbore displacement from the station before to the station after when the
    station itself is moved by t times its error *)
Definition moved_displacement (prev : station) (s : station) (e : V3) (next : option station) (t : R) : V3 :=
  vadd (balanced_tangential (st_md prev) (st_inc prev) (st_azi prev)
          (st_md s + t * vx e) (st_inc s + t * vy e) (st_azi s + t * vz e))
       (match next with
        | None => vzero
        | Some n => balanced_tangential (st_md s + t * vx e) (st_inc s + t * vy e) (st_azi s + t * vz e)
                      (st_md n) (st_inc n) (st_azi n)
        end).

(** a source is well formed for a survey of n stations when it came out of
    _generate_error with error vectors of that length *)
Definition from_generate (d : list drdp_row) (n : nat) (o : option error) : Prop :=
  exists code e p given, o = generate_error d code e p given /\
    match given with
    | Some (a, b) => length a = n /\ length b = n
    | None => length e = n
    end.
