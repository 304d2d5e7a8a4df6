(** Vocabulary for the survey on which torque and drag is calculated. *)
Require Import Reals String List.
Require Import Verif.Base Verif.M_Utils Verif.M_Architecture Verif.M_Survey.
Import ListNotations.
Open Scope R_scope.

(** the depths of [ds] that are not in [l], in order, repetitions kept *)
Fixpoint absent (l ds : list R) : list R :=
  match ds with
  | [] => []
  | d :: r => if in_dec Req_EM_T d l then absent l r else d :: absent l r
  end.
(** each depth is at least the one before *)
Fixpoint never_decreasing (l : list R) : Prop :=
  match l with
  | a :: ((b :: _) as r) => a <= b /\ never_decreasing r
  | _ => True
  end.

(** a vertical well of 100 with azimuths from true north, and a string or well bore of
    one section that reaches from 0 to [d] *)
Definition down : list station := [mkSt 0 0 0; mkSt 100 0 0].
Definition vertical (unit : string) (s : survey) : Prop :=
  Survey (mkHeader RefTrue 0 0 1 None unit) (map (fun a => (st_md a, st_inc a, st_azi a)) down) false vzero vzero unit = Some s.
Definition set_at (c : cls) (m : method) (d : R) : str := mkStr c m 0 d [(0%nat, mkSec (Some 0) (Some d) (Some d) [])] true.
