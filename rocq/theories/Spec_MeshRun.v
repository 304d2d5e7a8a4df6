(** Vocabulary of C125: points on wells and sections as the mesh run sees them. *)
Require Import Reals ZArith Bool String List.
Require Import Verif.Base Verif.Spec Verif.M_Utils Verif.M_Survey.
Import ListNotations.
Local Open Scope R_scope.

(** interpolating the survey at this measured depth gives this position *)
Definition on_well (s : survey) (md : R) (p : V3) : Prop :=
  exists n h, survey_interpolate_md s md = NodeOk n h /\ nd_pos n = p.
(** two surveys with the same stations and positions, and a header of the same
    unit *)
Definition same_wellpath (s t : survey) : Prop :=
  sv_rows t = sv_rows s /\ sv_nev t = sv_nev s /\ h_unit (sv_header t) = h_unit (sv_header s).
(** by how much the grid azimuth changes when it is read in the header's reference *)
Definition misread (h : header) : R :=
  match h_ref h with
  | RefGrid => 0
  | RefTrue => h_convergence h
  | RefMagnetic => h_convergence h - h_declination h
  end.
(** the section between two stations *)
Definition section_of (s : survey) (a b : station) (p q : V3) (w : R) : Prop :=
  sv_rows s = [mkSt (st_md a) (st_inc a) (st_azi a - w); mkSt (st_md b) (st_inc b) (st_azi b - w)] /\ sv_nev s = [p; q].
(** the measured depth halfway between two stations *)
Definition halfway (a b : station) : R := st_md a + (st_md b - st_md a) / 2.
