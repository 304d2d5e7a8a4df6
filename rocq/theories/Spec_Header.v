(** Vocabulary for the survey header properties: variations of one call. *)
Require Import Reals String.
Require Import Verif.M_Header.
Open Scope R_scope.

(** the same call with these magnetic field arguments *)
Definition with_mag (a : hargs) (b dip decl : option R) : hargs :=
  mkArgs (ha_latitude a) (ha_longitude a) (ha_altitude a) (ha_date a) b dip decl
    (ha_convergence a) (ha_azi_reference a) (ha_inc_limit a) (ha_deg a) (ha_depth_unit a) (ha_surface_unit a)
    (ha_defaults a) (ha_vs_azimuth a) (ha_gsf a).

(** the same call with every angle given in radians and deg=False *)
Definition in_radians (a : hargs) : hargs :=
  let rad x := x * (PI / 180) in
  mkArgs (ha_latitude a) (ha_longitude a) (ha_altitude a) (ha_date a) (ha_b_total a)
    (option_map rad (ha_dip a)) (option_map rad (ha_declination a))
    (rad (ha_convergence a)) (ha_azi_reference a) (rad (ha_inc_limit a)) false (ha_depth_unit a) (ha_surface_unit a)
    (ha_defaults a) (rad (ha_vs_azimuth a)) (ha_gsf a).
