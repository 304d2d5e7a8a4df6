(** Vocabulary of the torque-and-drag and fluid properties. *)
Require Import Reals List.
Require Import Verif.Base.
Import ListNotations.
Open Scope R_scope.

(** Johancsik's side force on a string element under axial tension [ft] *)
Definition side_force (ft inc dinc dazi w : R) : R :=
  sqrt (Rsqr (ft * dazi * sin inc) + Rsqr (ft * dinc + w * sin inc)).

(** The soft-string balance over the interval above station m: tensions (pickup,
    slackoff, rotating) and torque at its top from those at its bottom, for an
    element of buoyed weight w, friction mu and contact radius r. *)
Definition balance (inc dinc dazi w mu r : R) (below : V3 * R) (above : V3 * R) : Prop :=
  let n t := side_force t inc dinc dazi w in
  vx (fst above) = vx (fst below) + (w * cos inc + mu * n (vx (fst below))) /\
  vy (fst above) = vy (fst below) + (w * cos inc - mu * n (vy (fst below))) /\
  vz (fst above) = vz (fst below) + w * cos inc /\
  snd above = snd below + mu * n (vz (fst below)) * r.

(** Density (ppg) of the oil and of the water phase at temperature T and pressure
    P (SPE 11118, equations 1 and 2) *)
Definition oil_density (T P : R) : R := 7.24032 - 0.00284383 * T + 0.000027566 * P.
Definition water_density (T P : R) : R := 8.63186 - 0.00331977 * T + 0.000023717 * P.
Definition base_density (ratio T P : R) : R := ratio * water_density T P + (1 - ratio) * oil_density T P.

(** Volume at depth z of what was a unit volume of fluid at the top, when the oil
    and water fractions expand as their density falls and the solids do not.
    Pressure at z is the applied pressure plus 0.052 times the average density
    times z; temperature is linear in z. *)
Definition expanded (vw vo T P gradient rho z : R) : R :=
  let Tz := T + gradient * z in
  let Pz := P + 0.052 * rho * z in
  (1 - vw - vo) + vo * (oil_density T P / oil_density Tz Pz) + vw * (water_density T P / water_density Tz Pz).
