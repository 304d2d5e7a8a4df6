(** Model of welleng/fluid.py: fractions of a weighted drilling fluid and the
    residual minimised by get_density_profile. *)
Require Import Reals Bool String Ascii List.
Require Import Verif.Base Verif.NumPy.
Import ListNotations.
Open Scope R_scope.

(** str.lower on one ASCII character *)
Definition lower_ascii (c : ascii) : ascii :=
  let n := nat_of_ascii c in
  if (65 <=? n)%nat && (n <=? 90)%nat then ascii_of_nat (n + 32) else c.
(** str.lower, ASCII only *)
Fixpoint lower (s : string) : string :=
  match s with EmptyString => EmptyString | String c r => String (lower_ascii c) (lower r) end.

(** welleng/fluid.py:12-13 constants A and B *)
Definition coeff_A : V3 := mkV (724032 / 100000) (- (284383 / 100000000)) (275660 / 10000000000).
Definition coeff_B : V3 := mkV (863186 / 100000) (- (331977 / 100000000)) (237170 / 10000000000).
(** welleng/fluid.py:16 G *)
Definition grav : R := 52 / 1000.
(** welleng/fluid.py:19-22 WEIGHTING_MATERIAL_DENSITY; None: the assertion at
    welleng/fluid.py:86 fails *)
Definition weighting_density (name : string) : option R :=
  if (lower name =? "barite")%string then Some 35
  else if (lower name =? "spe_11118")%string then Some 24
  else None.
(** welleng/fluid.py:112-115 func *)
Definition density_base (temperature pressure : R) (c : V3) : R :=
  vx c + vy c * temperature + vz c * pressure.

Record fluid := mkFl { f_rho : R; f_temp : R; f_water : R; f_oil : R; f_wm : R }.
(** welleng/fluid.py:56-145 Fluid.__init__ with _get_volumes_reference; the error
    value distinguishes the AssertionError from the ZeroDivisionError *)
Inductive fluid_error := BadMaterial | ZeroDivision.
Definition make_fluid (rho temp pressure water_ratio : R) (material : string) : fluid + fluid_error :=
  match weighting_density material with
  | None => inr BadMaterial
  | Some rho_wm =>
    let density_oil := density_base temp pressure coeff_A in
    let density_water := density_base temp pressure coeff_B in
    let base := water_ratio * density_water + (1 - water_ratio) * density_oil in
    let volume_wm := (rho - base) / rho_wm in
    let total := 1 + volume_wm in
    if Req_EM_T total 0 then inr ZeroDivision
    else inl (mkFl rho temp (water_ratio / total) ((1 - water_ratio) / total) (volume_wm / total))
  end.

(** welleng/fluid.py:148-166 _get_coefficients *)
Definition get_coefficients (density_average pressure_applied temperature_top gradient : R) (a b : V3) : R * R * R * R :=
  (vx a + vy a * temperature_top + vz a * pressure_applied,
   vy a * gradient + grav * vz a * density_average,
   vx b + vy b * temperature_top + vz b * pressure_applied,
   vy b * gradient + grav * vz b * density_average).
(** welleng/fluid.py:169-193 _func, with Coq's total division and logarithm: the
    theorems only use it where the denominators are not 0 and the arguments of
    the logarithms are positive *)
Definition column_func (density_average density_top v_water v_oil depth a1 a2 b1 b2 : R) : R :=
  if Req_EM_T depth 0 then density_top else
  (density_top * depth - (v_oil * a1 * density_average / a2) * ln ((a1 + a2 * depth) / a1))
    / (depth * (1 - v_water - v_oil))
  - (v_water * b1 * density_average / b2 * ln ((b1 + b2 * depth) / b1))
    / (depth * (1 - v_water - v_oil)).
(** welleng/fluid.py:195-211 _get_density: the objective given to the optimiser *)
Definition objective (density_average density_top temperature_top v_water v_oil pressure_applied depth gradient : R) : R :=
  let '(a1, a2, b1, b2) := get_coefficients density_average pressure_applied temperature_top gradient coeff_A coeff_B in
  Rabs (density_average - column_func density_average density_top v_water v_oil depth a1 a2 b1 b2).
(** welleng/fluid.py:240-262 the objective for one depth of get_density_profile of
    a fluid (the gradient is the one computed at 240-245) *)
Definition profile_objective (f : fluid) (pressure_applied depth gradient density : R) : R :=
  objective density (f_rho f) (f_temp f) (f_water f) (f_oil f) pressure_applied depth gradient.
