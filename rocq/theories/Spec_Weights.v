(** Vocabulary of the weight-function properties: the sensors of a survey tool
    and the angles that are computed from their readings. *)
Require Import Reals String List.
Require Import Verif.Base Verif.M_Error Verif.M_Weights.
Import ListNotations.
Local Open Scope R_scope.

(** A tool at rest: inclination, azimuth (from magnetic north), toolface, the
    strength of gravity, the horizontal and the vertical (down) part of the
    magnetic field. *)
Record attitude := mkAtt {
  at_inc : R; at_azi : R; at_tf : R; at_g : R; at_bh : R; at_bv : R
}.

(** What the three accelerometers (x, y across the tool, z along it) read. *)
Definition acc_reading (a : attitude) : V3 :=
  mkV (- at_g a * sin (at_inc a) * sin (at_tf a))
      (- at_g a * sin (at_inc a) * cos (at_tf a))
      (at_g a * cos (at_inc a)).

(** What the three magnetometers read. *)
Definition mag_reading (a : attitude) : V3 :=
  mkV (at_bh a * (cos (at_azi a) * cos (at_inc a) * sin (at_tf a) + sin (at_azi a) * cos (at_tf a))
       - at_bv a * sin (at_inc a) * sin (at_tf a))
      (at_bh a * (cos (at_azi a) * cos (at_inc a) * cos (at_tf a) - sin (at_azi a) * sin (at_tf a))
       - at_bv a * sin (at_inc a) * cos (at_tf a))
      (at_bh a * cos (at_azi a) * sin (at_inc a) + at_bv a * cos (at_inc a)).

Definition has_derivative (f : R -> R) : Prop := exists d, derivable_pt_lim f 0 d.
Definition smooth (f : R -> attitude) : Prop :=
  has_derivative (fun t => at_inc (f t)) /\ has_derivative (fun t => at_azi (f t)) /\
  has_derivative (fun t => at_tf (f t)) /\ has_derivative (fun t => at_g (f t)) /\
  has_derivative (fun t => at_bh (f t)) /\ has_derivative (fun t => at_bv (f t)).

Definition near_zero (P : R -> Prop) : Prop :=
  exists del, 0 < del /\ forall t, Rabs t < del -> P t.

(** [f] is the attitude computed from readings that are off by t times
    (ea, em): all six readings are used, so gravity and field strength come out
    of the readings too. *)
Definition surveyed (a : attitude) (ea em : V3) (f : R -> attitude) : Prop :=
  f 0 = a /\ smooth f /\
  near_zero (fun t => acc_reading (f t) = vadd (acc_reading a) (vscale t ea) /\
                      mag_reading (f t) = vadd (mag_reading a) (vscale t em)).

(** The computed inclination and azimuth change at the rates (vy w, vz w) per
    unit of the reading error (ea, em); the depth does not change. *)
Definition response (a : attitude) (ea em : V3) (w : V3) : Prop :=
  (exists f, surveyed a ea em f) /\
  vx w = 0 /\
  forall f, surveyed a ea em f ->
    derivable_pt_lim (fun t => at_inc (f t)) 0 (vy w) /\
    derivable_pt_lim (fun t => at_azi (f t)) 0 (vz w).

(** Axial correction: the axial magnetometer is not used.  Its reading is
    replaced by the value z for which the computed horizontal and vertical field
    are nearest to the reference field (total field B, dip D). *)
Definition mismatch (i tf bx by_ B D z : R) : R :=
  let u := bx * cos tf - by_ * sin tf in
  let w := bx * sin tf + by_ * cos tf in
  (sqrt (u ^ 2 + (w * cos i + z * sin i) ^ 2) - B * cos D) ^ 2
  + (z * cos i - w * sin i - B * sin D) ^ 2.

(** [f] is the attitude computed with axial correction, when the accelerometers
    are off by t*ea, the cross-axial magnetometers by t*ex and t*ey, and the
    reference values by t*eB and t*eD. *)
Definition corrected (a : attitude) (B D : R) (ea : V3) (ex ey eB eD : R)
  (f : R -> attitude) : Prop :=
  f 0 = a /\ smooth f /\
  near_zero (fun t =>
    acc_reading (f t) = vadd (acc_reading a) (vscale t ea) /\
    vx (mag_reading (f t)) = vx (mag_reading a) + t * ex /\
    vy (mag_reading (f t)) = vy (mag_reading a) + t * ey /\
    derivable_pt_lim (mismatch (at_inc (f t)) (at_tf (f t)) (vx (mag_reading (f t)))
                        (vy (mag_reading (f t))) (B + t * eB) (D + t * eD))
      (vz (mag_reading (f t))) 0).

(** Such an attitude exists, and its inclination and azimuth change at the rates
    (vy w, vz w). *)
Definition corrected_response (a : attitude) (B D : R) (ea : V3) (ex ey eB eD : R) (w : V3) : Prop :=
  (exists f, corrected a B D ea ex ey eB eD f) /\
  vx w = 0 /\
  forall f, corrected a B D ea ex ey eB eD f ->
    derivable_pt_lim (fun t => at_inc (f t)) 0 (vy w) /\
    derivable_pt_lim (fun t => at_azi (f t)) 0 (vz w).

(** [m] is the mean of [f] over a full turn of the toolface. *)
Definition turn_mean (f : R -> R) (m : R) : Prop :=
  exists F, (forall x, derivable_pt_lim F x (f x)) /\ F (2 * PI) - F 0 = 2 * PI * m.

(** The tool at a survey station: the station's inclination and magnetic azimuth,
    any toolface, the header's gravity and magnetic field. *)
Definition tool_at (h : header) (s : wstation) (tf : R) : attitude :=
  mkAtt (w_inc s) (w_azm s) tf (h_G h)
    (h_btotal h * cos (h_dip h)) (h_btotal h * sin (h_dip h)).

(** A header with gravity and a horizontal magnetic field. *)
Definition sensible (h : header) : Prop :=
  0 < h_G h /\ 0 < h_btotal h /\ 0 < cos (h_dip h).

Definition ex_ : V3 := mkV 1 0 0.
Definition ey_ : V3 := mkV 0 1 0.
Definition ez_ : V3 := mkV 0 0 1.
(** the part of a reading that belongs to one sensor: a scale factor error of
    that sensor is proportional to it *)
Definition only_x (v : V3) : V3 := mkV (vx v) 0 0.
Definition only_y (v : V3) : V3 := mkV 0 (vy v) 0.
Definition only_z (v : V3) : V3 := mkV 0 0 (vz v).

(** The direction along the borehole (north, east, down) and the two directions
    across it: to the high side's plane and to the right. *)
Definition tool_axis (i a : R) : V3 := mkV (sin i * cos a) (sin i * sin a) (cos i).
Definition high_side (s : wstation) : V3 :=
  mkV (cos (w_inc s) * cos (w_azt s)) (cos (w_inc s) * sin (w_azt s)) (- sin (w_inc s)).
Definition right_side (s : wstation) : V3 := mkV (- sin (w_azt s)) (cos (w_azt s)) 0.

(** An error of (vy w, vz w) in inclination and azimuth tilts the surveyed
    direction of the borehole by v. *)
Definition tilts (s : wstation) (w v : V3) : Prop :=
  forall c, derivable_pt_lim
    (fun t => dot c (tool_axis (w_inc s + t * vy w) (w_azt s + t * vz w))) 0 (dot c v).
(** c is a direction across the borehole *)
Definition across (s : wstation) (c : V3) : Prop := dot c (tool_axis (w_inc s) (w_azt s)) = 0.
Definition vertical (h : header) (s : wstation) : Prop := w_inc s < h_limit h.
(** squared distance of two vectors *)
Definition gap2 (u v : V3) : R := dot (vsub u v) (vsub u v).

(** The Error [e] is what the weight function called [func] of the tool error
    models returns for the survey [l] and the magnitude [mag]. *)
Definition made_by (func : string) (h : header) (l : list wstation) (mag : R) (e : error) : Prop :=
  exists azi_reference tortuosity rev4 code propagation,
    call_func azi_reference tortuosity rev4 h l code func mag propagation = Made e.
(** At the station [s] of any survey, [func] puts the errors of depth,
    inclination and azimuth at [w] per unit of magnitude; and such surveys exist. *)
Definition gives (func : string) (h : header) (s : wstation) (w : V3) : Prop :=
  (exists l e, made_by func h l 1 e /\ In s l) /\
  forall l mag e k, made_by func h l mag e -> nth_error l k = Some s ->
    nth_error (er_e_DIA e) k = Some (vscale mag w).
(** The same for a station that comes the length [d] after the one before. *)
Definition gives_after (func : string) (h : header) (d : R) (s : wstation) (w : V3) : Prop :=
  (exists l e a, made_by func h l 1 e /\ nth_error l 0 = Some a /\ nth_error l 1 = Some s /\
     w_md s - w_md a = d) /\
  forall l mag e k a, made_by func h l mag e ->
    nth_error l k = Some a -> nth_error l (S k) = Some s -> w_md s - w_md a = d ->
    nth_error (er_e_DIA e) (S k) = Some (vscale mag w).
(** Horizontal and due magnetic east or west: axial correction is impossible. *)
Definition level_east_west (s : wstation) : Prop := cos (w_inc s) = 0 /\ cos (w_azm s) = 0.
(** The rows of an error that, at vertical stations, lies along one axis ([ax x]
    is x along it) and grows with the factor for short intervals: half the length
    between the neighbouring stations, except that the first interval counts in
    full; the first row takes the factor of the interval number [first]. *)
Definition short_factor (a b : wstation) : R := Rmax 1 (sqrt (10 / (w_md b - w_md a))).
Definition long_rows (ax : R -> V3) (first : nat) (h : header) (l : list wstation) (mag : R) (e : error) : Prop :=
  forall k a b, nth_error l k = Some a -> nth_error l (S k) = Some b -> vertical h b ->
  (forall c, (1 <= k)%nat -> nth_error l (S (S k)) = Some c ->
     nth_error (er_e_NEV e) (S k) = Some (ax (1/2 * (w_md c - w_md a) * mag * short_factor a b))) /\
  (forall c a1 b1, k = 0%nat -> nth_error l 2 = Some c -> nth_error l first = Some a1 -> nth_error l (S first) = Some b1 ->
     nth_error (er_e_NEV e) 1
     = Some (ax (1/2 * ((w_md c - w_md a) + (w_md b - w_md a)) * mag * short_factor a1 b1))) /\
  nth_error (er_e_NEV_star e) (S k) = Some (ax ((if Nat.eqb k 0 then 1 else 1/2) * (w_md b - w_md a) * mag)).
Definition northward (x : R) : V3 := mkV x 0 0.
Definition eastward (x : R) : V3 := mkV 0 x 0.

(** ** When the functions can be evaluated *)
Definition plain_functions : list string :=
  ["ABXY_TI1"; "ABXY_TI2"; "ABZ"; "AMIL"; "ASXY_TI1"; "ASXY_TI2"; "ASXY_TI3"; "ASZ"; "DBH"; "DBHR"; "AZ";
   "DREF"; "DSF"; "DST"; "MBXY_TI1"; "MBXY_TI2"; "MBZ"; "MSXY_TI1"; "MSXY_TI2"; "MSXY_TI3"; "MSZ";
   "SAG"; "SAGE"; "XYM1"; "XYM2"; "XYM3"; "XYM4"; "XCL"; "XCLA"; "XCLH"; "AMID"; "CNI"; "CNA";
   "ABIZ"; "ABIXY_TI2"]%string.
(** functions for axial correction that divide by 1 - (sin inc)^2 (sin azi)^2 *)
Definition axial_functions : list string :=
  ["ABIXY_TI1"; "ASIXY_TI1"; "ASIXY_TI2"; "ASIXY_TI3"; "ASIZ"; "MBIXY_TI1"; "MBIXY_TI2"; "MDI"; "MFI";
   "MSIXY_TI1"; "MSIXY_TI2"; "MSIXY_TI3"]%string.
(** functions with a factor for short intervals *)
Definition interval_functions : list string := ["XYM3E"; "XYM4E"; "XYM3L"; "XYM4L"]%string.
Definition functions : list string := plain_functions ++ axial_functions ++ interval_functions.
Definition propagation_modes : list string := ["random"; "systematic"; "global"; "within_pad"]%string.
(** each station is deeper (along the hole) than the one before *)
Definition advancing (l : list wstation) : Prop :=
  forall k a b, nth_error l k = Some a -> nth_error l (S k) = Some b -> w_md a < w_md b.

(** For examples: a header, and a station of a vertical well. *)
Definition plumb : header := mkHeader 9.8 50000 1 (1/10000).
Definition hanging (d : R) : wstation := mkWS d 0 0 0 0 d.
