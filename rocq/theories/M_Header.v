(** Model of welleng/survey.py SurveyHeader: the constructor (lines 279-399),
    _get_mag_data (401-462), _get_date (464-467), _validate_date (469-475).
    Numbers are reals.  The outside world is an argument: whether the magnetic
    field calculator is installed, what its two possible calls return (None =
    the call raises), today's date and which strings strptime accepts. *)
Require Import Reals ZArith Bool String List.
Require Import Verif.Base Verif.NumPy Verif.M_Utils Verif.M_Survey.
Import ListNotations.
Open Scope R_scope.

(** a set of magnetic field values, degrees and nT; a key missing from a
    dictionary is None (mag_defaults.get, lines 406-416) *)
Record magdata := mkMag {
  mg_b_total : option R;
  mg_dip : option R;
  mg_declination : option R
}.

(** the surroundings of one constructor call *)
Record world := mkWorld {
  w_installed : bool;                 (* MAG_CALC *)
  w_first : option magdata;           (* calculate(date=survey_date) *)
  w_second : option magdata;          (* calculate(date=None) *)
  w_today : string;
  w_valid_date : string -> bool       (* strptime(date, '%Y-%m-%d') succeeds *)
}.

(** the arguments of the constructor; None = the argument is None *)
Record hargs := mkArgs {
  ha_latitude : option R;
  ha_longitude : option R;
  ha_altitude : option R;
  ha_date : option string;
  ha_b_total : option R;
  ha_dip : option R;
  ha_declination : option R;
  ha_convergence : R;
  ha_azi_reference : string;
  ha_inc_limit : R;
  ha_deg : bool;
  ha_depth_unit : string;
  ha_surface_unit : string;
  ha_defaults : magdata;
  ha_vs_azimuth : R;
  ha_gsf : R
}.

(** lines 279-311: the default of every argument *)
Definition default_mag : magdata := mkMag (Some 50000) (Some 70) (Some 0).
Definition default_args : hargs :=
  mkArgs None None None None None None None 0 "true" (1 / 10000) true "meters" "meters"
    default_mag 0 1.

(** the attributes of the header *)
Record hdr := mkHdr {
  hd_latitude : R;
  hd_longitude : R;
  hd_altitude : R;
  hd_date : string;
  hd_b_total : option R;
  hd_dip : R;
  hd_declination : R;
  hd_convergence : R;
  hd_azi_reference : azi_ref;
  hd_inc_limit : R;
  hd_depth_unit : option string;
  hd_surface_unit : option string;
  hd_vs_azimuth : R;
  hd_gsf : R
}.

Inductive hresult :=
  | HOk (h : hdr)
  | HAssertion                        (* AssertionError *)
  | HValue                            (* ValueError: date format *)
  | HType.                            (* TypeError: arithmetic on None *)

(** welleng/survey.py:48, 376 *)
Definition azi_ref_of (s : string) : option azi_ref :=
  if String.eqb s "true" then Some RefTrue
  else if String.eqb s "magnetic" then Some RefMagnetic
  else if String.eqb s "grid" then Some RefGrid
  else None.

(** lines 372-375: a bound check that is skipped for None *)
Definition in_bounds (x : option R) (b : R) : bool :=
  match x with
  | None => true
  | Some v => if Rle_dec (- b) v then (if Rle_dec v b then true else false) else false
  end.

(** lines 403-441: the values used for what was not given, and survey_date
    afterwards: _get_date(date=None) stores today's date (and returns None) *)
Definition mag_source (w : world) (defaults : magdata) (date : string) : magdata * string :=
  if w_installed w then
    match w_first w with
    | Some m => (m, date)
    | None =>
        match w_second w with
        | Some m => (m, w_today w)
        | None => (defaults, w_today w)
        end
    end
  else (defaults, date).

(** math.radians when [c] *)
Definition radians_if (c : bool) (x : R) : R := if c then radians x else x.

(** lines 443-462 for dip: negated when taken from the source; None = TypeError *)
Definition header_dip (deg : bool) (given : option R) (source : option R) : option R :=
  match given with
  | Some d => Some (radians_if deg d)
  | None =>
      match source with
      | None => None
      | Some v => Some (radians_if deg (radians_if (negb deg) (- v)))
      end
  end.
(** lines 443-462 for declination *)
Definition header_declination (deg : bool) (given : option R) (source : option R) : option R :=
  match given with
  | Some d => Some (radians_if deg d)
  | None =>
      match source with
      | None => None
      | Some v => Some (radians_if deg (radians_if (negb deg) v))
      end
  end.

Definition or_default (x : option R) (d : R) : R := match x with Some v => v | None => d end.

(** welleng/survey.py:372-399 SurveyHeader.__init__ *)
Definition SurveyHeader (w : world) (a : hargs) : hresult :=
  if negb (in_bounds (ha_latitude a) 90) then HAssertion
  else if negb (in_bounds (ha_longitude a) 180) then HAssertion
  else
    match azi_ref_of (ha_azi_reference a) with
    | None => HAssertion
    | Some ref =>
        if negb (match ha_date a with None => true | Some d => w_valid_date w d end) then HValue
        else
          let date := match ha_date a with None => w_today w | Some d => d end in
          let '(m, date') := mag_source w (ha_defaults a) date in
          let deg := ha_deg a in
          match header_dip deg (ha_dip a) (mg_dip m) with
          | None => HType
          | Some dip =>
              match header_declination deg (ha_declination a) (mg_declination m) with
              | None => HType
              | Some decl =>
                  HOk (mkHdr (or_default (ha_latitude a) (514934 / 10000))
                         (or_default (ha_longitude a) (98 / 10000))
                         (or_default (ha_altitude a) 0)
                         date'
                         (match ha_b_total a with Some b => Some b | None => mg_b_total m end)
                         dip decl
                         (radians_if deg (ha_convergence a))
                         ref
                         (radians_if deg (ha_inc_limit a))
                         (get_unit (ha_depth_unit a)) (get_unit (ha_surface_unit a))
                         (radians_if deg (ha_vs_azimuth a))
                         (ha_gsf a))
              end
          end
    end.

(** the fields of this header that the survey model reads (M_Survey.header);
    a header whose depth unit was not recognised has no such view *)
Definition header_view (h : hdr) : option header :=
  match hd_depth_unit h with
  | Some u => Some (mkHeader (hd_azi_reference h) (hd_convergence h) (hd_declination h)
                      (hd_gsf h) (Some (hd_vs_azimuth h)) u)
  | None => None
  end.

(** welleng/survey.py:189-217 SurveyParameters.get_factors_from_x_y: the dip it
    reports for a calculator inclination [v] whose units say "down" or not; and
    declination, intensity unchanged *)
Definition factors_dip (units_down : bool) (v : R) : R := v * (if units_down then -1 else 1).
