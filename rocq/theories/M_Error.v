(** Model of /repo/welleng/error.py (ErrorModel) and of the summation part of
    /repo/welleng/errors/tool_errors.py (ToolError).  Arrays with one row per
    station are lists; the derivative matrix is a list of rows.  A station is
    (md, inc_rad, azi_true_rad) (error.py:183-187). *)
Require Import Reals Bool String List.
Require Import Verif.Base Verif.NumPy Verif.M_Utils.
Import ListNotations.
Open Scope R_scope.

(** element-wise combination of two arrays of equal length *)
Definition map2 {A B C : Type} (f : A -> B -> C) (l : list A) (m : list B) : list C :=
  map (fun p => f (fst p) (snd p)) (combine l m).

(** a[0] = 0 on an array of 3-vectors *)
Definition zero_first (l : list V3) : list V3 :=
  match l with [] => [] | _ :: r => vzero :: r end.

(** multiply the first component of the first entry by 2 (N[0] *= 2) *)
Definition double_first_n (l : list V3) : list V3 :=
  match l with [] => [] | v :: r => mkV (vx v * 2) (vy v) (vz v) :: r end.

(** ** the six derivative functions, coded one by one *)

(** welleng/error.py:298-327 drk_dDepth *)
Definition drk_dDepth (survey : list station) : list V3 :=
  vzero :: pairwise (fun a b =>
    let si1 := sin (st_inc a) in let si2 := sin (st_inc b) in
    let ca1 := cos (st_azi a) in let ca2 := cos (st_azi b) in
    let sa1 := sin (st_azi a) in let sa2 := sin (st_azi b) in
    vscale (1/2) (mkV (si1 * ca1 + si2 * ca2) (si1 * sa1 + si2 * sa2)
                      (cos (st_inc a) + cos (st_inc b)))) survey.

(** welleng/error.py:329-360 drk_dInc; [rev4] is
    error_model.lower().split()[-1] == 'rev4' *)
Definition drk_dInc (rev4 : bool) (survey : list station) : list V3 :=
  let rows := pairwise (fun a b =>
    let delta_md := st_md b - st_md a in
    mkV (1/2 * (delta_md * cos (st_inc b) * cos (st_azi b)))
        (1/2 * (delta_md * cos (st_inc b) * sin (st_azi b)))
        (1/2 * (- delta_md * sin (st_inc b)))) survey in
  vzero :: (if rev4 then rows else double_first_n rows).

(** welleng/error.py:362-388 drk_dAz *)
Definition drk_dAz (survey : list station) : list V3 :=
  vzero :: pairwise (fun a b =>
    let delta_md := st_md b - st_md a in
    mkV (- (1/2) * (delta_md * sin (st_inc b) * sin (st_azi b)))
        (1/2 * (delta_md * sin (st_inc b) * cos (st_azi b)))
        0) survey.

(** welleng/error.py:390-408 drkplus1_dDepth *)
Definition drkplus1_dDepth (survey : list station) : list V3 :=
  map (vscale (-1)) (tl (drk_dDepth survey)) ++ [vzero].

(** welleng/error.py:410-436 drkplus1_dInc *)
Definition drkplus1_dInc (survey : list station) : list V3 :=
  pairwise (fun b c =>
    let delta_md := st_md c - st_md b in
    mkV (1/2 * (delta_md * cos (st_inc b) * cos (st_azi b)))
        (1/2 * (delta_md * cos (st_inc b) * sin (st_azi b)))
        (1/2 * (- delta_md * sin (st_inc b)))) survey ++ [vzero].

(** welleng/error.py:438-461 drkplus1_dAz *)
Definition drkplus1_dAz (survey : list station) : list V3 :=
  pairwise (fun b c =>
    let delta_md := st_md c - st_md b in
    mkV (- (1/2) * (delta_md * sin (st_inc b) * sin (st_azi b)))
        (1/2 * (delta_md * sin (st_inc b) * cos (st_azi b)))
        0) survey ++ [vzero].

(** ** the one-pass matrix *)

(** one row of the (n,18) array, three columns at a time *)
Record drdp_row := mkRow {
  d_depth : V3;      (* columns 0-2 *)
  d_inc : V3;        (* columns 3-5 *)
  d_az : V3;         (* columns 6-8 *)
  d_depth1 : V3;     (* columns 9-11 *)
  d_inc1 : V3;       (* columns 12-14 *)
  d_az1 : V3         (* columns 15-17 *)
}.

(** the array assembled from its six groups of columns *)
Fixpoint rows6 (c0 c3 c6 c9 c12 c15 : list V3) : list drdp_row :=
  match c0, c3, c6, c9, c12, c15 with
  | a :: c0, b :: c3, c :: c6, d :: c9, e :: c12, f :: c15 =>
      mkRow a b c d e f :: rows6 c0 c3 c6 c9 c12 c15
  | _, _, _, _, _, _ => []
  end.

(** welleng/error.py:463-512 _drdp: each group of three columns is filled by
    slices, rows 1: from the interval before, rows :-1 from the interval after,
    the remaining row keeps its zeros *)
Definition drdp_dc (a b : station) : V3 :=
  mkV (1/2 * (sin (st_inc a) * cos (st_azi a) + sin (st_inc b) * cos (st_azi b)))
      (1/2 * (sin (st_inc a) * sin (st_azi a) + sin (st_inc b) * sin (st_azi b)))
      (1/2 * (cos (st_inc a) + cos (st_inc b))).
Definition drdp_inc_at (half_dmd : R) (s : station) : V3 :=
  mkV (half_dmd * cos (st_inc s) * cos (st_azi s))
      (half_dmd * cos (st_inc s) * sin (st_azi s))
      (- half_dmd * sin (st_inc s)).
Definition drdp_az_at (half_dmd : R) (s : station) : V3 :=
  mkV (- half_dmd * sin (st_inc s) * sin (st_azi s))
      (half_dmd * sin (st_inc s) * cos (st_azi s)) 0.
Definition half_dmd (a b : station) : R := 1/2 * (st_md b - st_md a).
Definition drdp (rev4 : bool) (survey : list station) : list drdp_row :=
  let dc := pairwise drdp_dc survey in
  let inc2 := pairwise (fun a b => drdp_inc_at (half_dmd a b) b) survey in
  let az2 := pairwise (fun a b => drdp_az_at (half_dmd a b) b) survey in
  let inc1 := pairwise (fun a b => drdp_inc_at (half_dmd a b) a) survey in
  let az1 := pairwise (fun a b => drdp_az_at (half_dmd a b) a) survey in
  let inc2 := if rev4 then inc2 else double_first_n inc2 in
  rows6 (vzero :: dc) (vzero :: inc2) (vzero :: az2)
        (map vneg dc ++ [vzero]) (inc1 ++ [vzero]) (az1 ++ [vzero]).

(** welleng/error.py:207-225 _e_NEV, one row *)
Definition e_NEV_row (r : drdp_row) (e : V3) : V3 :=
  vadd (vadd (vscale (vx e) (vadd (d_depth r) (d_depth1 r)))
             (vscale (vy e) (vadd (d_inc r) (d_inc1 r))))
       (vscale (vz e) (vadd (d_az r) (d_az1 r))).
(** welleng/error.py:227-245 _e_NEV_star, one row *)
Definition e_NEV_star_row (r : drdp_row) (e : V3) : V3 :=
  vadd (vadd (vscale (vx e) (d_depth r)) (vscale (vy e) (d_inc r)))
       (vscale (vz e) (d_az r)).
Definition e_NEV (d : list drdp_row) (e_DIA : list V3) : list V3 :=
  zero_first (map2 e_NEV_row d e_DIA).
Definition e_NEV_star (d : list drdp_row) (e_DIA : list V3) : list V3 :=
  zero_first (map2 e_NEV_star_row d e_DIA).

(** welleng/error.py:247-253 _sigma_e_NEV_systematic:
    e_NEV_star + vstack(e_NEV[0], cumsum(e_NEV)[:-1]) *)
Definition sigma_systematic (e e_star : list V3) : list V3 :=
  map2 vadd e_star (match e with [] => [] | e0 :: _ => e0 :: removelast (vcumsum e) end).

(** welleng/error.py:279-287: random propagation *)
Definition cov_random (e e_star : list V3) : list M3 :=
  map2 madd (map cov_from_vec e_star)
            (mzero :: removelast (mcumsum (map cov_from_vec e))).

(** the Error object *)
Record error := mkError {
  er_code : string;
  er_propagation : string;
  er_e_DIA : list V3;
  er_cov_DIA : list M3;
  er_e_NEV : list V3;
  er_e_NEV_star : list V3;
  er_cov_NEV : list M3
}.

(** welleng/error.py:255-296 _generate_error with NEV=True; [given] is the
    optional pair (e_NEV, e_NEV_star).  None = the function returns None. *)
Definition generate_error (d : list drdp_row) (code : string) (e_DIA : list V3)
  (propagation : string) (given : option (list V3 * list V3)) : option error :=
  let '(e, e_star) := match given with
                      | Some p => p
                      | None => (e_NEV d e_DIA, e_NEV_star d e_DIA)
                      end in
  let cov_DIA := map cov_from_vec e_DIA in
  if (String.eqb propagation "systematic" || String.eqb propagation "global"
      || String.eqb propagation "within_pad")%bool then
    Some (mkError code propagation e_DIA cov_DIA e e_star
            (map cov_from_vec (sigma_systematic e e_star)))
  else if String.eqb propagation "random" then
    Some (mkError code propagation e_DIA cov_DIA e e_star (cov_random e e_star))
  else None.

(** the five accumulated covariances of ToolError *)
Record totals := mkTotals {
  t_all : list M3; t_random : list M3; t_systematic : list M3;
  t_global : list M3; t_within_pad : list M3
}.

(** welleng/errors/tool_errors.py:252-268: the summation loop, in the order of
    the dictionary; None = AttributeError ('NoneType' has no 'cov_NEV') *)
Definition add_error (t : totals) (v : error) : totals :=
  let c := er_cov_NEV v in
  let p := er_propagation v in
  let is s := String.eqb p s in
  mkTotals (map2 madd (t_all t) c)
    (if is "random"%string then map2 madd (t_random t) c else t_random t)
    (if is "random"%string then t_systematic t else
     if is "systematic"%string then map2 madd (t_systematic t) c else t_systematic t)
    (if (is "random" || is "systematic")%string%bool then t_global t else
     if is "global"%string then map2 madd (t_global t) c else t_global t)
    (if (is "random" || is "systematic" || is "global")%string%bool then t_within_pad t else
     if is "within_pad"%string then map2 madd (t_within_pad t) c else t_within_pad t).
Fixpoint sum_errors (t : totals) (l : list (option error)) : option totals :=
  match l with
  | [] => Some t
  | None :: _ => None
  | Some v :: r => sum_errors (add_error t v) r
  end.
Definition zeros (n : nat) : list M3 := repeat mzero n.
Definition tool_totals (n : nat) (l : list (option error)) : option totals :=
  sum_errors (mkTotals (zeros n) (zeros n) (zeros n) (zeros n) (zeros n)) l.

(** ** JSON tool models *)

(** welleng/errors/tool_errors.py:16-23 and 119-121: propagation mode of a term *)
Definition json_propagation (mode : string) : string :=
  if String.eqb mode "Random" then "random"
  else if String.eqb mode "Systematic" then "systematic"
  else if String.eqb mode "Global" then "global"
  else if String.eqb mode "Well" then "well"
  else "systematic".

(** welleng/errors/tool_errors.py:31-42: unit multipliers, default 1.0 (line 357) *)
Definition mag_unit_to_base (unit : string) : R :=
  if (String.eqb unit "deg" || String.eqb unit "deg/hr" || String.eqb unit "deg/nT")%bool
  then PI / 180
  else 1.   (* "m" "1/m" "nT" "m/s2" "rad" "-" "" and every unknown unit *)

(** a term after its three formulas were evaluated at each station: [Some dpde],
    or [None] when a formula failed to evaluate (lines 327-344) *)
Record term := mkTerm {
  tm_name : string; tm_value : R; tm_mode : string; tm_unit : string;
  tm_dpde : option (list V3)
}.

(** OrderedDict assignment: replace in place, or append *)
Fixpoint dict_set {A} (k : string) (v : A) (d : list (string * A)) : list (string * A) :=
  match d with
  | [] => [(k, v)]
  | (k', v') :: r => if String.eqb k k' then (k, v) :: r else (k', v') :: dict_set k v r
  end.
(** welleng/errors/tool_errors.py:114-126 the codes dictionary *)
Definition json_codes (terms : list term) : list (string * term) :=
  fold_left (fun d t => dict_set (tm_name t) t d) terms [].

(** welleng/errors/tool_errors.py:289-359 _call_interpreter *)
Definition call_interpreter (d : list drdp_row) (t : term) : option error :=
  let dpde := match tm_dpde t with
              | Some l => l
              | None => repeat vzero (length d)
              end in
  let k := tm_value t * mag_unit_to_base (tm_unit t) in
  generate_error d (tm_name t) (map (vscale k) dpde) (json_propagation (tm_mode t)) None.

(** welleng/errors/tool_errors.py:215-268 ToolError for a JSON tool model;
    [max_inc] is radians of "Inclination Range Max" (lines 206-213) *)
Definition json_tool_error (rev4 : bool) (max_inc : R) (survey : list station)
  (terms : list term) : option totals :=
  if fold_right (fun s b => andb (if Rlt_dec (st_inc s) max_inc then true else false) b) true survey
  then tool_totals (length survey)
         (map (fun kt => call_interpreter (drdp rev4 survey) (snd kt)) (json_codes terms))
  else None.

(** welleng/error.py:532-551 get_errors *)
Definition get_errors (c : M3) : list R :=
  [vx (r1 c); vy (r2 c); vz (r3 c); vy (r1 c); vz (r1 c); vz (r2 c)].
