(** Model of welleng/clearance.py: ISCWSA separation rule, closest points,
    sidetrack covariance, mesh separation factor. *)
Require Import Reals ZArith Bool String List.
Require Import Verif.Base Verif.NumPy Verif.M_Utils Verif.M_Survey Verif.M_Error.
Import ListNotations.
Open Scope R_scope.

(** ** Kick-off point *)
(** welleng/clearance.py:96-100 _get_kop_index; None is the default -inf *)
Definition kop_index (mds : list R) (kop_depth : option R) : nat :=
  match kop_depth with None => 0 | Some d => searchsorted_left mds d end.

(** welleng/clearance.py:141-148: the source has depth errors only *)
Definition rabs_lt (x t : R) : bool := if Rlt_dec (Rabs x) t then true else false.
Definition rabs_gt (x t : R) : bool := if Rlt_dec t (Rabs x) then true else false.
Definition tol : R := / 10 ^ 10.
Definition depth_only (e_DIA : list V3) : bool :=
  forallb (fun e => rabs_lt (vy e) tol && rabs_lt (vz e) tol) e_DIA
  && existsb (fun e => rabs_gt (vx e) tol) e_DIA.

Definition zero_first_m (l : list M3) : list M3 :=
  match l with [] => [] | _ :: r => mzero :: r end.
(** welleng/clearance.py:150-166 the covariance one source adds below the KOP;
    [None]: the propagation is none of the four and nothing is added.  The
    index ki is within range.  sigma_e_NEV of a systematic source is
    [sigma_systematic] (welleng/error.py:271-273). *)
Definition source_below (ki : nat) (v : error) : option (list M3) :=
  let is s := String.eqb (er_propagation v) s in
  if (is "systematic" || is "global" || is "within_pad")%string%bool then
    let sigma := sigma_systematic (er_e_NEV v) (er_e_NEV_star v) in
    let s := if depth_only (er_e_DIA v) then zero_first (skipn ki sigma)
             else map (fun x => vsub x (nth ki sigma vzero)) (skipn ki sigma) in
    Some (map (fun x => outer x x) s)
  else if is "random"%string then
    if depth_only (er_e_DIA v) then Some (zero_first_m (skipn ki (er_cov_NEV v)))
    else Some (map (fun m => msub m (nth ki (er_cov_NEV v) mzero)) (skipn ki (er_cov_NEV v)))
  else None.
(** welleng/clearance.py:121-168 _get_ref_cov_below_kop; n stations *)
Definition cov_below_kop (n ki : nat) (errors : list error) : list M3 :=
  fold_left (fun acc v => match source_below ki v with
                          | Some c => map2 madd acc c
                          | None => acc
                          end) errors (repeat mzero (n - ki)).

(** ** Separation rule at one reference station *)
(** np.nan_to_num(v / d, posinf=0, neginf=0) on a vector *)
Definition unit_or_zero (v : V3) (d : R) : V3 :=
  if Req_EM_T d 0 then vzero else mkV (vx v / d) (vy v / d) (vz v / d).
(** np.sqrt: nan for a negative argument *)
Definition nsqrt (x : R) : option R := if Rlt_dec x 0 then None else Some (sqrt x).
(** np.around(x, 6): nearest multiple of 1e-6, ties to even *)
Definition rint (x : R) : Z :=
  let f := rfloor x in
  if Rlt_dec (x - IZR f) (1/2) then f
  else if Rlt_dec (1/2) (x - IZR f) then (f + 1)%Z
  else if Z.even f then f else (f + 1)%Z.
Definition around6 (x : R) : R := IZR (rint (x * 10 ^ 6)) / 10 ^ 6.

(** welleng/clearance.py:756-802 _get_delta_nev_vectors, one station; the
    reference station is (inc, azi) at [p], the closest offset point is [q] *)
Record deltas := mkDeltas {
  dl_distance : R; dl_ref_nev : V3; dl_off_nev : V3;
  dl_hoz_bearing : R; dl_hoz_bearing_deg : R;
  dl_toolface : R; dl_toolface_deg : R }.
Definition delta_vectors (inc azi : R) (p q : V3) : deltas :=
  let temp := vsub q p in
  let distance := norm temp in
  let ref_delta := unit_or_zero temp distance in
  let off_delta := unit_or_zero (vsub p q) distance in
  let hoz := rmod (around6 (arctan2 (vy ref_delta) (vx ref_delta)) + PI * 2) (PI * 2) in
  let hla := NEV_to_HLA_vec inc azi ref_delta in
  let tf := rmod (around6 (arctan2 (vy hla) (vx hla)) + PI * 2) (PI * 2) in
  mkDeltas distance ref_delta off_delta
    hoz (rmod (degrees hoz + 360) 360) tf (rmod (degrees tf + 360) 360).
(** welleng/clearance.py:831-838 _traveling_cylinder, one station *)
Definition traveling_cylinder (azi_grid_deg toolface_deg : R) : R :=
  rmod (azi_grid_deg + toolface_deg + 360) 360.

(** welleng/clearance.py:818-826 _get_PCRs, one well; einsum 'ni,nij,nj->n' *)
Definition pcr (d : V3) (cov : M3) : option R := nsqrt (qform cov d).

(** The results at one station: welleng/clearance.py:369-401 of __init__ *)
Record rule := mkRule {
  ru_distance : R; ru_ref_pcr : R; ru_off_pcr : R; ru_sigmaS : R; ru_calc_hole : R;
  ru_eou_boundary : R; ru_wellbore_separation : R; ru_eou_separation : R;
  ru_masd : R; ru_sf : ext }.
(** None: one of the pedal radii is nan, and so is everything computed from it *)
Definition iscwsa_rule (k sigma_pa Sm Rr Ro inc azi : R) (p q : V3) (ref_cov off_cov : M3) : option rule :=
  let d := delta_vectors inc azi p q in
  match pcr (dl_ref_nev d) ref_cov, pcr (dl_off_nev d) off_cov with
  | Some ref_pcr, Some off_pcr =>
    let sigmaS := sqrt (ref_pcr ^ 2 + off_pcr ^ 2) in
    let calc_hole := Rr + Ro in
    let eou_boundary := k * sqrt (sigmaS ^ 2 + sigma_pa ^ 2) in
    let wellbore_separation := dl_distance d - calc_hole - Sm in
    let eou_separation := wellbore_separation - eou_boundary in
    let masd := eou_boundary + calc_hole + Sm in
    Some (mkRule (dl_distance d) ref_pcr off_pcr sigmaS calc_hole eou_boundary
            wellbore_separation eou_separation masd (ediv wellbore_separation eou_boundary))
  | _, _ => None
  end.

(** welleng/clearance.py:738-746 _interpolate_covs, one frame *)
Definition interpolate_cov (a b : M3) (mult : R) : M3 := madd a (mscale mult (msub b a)).

(** ** Closest points *)
(** np.argmin: the first index of the least entry *)
Fixpoint argmin (l : list R) : nat :=
  match l with
  | [] => 0
  | a :: r => match r with
              | [] => 0
              | _ => let j := argmin r in
                     match nth_error r j with
                     | Some b => if Rle_dec a b then 0 else S j
                     | None => 0
                     end
              end
  end.
(** welleng/clearance.py:351-355, one station *)
Definition nearest_station (offset_nevs : list V3) (station : V3) : nat :=
  argmin (map (fun q => dist station q) offset_nevs).

(** scipy.optimize.minimize with one bounded variable: objective, start, upper
    bound (the lower one is 0); returns x and fun *)
Definition optimiser := (R -> R) -> R -> R -> R * R.

(** welleng/clearance.py:748-754 _fun on the interval [index, index+1] *)
Definition closest_fun (s : survey) (index : nat) (station : V3) (x : R) : R :=
  match nth_error (sv_rows s) index, nth_error (sv_rows s) (S index), nth_error (sv_nev s) index with
  | Some a, Some b, Some p => norm (vsub (interpolate_pos_nev p a b x) station)
  | _, _, _ => 0
  end.
Definition interval (s : survey) (index : nat) : R :=
  st_md (nth (S index) (sv_rows s) (mkSt 0 0 0)) - st_md (nth index (sv_rows s) (mkSt 0 0 0)).

(** welleng/clearance.py:620-660 the body of the loop of _get_closest_points:
    interval index, x, fun and the interpolated point (n, e, tvd)[1]; None: an
    exception *)
Definition closest_point (opt : optimiser) (s : survey) (station : V3) (i : nat)
  : option (nat * R * R * V3) :=
  let res_1 := if (0 <? i)%nat
               then Some (opt (closest_fun s (i - 1) station) (interval s (i - 1)) (interval s (i - 1)))
               else None in
  let res_2 := if (i <? length (sv_nev s) - 1)%nat
               then Some (opt (closest_fun s i station) 0 (interval s i))
               else None in
  let report index (r : R * R) :=
    match interpolate_at s (fst r) index with
    | Some (sv, _) => match nth_error (sv_nev sv) 1 with
                      | Some q => Some (index, fst r, snd r, q)
                      | None => None
                      end
    | None => None
    end in
  match res_1, res_2 with
  | Some r1, Some r2 => if Rlt_dec (snd r1) (snd r2) then report (i - 1)%nat r1 else report i r2
  | Some r1, None => report (i - 1)%nat r1
  | None, Some r2 => report i r2
  | None, None => None
  end.

(** ** Minimum between stations *)
(** welleng/clearance.py:461-471 the value of _get_sf_min away from the three
    stations, once the closest offset point is known: displacement u from the
    reference point to it; None: inf (the points coincide) *)
Definition sf_min_between (k sigma_pa ref_r off_r : R) (u : V3) (ref_cov off_cov : M3) : option R :=
  let dist := norm u in
  if Rlt_dec dist tol then None else
  let w := vscale (/ dist) u in
  let ref_pcr := sqrt (Rmax 0 (qform ref_cov w)) in
  let off_pcr := sqrt (Rmax 0 (qform off_cov w)) in
  let sigma_s := sqrt (ref_pcr ^ 2 + off_pcr ^ 2) in
  let eou := k * sqrt (sigma_s ^ 2 + sigma_pa ^ 2) in
  Some ((dist - ref_r - off_r) / eou).

(** ** Mesh clearance *)
(** welleng/clearance.py:1024-1035, before the rounding to two decimals;
    [distance] is what the collision manager returned, [depth] the distance
    between the two closest mesh points *)
Definition mesh_sf (collision : bool) (distance_cc distance depth : R) : ext :=
  if collision then
    if Req_EM_T distance_cc 0 then Fin 0
    else if Req_EM_T depth 0 then Fin 0
    else Fin (distance_cc / (distance_cc + depth))
  else
    let denom := distance_cc - distance in
    if Req_EM_T denom 0 then PInf else Fin (distance_cc / denom).
(** round(sf, 2): ties to even *)
Definition round2 (x : R) : R := IZR (rint (x * 100)) / 100.

(** ** welleng/clearance.py:1099-1108 get_ref_sigma; rows of three sigmas *)
Definition get_ref_sigma (sigma : list V3) (ki : nat) : list V3 :=
  let sigma_diff := pairwise (fun a b => vsub b a) sigma in
  let above := rev (vcumsum (rev (firstn ki sigma_diff))) in
  let below := vcumsum (skipn ki sigma_diff) in
  above ++ [vzero] ++ below.
