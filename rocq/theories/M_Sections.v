(** Model of /repo/welleng/survey.py: the control points of a survey
    (get_sections 2192-2366, get_data 2527-2564, func 2567-2606), the section
    data and the two tortuosity indices (_get_ti_data 1671-1717,
    modified_tortuosity_index 1521-1580, tortuosity_index 1583-1635) and the
    directional difficulty index (1638-1668). *)
Require Import Reals ZArith Bool String List.
Require Import Verif.Base Verif.NumPy Verif.M_Utils Verif.M_Survey Verif.M_Connector Verif.M_Rates.
Import ListNotations.
Open Scope R_scope.

(** np.isclose on finite numbers: |a - b| <= atol + rtol * |b| *)
Definition is_close (rtol atol a b : R) : bool :=
  if Rle_dec (Rabs (a - b)) (atol + rtol * Rabs b) then true else false.
(** np.all(np.isclose(.., equal_nan=True), axis=-1), one row of normals *)
Definition close_rows (rtol atol : R) (a b : option V3) : bool :=
  match a, b with
  | None, None => true
  | Some u, Some v => is_close rtol atol (vx u) (vx v) && is_close rtol atol (vy u) (vy v)
                      && is_close rtol atol (vz u) (vz v)
  | _, _ => false
  end.
(** np.isclose(.., equal_nan=True) with infinities (equal or not close) *)
Definition close_ext (rtol atol : R) (a b : ext) : bool :=
  match a, b with
  | Fin x, Fin y => is_close rtol atol x y
  | PInf, PInf | NInf, NInf | NaN, NaN => true
  | _, _ => false
  end.
(** np.equal of np.around(.., decimals=2) *)
Definition around_equal (a b : ext) : bool :=
  match a, b with
  | Fin x, Fin y => Z.eqb (around 2 x) (around 2 y)
  | PInf, PInf | NInf, NInf => true
  | _, _ => false
  end.

(** the sections (pairs of stations): normal and dls of each *)
Definition section_data (s : survey) : list (option V3 * ext) :=
  combine (cv_normals (survey_curves s)) (tl (cv_dls (survey_curves s))).

(** np.where(continuous == False)[0] + 1, counted from [k] *)
Fixpoint breaks (k : nat) (continuous : list bool) : list nat :=
  match continuous with
  | [] => []
  | c :: r => if c then breaks (S k) r else S k :: breaks (S k) r
  end.

(** welleng/survey.py:2233-2262 continuous and starts of get_sections *)
Definition section_continuous (rtol atol : R) (dls_cont : bool) (a b : option V3 * ext) : bool :=
  close_rows rtol atol (fst a) (fst b) &&
  (if dls_cont then around_equal (snd a) (snd b) else true).
Definition section_starts (s : survey) (rtol atol : R) (dls_cont : bool) : list nat :=
  0%nat :: breaks 0 (pairwise (section_continuous rtol atol dls_cont) (section_data s))
  ++ [(length (sv_rows s) - 1)%nat].

(** welleng/survey.py:1720-1778 TurnPoint; target is always None *)
Record turn_point := mkTP {
  tp_md : R; tp_inc : R; tp_azi : R;
  tp_build_rate : ext; tp_turn_rate : ext; tp_dls : ext; tp_toolface : R;
  tp_method : string; tp_tie_on : bool;
  tp_location : V3
}.

Definition st0 : station := mkSt 0 0 0.
Definition row_at (s : survey) (k : nat) : station := nth k (sv_rows s) st0.
Definition nev_at (s : survey) (k : nat) : V3 := nth k (sv_nev s) vzero.

(** lines 2304-2313: the sign given to the toolface, from two azimuths in degrees *)
Definition turn_sign (azi azi_p : R) : R :=
  if Rlt_dec (azi - azi_p) (-180) then 1
  else if Rlt_dec 180 (azi - azi_p) then -1
  else if Req_EM_T (azi - azi_p) 0 then 1
  else (azi - azi_p) / Rabs (azi - azi_p).
(** lines 2330-2334 *)
Definition wrap_azi (d : R) : R :=
  let d := if Rlt_dec d (-180) then d + 360 else d in
  if Rlt_dec 180 d then d - 360 else d.

(** the first control point (i = 0): lines 2288-2293, method and tie_on as left
    by lines 2359-2362 (the one object is in the list twice) *)
Definition first_point (s : survey) (k : nat) : turn_point :=
  let st := row_at s k in
  let p := nev_at s k in
  mkTP (st_md st) (degrees (st_inc st)) (degrees (st_azi st)) (Fin 0) (Fin 0) (Fin 0) 0
    "2" false (mkV (vy p) (vx p) (- vz p)).
(** welleng/survey.py:2270-2356, control point at station [k] after one at
    station [lb]; the section is a hold if the dogleg after [lb] is zero *)
Definition next_point (s : survey) (lb k : nat) : turn_point :=
  let c := survey_curves s in
  let st := row_at s k in
  let sp := row_at s lb in
  let p := nev_at s k in
  let inc := degrees (st_inc st) in
  let azi := degrees (st_azi st) in
  let location := mkV (vy p) (vx p) (- vz p) in
  let denominator := if String.eqb (h_unit (sv_header s)) "meters" then 30 else 100 in
  if Req_EM_T (nth (S lb) (sv_dogleg s) 0) 0 then
    mkTP (st_md st) inc azi (Fin 0) (Fin 0) (Fin 0) 0 "920" false location
  else
    let azi_p := degrees (st_azi sp) in
    let toolface := Rabs (degrees (nth lb (cv_toolface c) 0)) * turn_sign azi azi_p in
    let delta_md := st_md st - st_md sp in
    mkTP (st_md st) inc azi
      (eabs (ext_mul_pos denominator (ediv (inc - degrees (st_inc sp)) delta_md)))
      (ext_mul_pos denominator (ediv (wrap_azi (azi - azi_p)) delta_md))
      (nth k (cv_dls c) (Fin 0)) toolface "920" false location.

(** welleng/survey.py:2192-2366 get_sections *)
Definition get_sections (s : survey) (rtol atol : R) (dls_cont : bool) : list turn_point :=
  let starts := section_starts s rtol atol dls_cont in
  match starts with
  | [] => []
  | k :: _ => first_point s k :: first_point s k :: pairwise (next_point s) starts
  end.

(** welleng/survey.py:2527-2564 get_data: the columns, without the first point *)
Definition data_row (t : turn_point) : list ext :=
  [Fin (tp_md t); Fin (tp_inc t); Fin (tp_azi t);
   Fin (vy (tp_location t)); Fin (vx (tp_location t)); Fin (vz (tp_location t));
   tp_dls t; Fin (tp_toolface t); tp_build_rate t; tp_turn_rate t].
Definition get_data (tol : R) (s : survey) (dls_cont : bool) : list (list ext) :=
  map data_row (tl (get_sections s tol tol dls_cont)).

(** welleng/survey.py:2587-2598 func: the survey through the control points
    (deg=True, default unit, the survey's own header); None = AssertionError.
    The optimiser that chooses the tolerance (scipy) is not modelled. *)
Definition control_rows (s : survey) (tol : R) (dls_cont : bool) : list row :=
  map (fun t => (tp_md t, tp_inc t, tp_azi t)) (tl (get_sections s tol tol dls_cont)).
Definition resurvey (s : survey) (tol : R) (dls_cont : bool) : option survey :=
  Survey (sv_header s) (control_rows s tol dls_cont) true vzero (hd vzero (sv_nev s)) "meters".
(** lines 2600-2606: the value that is minimised *)
Definition resurvey_misfit (s : survey) (tol : R) (dls_cont : bool) (tolerance : R) : option R :=
  match resurvey s tol dls_cont with
  | None => None
  | Some r =>
      let d := vsub (last (sv_nev r) vzero) (last (sv_nev s) vzero) in
      Some (Rabs (tolerance - Rmax (Rabs (vx d)) (Rmax (Rabs (vy d)) (Rabs (vz d)))))
  end.

(** welleng/survey.py:1671-1717 _get_ti_data: starts, then mds, locs and the
    section number of every station but the first *)
Definition ti_continuous (rtol : R) (dls_tol : option R) (a b : option V3 * ext) : bool :=
  close_rows rtol rtol (fst a) (fst b) &&
  match dls_tol with None => true | Some t => close_ext t rtol (snd a) (snd b) end.
Definition ti_starts (s : survey) (rtol : R) (dls_tol : option R) : list nat :=
  0%nat :: breaks 0 (pairwise (ti_continuous rtol dls_tol) (section_data s)).
Definition mds_of (s : survey) : list R := map st_md (sv_rows s).
Definition ti_numbers (s : survey) (starts : list nat) : list nat :=
  let mds := map (fun k => nth k (mds_of s) 0) starts in
  map (searchsorted_left mds) (tl (mds_of s)).

(** l[n - 1], n = 0 being the last element *)
Definition before_index {A} (l : list A) (n : nat) (d : A) : A :=
  match n with O => last l d | S k => nth k l d end.

(** ext addition *)
Definition eadd (a b : ext) : ext :=
  match a, b with
  | NaN, _ | _, NaN => NaN
  | Fin x, Fin y => Fin (x + y)
  | Fin _, e | e, Fin _ => e
  | PInf, PInf => PInf
  | NInf, NInf => NInf
  | _, _ => NaN
  end.
(** x / y for ext x and finite y *)
Definition ediv_ext (x : ext) (y : R) : ext :=
  match x with
  | Fin a => ediv a y
  | e => emul e (ediv 1 y)
  end.

(** l_cs and l_xs (lines 1597-1602) of every station but the first *)
Definition ti_lengths (s : survey) (starts : list nat) (coeff : R) : list (nat * R * R) :=
  let mds := map (fun k => nth k (mds_of s) 0) starts in
  let locs := map (fun k => nth k (sv_pos_nev s) vzero) starts in
  map (fun p => let '(n, md, pos) := p in
         (n, (md - before_index mds n 0) / coeff,
             norm (vsub pos (before_index locs n vzero)) / coeff))
      (combine (combine (ti_numbers s starts) (tl (mds_of s))) (tl (sv_pos_nev s))).

(** the loop of lines 1607-1614: sections in order, each starting from the last
    value so far; None = IndexError (a[-1] of an empty list) *)
Fixpoint accumulate (sections : list nat) (nb : list (nat * ext)) (cumsum : ext) (a : list ext)
  : option (list ext) :=
  match sections with
  | [] => Some a
  | n :: r =>
      let a' := a ++ map (fun p => eadd (snd p) cumsum) (filter (fun p => Nat.eqb (fst p) n) nb) in
      match a' with
      | [] => None
      | x :: _ => accumulate r nb (last a' x) a'
      end
  end.

(** welleng/survey.py:1583-1635 and 1521-1580; [f] is the factor before [a] as
    a function of (md - md[0]) / coeff, [g] maps l_cs and l_xs to b.  None = an
    error (also taken when the accumulated list has another length, where numpy
    could broadcast a single value). *)
Definition indices (g : R -> R -> ext) (f : R -> ext) (s : survey) (rtol : R) (dls_tol : option R) (coeff : R)
  : option (list ext) :=
  let starts := ti_starts s rtol dls_tol in
  let lens := ti_lengths s starts coeff in
  let nb := map (fun p => let '(n, lc, lx) := p in (n, g lc lx)) lens in
  match accumulate (seq 1 (length starts)) nb (Fin 0) [] with
  | None => None
  | Some a =>
      if Nat.eqb (length a) (length nb) then
        Some (Fin 0 :: map (fun p => let '(n, md, x) := p in
                 emul (emul (Fin (INR n / INR (S n))) (f ((md - hd 0 (mds_of s)) / coeff))) x)
               (combine (combine (map fst nb) (tl (mds_of s))) a))
      else None
  end.

(** keyword arguments as an association list *)
Definition kwarg (kwargs : list (string * R)) (name : string) (default : R) : R :=
  match find (fun p => String.eqb (fst p) name) kwargs with
  | Some p => snd p
  | None => default
  end.

(** welleng/survey.py:1583-1635 tortuosity_index; the keyword read is "kapa" *)
Definition tortuosity_index (s : survey) (rtol : R) (dls_tol : option R) (kwargs : list (string * R))
  : option (list ext) :=
  let coeff := kwarg kwargs "coeff" (3048 / 10000) in
  let kappa := kwarg kwargs "kapa" (10 ^ 7) in
  indices (fun lc lx => eadd (ediv lc lx) (Fin (-1))) (fun x => ediv kappa x) s rtol dls_tol coeff.
(** welleng/survey.py:1394-1431, the method of Survey: dls_tol is not passed on *)
Definition survey_tortuosity_index (s : survey) (rtol : R) (dls_tol : option R) (kwargs : list (string * R))
  : option (list ext) := tortuosity_index s rtol None kwargs.
(** welleng/survey.py:1521-1580 modified_tortuosity_index *)
Definition modified_tortuosity_index (s : survey) (rtol : R) (dls_tol : option R)
  (kwargs : list (string * R)) : option (list ext) :=
  let coeff := kwarg kwargs "coeff" 1 in
  let kappa := kwarg kwargs "kapa" 1 in
  indices (fun lc lx => ediv_ext (eadd (ediv lc lx) (Fin (-1))) lc) (fun x => Fin (kappa * x))
    s rtol dls_tol coeff.

(** np.log10 followed by nan_to_num(.., nan=0, posinf=0, neginf=0); log10 of a
    number not positive is nan or -inf *)
Definition log10_or_zero (x : ext) : R :=
  match x with
  | Fin x => if Rlt_dec 0 x then ln x / ln 10 else 0
  | _ => 0
  end.
(** (x * ureg.meters).to('ft').m *)
Definition meters_to_ft (x : R) : R := x / (3048 / 10000).
Fixpoint rcumsum (acc : R) (l : list R) : list R :=
  match l with [] => [] | x :: r => (acc + x) :: rcumsum (acc + x) r end.
(** welleng/survey.py:1638-1668 directional_difficulty_index *)
Definition directional_difficulty_index (s : survey) : list R :=
  map (fun p => let '(md, q, d) := p in
         log10_or_zero
           (ediv (meters_to_ft md * meters_to_ft (sqrt (vx q ^ 2 + vy q ^ 2)) * d) (meters_to_ft (vz q))))
      (combine (combine (mds_of s) (sv_nev s)) (rcumsum 0 (map degrees (sv_dogleg s)))).
