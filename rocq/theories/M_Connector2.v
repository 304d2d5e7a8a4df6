(** Model of welleng/connector.py, the curve-hold-curve solution after the
    fixed-point solver, its interpolation, and solve_curve_hold_batch.

    The solver minimize_target_pos_and_vec_defined (connector.py:1320-1524) is an
    arbitrary function from states to states, a different one at every call. *)
Require Import Reals ZArith Bool String List Lra Lia.
Require Import Verif.Base Verif.NumPy Verif.M_Utils Verif.M_Survey Verif.M_Torque Verif.M_Clearance Verif.M_Connector.
Import ListNotations.
Open Scope R_scope.

(** ** State of a curve-hold-curve connection *)
(** what no pass changes: start, design radii (None = inf), min_error *)
Record problem := mkProblem {
  p_pos1 : V3; p_vec1 : V3; p_md1 : R; p_rd : option R; p_rd2 : option R; p_min_error : R }.
(** the thirteen attributes in _state_keys / _save_keys (connector.py:1020-1024, 1122-1126) *)
Record geo := mkGeo {
  g_pos2 : V3; g_pos3 : V3; g_vec2 : V3; g_vec3 : V3;
  g_dist_curve : R; g_dist_curve2 : R; g_func : R; g_func2 : R;
  g_dogleg : R; g_dogleg2 : R; g_md2 : R; g_md3 : R; g_md_target : R }.
(** attributes the solver leaves for _happy_finish; None = inf for a radius and
    python's None (or no attribute) for the distances *)
Record work := mkWork {
  w_distances1 : option distances; w_distances2 : option distances;
  w_rc : option R; w_rc2 : option R; w_tangent : R }.
Record chc := mkChc {
  s_prob : problem; s_target : V3; s_vtarget : V3; s_geo : geo; s_work : work }.
Definition set_geo (s : chc) (g : geo) : chc := mkChc (s_prob s) (s_target s) (s_vtarget s) g (s_work s).
Definition set_work (s : chc) (w : work) : chc := mkChc (s_prob s) (s_target s) (s_vtarget s) (s_geo s) w.

(** np.arccos(np.clip(np.dot(a, b), -1.0, 1.0)) *)
Definition clipped_angle (a b : V3) : R := acos (Rmax (-1) (Rmin (dot a b) 1)).
(** connector.py:874-880, 926-932: the radius used for an arc *)
Definition final_radius (rd : option R) (d : option distances) (rc : option R) (min_error : R) : option R :=
  match d with
  | Some ds => rmin_inf (Some (get_radius_critical ds min_error)) rd
  | None => rmin_inf rc rd
  end.
(** connector.py:959-1004, from the backward trace on: tangent length, second arc
    length and third point, given the end of the first arc *)
Definition close_path (pos2 vec3 target vtarget : V3) (dc2 fd2 : R) : R * R * V3 :=
  let pos3_bt := get_pos target (vneg vtarget) (vneg vec3) dc2 fd2 in
  let t_along := dot (vsub pos3_bt pos2) vec3 in
  let perp := vsub (vsub pos3_bt pos2) (vscale t_along vec3) in
  let fallback := let t := Rmax 0 t_along in (t, dc2, vadd pos2 (vscale t vec3)) in
  if Rlt_dec (1 / 1000) (norm perp) then
    let delta := vsub target pos2 in
    let p := dot delta vec3 in
    let q := dot delta vtarget in
    let c := dot vec3 vtarget in
    let sin2 := 1 - c * c in
    if Rlt_dec (1 / 1000000) sin2 then
      if Rlt_dec (1 / 10000000000) (Rabs fd2) then
        let a := (p - c * q) / sin2 in
        let b := (q - c * p) / sin2 in
        if Rle_dec 0 b then
          let t := Rmax 0 (a - b) in
          (t, Rmax 0 (2 * b / fd2), vadd pos2 (vscale t vec3))
        else fallback
      else fallback
    else fallback
  else fallback.
(** connector.py:868-1004 _happy_finish; None = some attribute is nan or inf *)
Definition happy_finish (s : chc) : option geo :=
  let p := s_prob s in let g := s_geo s in let w := s_work s in
  match final_radius (p_rd p) (w_distances1 w) (w_rc w) (p_min_error p) with
  | None => None
  | Some r1 =>
      let '(dc0, fd0) := get_curve_hold_data r1 (g_dogleg g) in
      match get_vec_target (p_pos1 p) (p_vec1 p) (g_pos3 g) (w_tangent w) dc0 fd0 with
      | None => None
      | Some vec3 =>
          let actual := clipped_angle (p_vec1 p) vec3 in
          let dogleg := if Rlt_dec (1 / 1000000000) (Rabs (actual - g_dogleg g)) then actual else g_dogleg g in
          let '(dc, fd) := get_curve_hold_data r1 dogleg in
          let pos2 := get_pos (p_pos1 p) (p_vec1 p) vec3 dc fd in
          let md2 := p_md1 p + Rabs dc in
          match final_radius (p_rd2 p) (w_distances2 w) (w_rc2 w) (p_min_error p) with
          | None => None
          | Some r2 =>
              let dogleg2 := clipped_angle vec3 (s_vtarget s) in
              let '(dc2, fd2) := get_curve_hold_data r2 dogleg2 in
              let '(t, dc2', pos3) := close_path pos2 vec3 (s_target s) (s_vtarget s) dc2 fd2 in
              Some (mkGeo pos2 pos3 vec3 vec3 dc dc2' fd fd2 dogleg dogleg2 md2 (md2 + t) (md2 + t + Rabs dc2'))
          end
      end
  end.

(** connector.py:1087-1101 _rendered_endpoint_error *)
Definition rendered_error (target vtarget : V3) (g : geo) : R :=
  let t := Rmax 0 (dot (vsub (g_pos3 g) (g_pos2 g)) (g_vec3 g)) in
  let hold_end := vadd (g_pos2 g) (vscale t (g_vec3 g)) in
  let rendered := vadd hold_end (vscale (g_dist_curve2 g * g_func2 g / 2) (vadd (g_vec3 g) vtarget)) in
  norm (vsub target rendered).
Definition error_of (s : chc) : R := rendered_error (s_target s) (s_vtarget s) (s_geo s).

(** the solver: call number, the two radii (None = inf), the seed position if any,
    and the state it changes in place *)
Definition solver := nat -> option R -> option R -> option V3 -> chc -> chc.
Definition reset_radii (s : chc) : chc :=
  let w := s_work s in set_work s (mkWork (w_distances1 w) (w_distances2 w) None None (w_tangent w)).

(** connector.py:1029-1032, 1046-1049: the smaller arc radius; None = inf *)
Definition arc_radius (rd : option R) (g : geo) : option R :=
  rmin_inf (if Rlt_dec (1 / 10000000000) (g_dogleg g) then Some (g_dist_curve g / g_dogleg g) else rd)
           (if Rlt_dec (1 / 10000000000) (g_dogleg2 g) then Some (g_dist_curve2 g / g_dogleg2 g) else rd).
(** a >= b - e with None = inf *)
Definition ge_inf (a b : option R) (e : R) : bool :=
  match a, b with
  | None, _ => true
  | Some _, None => false
  | Some x, Some y => if Rle_dec (y - e) x then true else false
  end.
(** connector.py:1006-1053 _delta_pos3_rescue.  When _happy_finish gives nan the
    comparisons are false, and the state seen by the next call of the solver is
    the one before _happy_finish (the solver is arbitrary). *)
Fixpoint delta_loop (solve : solver) (k : nat) (seeds : list V3) (before : option R) (saved : geo) (s : chc) : chc :=
  match seeds with
  | [] => set_geo s saved
  | seed :: more =>
      let s1 := solve k (p_rd (s_prob s)) (p_rd2 (s_prob s)) (Some seed) (reset_radii s) in
      match happy_finish s1 with
      | None => delta_loop solve (S k) more before saved s1
      | Some g =>
          let tp := dot (vsub (g_pos3 g) (g_pos2 g)) (g_vec3 g) in
          if Rle_dec (- p_min_error (s_prob s1)) tp then
            if (ge_inf (arc_radius (p_rd (s_prob s1)) g) before (p_min_error (s_prob s1)) : bool)
            then set_geo s1 g
            else delta_loop solve (S k) more before saved (set_geo s1 g)
          else delta_loop solve (S k) more before saved (set_geo s1 g)
      end
  end.
Definition delta_pos3_rescue (solve : solver) (k : nat) (s : chc) : chc :=
  let g := s_geo s in
  if Rle_dec (- p_min_error (s_prob s)) (dot (vsub (g_pos3 g) (g_pos2 g)) (g_vec3 g)) then s
  else delta_loop solve k [g_pos2 g; vscale (1 / 2) (vadd (g_pos2 g) (s_target s))]
         (arc_radius (p_rd (s_prob s)) g) g s.

(** connector.py:1055-1085 _project_tangent *)
Definition project_tangent (s : chc) : chc :=
  let g := s_geo s in
  let md3 := g_md2 g + Rmax 0 (dot (vsub (g_pos3 g) (g_pos2 g)) (g_vec3 g)) in
  set_geo s (mkGeo (g_pos2 g) (g_pos3 g) (g_vec2 g) (g_vec3 g) (g_dist_curve g) (g_dist_curve2 g)
               (g_func g) (g_func2 g) (g_dogleg g) (g_dogleg2 g) (g_md2 g) md3 (md3 + Rabs (g_dist_curve2 g))).

(** connector.py:1103-1147 _endpoint_rescue; nan as in [delta_loop] *)
Fixpoint rescue_loop (solve : solver) (k : nat) (shrinks : list R) (best_err : R) (best : geo) (s : chc) : chc :=
  match shrinks with
  | [] => set_geo s best
  | f :: more =>
      let r := match rmin_inf (p_rd (s_prob s)) (p_rd2 (s_prob s)) with Some x => Some (x * f) | None => None end in
      let s1 := solve k r r None (reset_radii s) in
      match happy_finish s1 with
      | None => rescue_loop solve (S k) more best_err best s1
      | Some g =>
          let s2 := set_geo s1 g in
          let err := error_of s2 in
          let better := Rlt_dec err best_err in
          let best_err' := if better then err else best_err in
          let best' := if better then g else best in
          if Rle_dec best_err' (1 / 1000) then set_geo s2 best'
          else rescue_loop solve (S k) more best_err' best' s2
      end
  end.
Definition endpoint_rescue (solve : solver) (k : nat) (s : chc) : chc :=
  if Rle_dec (error_of s) (1 / 1000) then s
  else rescue_loop solve k [1 / 2; 1 / 4; 1 / 8] (error_of s) (s_geo s) s.

(** connector.py:1174-1182 the radius of the first arc in _enforce_planarity *)
Definition planar_radius (s : chc) : option R :=
  let p := s_prob s in let w := s_work s in
  match w_distances1 w with
  | Some ds => rmin_inf (Some (get_radius_critical ds (p_min_error p))) (p_rd p)
  | None =>
      match w_rc w with
      | Some rc => if Rlt_dec 0 rc then rmin_inf (Some rc) (p_rd p) else p_rd p
      | None => p_rd p
      end
  end.
(** np.allclose(a, b, atol=1e-9) with the default rtol *)
Definition allclose9_dec (a b : V3) : bool :=
  let c x y := if Rle_dec (Rabs (x - y)) (1 / 1000000000 + rtol * Rabs y) then true else false in
  (c (vx a) (vx b) && c (vy a) (vy b) && c (vz a) (vz b))%bool.
(** connector.py:1196-1229 the projected direction; None = the loop breaks *)
Definition planar_direction (r1 : R) (s : chc) : option V3 :=
  let p := s_prob s in let g := s_geo s in
  let '(dc1, fd1) := get_curve_hold_data r1 (g_dogleg g) in
  let pos2 := get_pos (p_pos1 p) (p_vec1 p) (g_vec3 g) dc1 fd1 in
  let delta := vsub (s_target s) pos2 in
  if Rlt_dec (norm delta) (1 / 10000000000) then None
  else
    let d_hat := vscale (/ norm delta) delta in
    let v_perp := vsub (s_vtarget s) (vscale (dot (s_vtarget s) d_hat) d_hat) in
    if Rlt_dec (norm v_perp) (1 / 100000000) then None
    else
      let v_hat := vscale (/ norm v_perp) v_perp in
      let proj := vadd (vscale (dot (g_vec3 g) d_hat) d_hat) (vscale (dot (g_vec3 g) v_hat) v_hat) in
      if Rlt_dec (norm proj) (1 / 10000000000) then None
      else
        let v := vscale (/ norm proj) proj in
        if (allclose9_dec v (g_vec3 g) : bool) then None else Some v.
(** connector.py:1230-1246 the state seeded with that direction *)
Definition planar_seed (r1 : R) (v : V3) (s : chc) : chc :=
  let p := s_prob s in let g := s_geo s in let w := s_work s in
  let dogleg := clipped_angle (p_vec1 p) v in
  let '(dc1, fd1) := get_curve_hold_data r1 dogleg in
  let pos2 := get_pos (p_pos1 p) (p_vec1 p) v dc1 fd1 in
  mkChc p (s_target s) (s_vtarget s)
    (mkGeo (g_pos2 g) pos2 (g_vec2 g) v (g_dist_curve g) (g_dist_curve2 g) (g_func g) (g_func2 g)
       dogleg (g_dogleg2 g) (g_md2 g) (g_md3 g) (g_md_target g))
    (mkWork None (w_distances2 w) (Some r1) None 0).
(** connector.py:1193-1255 the loop of _enforce_planarity with [n] passes left.
    Once a pass gives nan all later ones do, and none is an improvement, so the
    loop may stop.  The radii saved with the best state are returned with it. *)
Fixpoint planar_loop (n : nat) (r1 : R) (best_err : R) (best : geo * (option R * option R)) (s : chc) : chc :=
  let finish b (t : chc) :=
    let w := s_work t in
    set_geo (set_work t (mkWork (w_distances1 w) (w_distances2 w) (fst (snd b)) (snd (snd b)) (w_tangent w))) (fst b) in
  match n with
  | O => finish best s
  | S m =>
      match planar_direction r1 s with
      | None => finish best s
      | Some v =>
          let s1 := planar_seed r1 v s in
          match happy_finish s1 with
          | None => finish best s1
          | Some g =>
              let s2 := set_geo s1 g in
              let err := error_of s2 in
              let better := Rlt_dec err best_err in
              let best_err' := if better then err else best_err in
              let best' := if better then (g, (w_rc (s_work s2), w_rc2 (s_work s2))) else best in
              if Rle_dec best_err' (1 / 1000) then finish best' s2
              else planar_loop m r1 best_err' best' s2
          end
      end
  end.
(** connector.py:1149-1255 _enforce_planarity (an infinite radius makes every
    pass nan) *)
Definition enforce_planarity (s : chc) : chc :=
  if Rle_dec (error_of s) (1 / 1000) then s
  else
    match planar_radius s with
    | None => s
    | Some r1 => planar_loop 8 r1 (error_of s) (s_geo s, (w_rc (s_work s), w_rc2 (s_work s))) s
    end.

(** connector.py:851-866 the end of _target_pos_and_vec_defined; [k] counts the
    calls of the solver made before.  None = nan. *)
Definition finish_curve_hold_curve (solve : solver) (k : nat) (s : chc) : option chc :=
  match happy_finish s with
  | None => None
  | Some g =>
      Some (enforce_planarity (endpoint_rescue solve (k + 2)
              (project_tangent (delta_pos3_rescue solve k (set_geo s g)))))
  end.

(** ** Interpolation *)
(** connector.py:2279-2333 get_interpololate_curve_hold_curve *)
Definition interpolate_chc (md1 : R) (vec1 vtarget : V3) (g : geo) (step : option R) : list (R * V3) :=
  interpolate_curve md1 vec1 (g_vec2 g) (g_dist_curve g) (g_dogleg g) step false
  ++ interpolate_hold (g_md2 g) (g_vec2 g) (g_md3 g) step false
  ++ interpolate_curve (g_md3 g) (g_vec3 g) vtarget (g_dist_curve2 g) (g_dogleg2 g) step true.

(** ** solve_curve_hold_batch *)
(** connector.py:1705-1797 solve_curve_hold_batch on one element; None = nan *)
Record batch_row := mkBatch {
  b_pos2 : V3; b_vec_target : V3; b_tangent : R; b_dogleg : R; b_dist_curve : R; b_md : R }.
Definition solve_curve_hold (pos1 vec1 target : V3) (radius : R) : option batch_row :=
  let delta := vsub target pos1 in
  let d := norm delta in
  let p := Rmin (dot delta vec1) d in
  let n := sqrt (Rmax 0 (d ^ 2 - p ^ 2)) in
  match min_dist_to_target radius (d, p, n) with
  | None => None
  | Some (t, dl) =>
      let dogleg := check_dogleg dl in
      let '(dc, fd) := get_curve_hold_data radius dogleg in
      match get_vec_target pos1 vec1 target t dc fd with
      | None => None
      | Some v => Some (mkBatch (vsub target (vscale t v)) v t dogleg dc (dc + t))
      end
  end.

(** ** The first two look-ups of the solver *)
(** connector.py:1352-1358 with 698-699: without a seed, minimize_target_pos_and_vec_defined
    first calls _get_distances on (pos1, vec1, pos_target) and on
    (pos_target, -vec_target, pos1); each may move its last argument in place.
    The result is (pos1, pos_target) afterwards. *)
Definition first_lookups (bump1 bump2 pos1 vec1 target vtarget : V3) : V3 * V3 :=
  let target' := fst (get_distances bump1 pos1 vec1 target) in
  (fst (get_distances bump2 target' (vneg vtarget) pos1), target').
