(** Model of the fixed-point solver of a curve-hold-curve connection:
    minimize_target_pos_and_vec_defined, Connector._get_pos2, ._get_tangent_temp and the calls made by
    ._target_pos_and_vec_defined (welleng/connector.py:698-740, 742-866, 1268-1274, 1320-1524).
    Numbers are exact reals, radii finite; None = nan.  A [bump] is the random offset _mod_pos
    adds to a point that is exactly straight ahead. *)
Require Import Reals Bool List.
Require Import Verif.Base Verif.NumPy Verif.M_Utils Verif.M_Connector Verif.M_Connector2.
Import ListNotations.
Open Scope R_scope.

(** ** one curve and hold *)
(** what is computed on the way from a point and direction to a point: the point after
    _get_distances, the distances, the radius used, the length of the hold, the angle, the length
    and shape factor of the arc, the direction of the hold and the end of the arc *)
Record leg := mkLeg {
  l_to : V3; l_dist : distances; l_radius : R; l_tangent : R; l_dogleg : R; l_curve : R; l_func : R;
  l_head : V3; l_point : V3 }.
(** connector.py:1424-1448, 1451-1473 and 698-740: the same computation three times ([mt] is
    min_tangent, connector.py:1268-1274) *)
Definition half_step (bump : V3) (e mt r : R) (p v q : V3) : option leg :=
  let '(q', ds) := get_distances bump p v q in
  let re := Rmin r (get_radius_critical ds e) in
  match min_dist_to_target re ds with
  | None => None
  | Some (t, dl) =>
      let dogleg := check_dogleg dl in
      let '(dc, fd) := get_curve_hold_data re dogleg in
      match get_vec_target p v q' t dc fd with
      | None => None
      | Some w => Some (mkLeg q' ds re t dogleg dc fd w (vsub q' (vscale (Rmax t mt) w)))
      end
  end.

(** ** one pass of the loop *)
Record pass := mkPass { i_leg1 : leg; i_leg2 : leg; i_pos3 : V3; i_vec23 : V3; i_md : R }.
(** connector.py:1421-1500: from [pos3] forwards to the start of the hold, from there backwards
    to the end of it, and half way towards that *)
Definition solver_pass (b1 b2 : V3) (e mt r1 r2 : R) (pos1 vec1 : V3) (md1 : R) (target vtarget pos3 : V3) : option pass :=
  match half_step b1 e mt r1 pos1 vec1 pos3 with
  | None => None
  | Some l1 =>
      match half_step b2 e mt r2 target (vneg vtarget) (l_point l1) with
      | None => None
      | Some l2 =>
          let pos3' := vadd (vscale (1 / 2) (l_point l2)) (vscale (1 / 2) pos3) in
          let d := norm (vsub pos3' (l_to l2)) in
          let vec23 := if Req_EM_T d 0 then vzero else vscale (/ d) (vsub pos3' (l_to l2)) in
          Some (mkPass l1 l2 pos3' vec23 (md1 + l_curve l1 + Rmax (l_tangent l2) mt + l_curve l2))
      end
  end.
(** connector.py:1488-1493 np.allclose(vec23, vec_old, rtol=min_error * 10, atol=min_error * 0.1) *)
Definition settled_dec (e : R) (a b : V3) : bool :=
  let c x y := if Rle_dec (Rabs (x - y)) (e * (1 / 10) + e * 10 * Rabs y) then true else false in
  (c (vx a) (vx b) && c (vy a) (vy b) && c (vz a) (vz b))%bool.
(** connector.py:1421-1515 the loop with [n] passes left; the passes made.  (With nan the code
    goes on until the second pass with nan.) *)
Fixpoint solver_loop (bumps : nat -> V3 * V3) (n : nat) (e mt r1 r2 : R) (pos1 vec1 : V3) (md1 : R) (target vtarget pos3 vec_old : V3)
  {struct n} : option (list pass) :=
  match n with
  | O => Some []
  | S m =>
      match solver_pass (fst (bumps n)) (snd (bumps n)) e mt r1 r2 pos1 vec1 md1 target vtarget pos3 with
      | None => None
      | Some i =>
          if (settled_dec e (i_vec23 i) vec_old : bool) then Some [i]
          else match solver_loop bumps m e mt r1 r2 pos1 vec1 md1 target vtarget (i_pos3 i) (i_vec23 i) with
               | None => None
               | Some l => Some (i :: l)
               end
      end
  end.
(** connector.py:1434-1436, 1457-1459: the running minimum after one pass *)
Definition running_minimum (e r : R) (rc : option R) (rt : R) : option R :=
  match rmin_inf rc (Some (r * (1 - e * 100))) with
  | Some x => if Rlt_dec rt x then Some rt else rc
  | None => rc
  end.

(** ** the first point *)
(** connector.py:1381-1393 a direction across the start direction *)
Definition across (pos1 vec1 target : V3) : V3 :=
  let chord := vsub target pos1 in
  let d := vsub chord (vscale (dot chord vec1) vec1) in
  if Rlt_dec (1 / 10000000000) (norm d) then vscale (/ norm d) d
  else
    let arb := if Rlt_dec (9 / 10) (Rabs (dot vec1 (mkV 1 0 0))) then mkV 0 1 0 else mkV 1 0 0 in
    let c := cross vec1 arb in vscale (/ norm c) c.
(** connector.py:1397-1402 the other one *)
Definition across2 (vec1 perp : V3) : V3 :=
  let c := cross vec1 perp in
  if Rlt_dec (1 / 10000000000) (norm c) then vscale (/ norm c) c else perp.
(** connector.py:1403 the four directions tried *)
Definition four_ways (pos1 vec1 target : V3) : list V3 :=
  let perp := across pos1 vec1 target in let perp2 := across2 vec1 perp in [perp; vneg perp; perp2; vneg perp2].
(** connector.py:1405-1407 *)
Definition candidate (r1 : R) (pos1 vec1 perp : V3) : V3 :=
  vadd (vadd pos1 (vscale r1 vec1)) (vscale (2 * r1) perp).
(** connector.py:1403-1417 the first candidate that the target allows, or the best *)
Fixpoint choose (bumps : nat -> V3) (e r1 r2 : R) (pos1 vec1 target vtarget : V3) (perps : list V3) (best : option R * V3) : V3 :=
  match perps with
  | [] => snd best
  | perp :: more =>
      let '(c, ds) := get_distances (bumps (length perps)) target (vneg vtarget) (candidate r1 pos1 vec1 perp) in
      let rc2 := get_radius_critical ds e in
      if Rle_dec r2 rc2 then c
      else
        let better := match fst best with None => true | Some b => if Rlt_dec b rc2 then true else false end in
        choose bumps e r1 r2 pos1 vec1 target vtarget more (if (better : bool) then (Some rc2, c) else best)
  end.
(** connector.py:1352-1417 pos3 at the start; pos1 and pos_target are those after
    [first_lookups] *)
Definition first_point (b1 b2 b3 b4 : V3) (bumps : nat -> V3) (e mt r1 r2 : R) (pos1 vec1 target vtarget : V3) : option V3 :=
  match half_step b1 e mt r1 pos1 vec1 target with
  | None => None
  | Some l1 =>
      match half_step b2 e mt r2 (l_to l1) (vneg vtarget) pos1 with
      | None => None
      | Some l2 =>
          let target' := l_to l1 in
          let pos1' := l_to l2 in
          let mid0 := vadd (l_point l1) (vscale (1 / 2) (vsub (l_point l2) (l_point l1))) in
          let '(mid1, d1) := get_distances b3 pos1' vec1 mid0 in
          let '(mid, d2) := get_distances b4 target' (vneg vtarget) mid1 in
          if Rle_dec r1 (get_radius_critical d1 e) then
            if Rle_dec r2 (get_radius_critical d2 e) then Some mid
            else Some (choose bumps e r1 r2 pos1' vec1 target' vtarget (four_ways pos1' vec1 target') (None, candidate r1 pos1' vec1 (across pos1' vec1 target')))
          else Some (choose bumps e r1 r2 pos1' vec1 target' vtarget (four_ways pos1' vec1 target') (None, candidate r1 pos1' vec1 (across pos1' vec1 target')))
      end
  end.

(** ** the calls of the solver *)
(** connector.py:762-775, 799-812 whether the design radii hold at the present geometry *)
Definition design_missed (s : chc) : bool :=
  let p := s_prob s in let w := s_work s in
  match w_distances1 w, w_distances2 w with
  | Some d1, Some d2 =>
      negb (radius_le (p_rd p) (get_radius_critical d1 (p_min_error p)) && radius_le (p_rd2 p) (get_radius_critical d2 (p_min_error p)))
  | _, _ =>
      let gt a b := match a, b with None, Some _ => true | Some x, Some y => if Rlt_dec y x then true else false | _, None => false end in
      negb (gt (w_rc w) (p_rd p) && gt (w_rc2 w) (p_rd2 p))
  end.
(** connector.py:781-798 the second attempt, from the solution for a quarter of the distance; the
    state and the number of calls *)
Definition second_attempt (solve : solver) (k : nat) (s : chc) : chc * nat :=
  let p := s_prob s in
  let r := norm (vsub (s_target s) (p_pos1 p)) / 4 in
  match rmin_inf (p_rd p) (p_rd2 p) with
  | Some m =>
      if Rlt_dec 0 r then if Rlt_dec r m then
        let s1 := solve k (Some r) (Some r) None s in
        (solve (S k) (p_rd p) (p_rd2 p) (Some (g_pos3 (s_geo s1))) (reset_radii s1), 2%nat)
      else (s, O) else (s, O)
  | None =>
      if Rlt_dec 0 r then
        let s1 := solve k (Some r) (Some r) None s in
        (solve (S k) (p_rd p) (p_rd2 p) (Some (g_pos3 (s_geo s1))) (reset_radii s1), 2%nat)
      else (s, O)
  end.
(** connector.py:821-827 the radius that would spread the turns over the whole length: None = the
    loop ends (negative, or nan), Some None = inf *)
Definition balanced_radius (s : chc) : option (option R) :=
  let g := s_geo s in
  let len := g_md_target g - p_md1 (s_prob s) in
  let turn := Rabs (g_dogleg g) + Rabs (g_dogleg2 g) in
  if Req_EM_T turn 0 then (if Rlt_dec 0 len then Some None else None)
  else if Rlt_dec (len / turn) 0 then None else Some (Some (len / turn)).
(** connector.py:820-850 balancing, at most [n] calls; [stop] stands for the tests at 838-849.
    When the loop ends at 825 radius_critical keeps a negative number or nan; it is not read
    while the distances are known, and left as it was here. *)
Fixpoint balance (solve : solver) (stop : nat -> chc -> bool) (k n : nat) (s : chc) : chc * nat :=
  match n with
  | O => (s, O)
  | S m =>
      let p := s_prob s in let w := s_work s in
      match balanced_radius s with
      | None => (s, O)
      | Some rc =>
          let s0 := set_work s (mkWork (w_distances1 w) (w_distances2 w) rc rc (w_tangent w)) in
          let s1 := solve k (p_rd p) (p_rd2 p) (Some (g_pos3 (s_geo s))) s0 in
          if (stop k s1 : bool) then (s1, 1%nat)
          else let '(s2, c) := balance solve stop (S k) m s1 in (s2, S c)
      end
  end.
(** connector.py:742-866 _target_pos_and_vec_defined up to _happy_finish: the state and the number
    of calls of the solver *)
Definition solver_calls (solve : solver) (stop : nat -> chc -> bool) (max_iterations : nat) (s : chc) : chc * nat :=
  let p := s_prob s in
  let s1 := solve O (p_rd p) (p_rd2 p) None s in
  if (design_missed s1 : bool) then
    let '(s2, c2) := second_attempt solve 1 s1 in
    if (design_missed s2 : bool) then
      let '(s3, c3) := balance solve stop (1 + c2) max_iterations s2 in (s3, (1 + c2 + c3)%nat)
    else (s2, (1 + c2)%nat)
  else (s1, 1%nat).
(** connector.py:742-866 _target_pos_and_vec_defined *)
Definition target_pos_and_vec_defined (solve : solver) (stop : nat -> chc -> bool) (max_iterations : nat) (s : chc) : option chc :=
  let '(s1, c) := solver_calls solve stop max_iterations s in finish_curve_hold_curve solve c s1.
