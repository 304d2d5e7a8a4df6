(** C157: the solver of curve-hold-curve connections. *)
Require Import Reals ZArith Bool List Lra.
Require Import Verif.Base Verif.NumPy Verif.Spec Verif.M_Utils Verif.M_Connector Verif.M_Connector2 Verif.Spec_Connector Verif.Spec_Connector2 Verif.Spec_Connector3 Verif.P_Connector10 Verif.M_Solver Verif.Spec_Solver Verif.P_Solver.
Import ListNotations.
Open Scope R_scope.

Theorem C157_half : forall b e r p v q, is_unit v -> 0 <= e < 1 -> 0 < r -> regular p v q (Rmin r (reach p v q e)) ->
  exists l, half_step b e 0 r p v q = Some l /\ l_to l = q /\ l_radius l = Rmin r (reach p v q e) /\ 0 < l_radius l /\
    0 < l_dogleg l < 2 * PI /\ 0 <= l_tangent l /\ l_curve l = l_radius l * l_dogleg l /\
    turn_then_straight p v (l_radius l) (l_dogleg l) (l_tangent l) (l_point l) q (l_head l).
Proof. exact half_step_turn. Qed.
Print Assumptions C157_half.
Example C157_half_case : is_unit (mkV 0 0 1) /\ regular vzero (mkV 0 0 1) s_end (Rmin 30 (reach vzero (mkV 0 0 1) s_end (1 / 100000))).
Proof. split; [apply s_units|]. destruct s_first as (c & _ & G & _). exact G. Qed.
Theorem C157_only_turn : forall p u q r t len m v t' len' m' v', is_unit u -> 0 < r -> 0 < off_axis p u q ->
  0 <= len -> 0 <= len' -> 0 <= t < 2 * PI -> 0 <= t' < 2 * PI ->
  turn_then_straight p u r t len m q v -> turn_then_straight p u r t' len' m' q v' ->
  t = t' /\ len = len' /\ m = m' /\ v = v'.
Proof. exact turn_unique. Qed.
Print Assumptions C157_only_turn.
Example C157_only_turn_case : exists t len m v, turn_then_straight vzero (mkV 0 0 1) 30 t len m s_m2 v /\ 0 <= len.
Proof. exists (PI / 2), 100, s_m1, (mkV 1 0 0). split; [apply s_path|lra]. Qed.
Theorem C157_sound : forall b1 b2 e r1 r2 pos1 vec1 md1 target vt pos3 i, is_unit vec1 -> is_unit vt -> 0 <= e < 1 -> 0 < r1 -> 0 < r2 ->
  solver_pass b1 b2 e 0 r1 r2 pos1 vec1 md1 target vt pos3 = Some i ->
  regular pos1 vec1 pos3 (l_radius (i_leg1 i)) -> regular target (vneg vt) (l_point (i_leg1 i)) (l_radius (i_leg2 i)) ->
  i_pos3 i = pos3 -> 0 < l_tangent (i_leg1 i) ->
  l_radius (i_leg1 i) = Rmin r1 (reach pos1 vec1 pos3 e) /\ l_radius (i_leg2 i) = Rmin r2 (reach target (vneg vt) (l_point (i_leg1 i)) e) /\
  curve_hold_curve pos1 vec1 target vt (l_radius (i_leg1 i)) (l_radius (i_leg2 i)) (l_dogleg (i_leg1 i)) (l_tangent (i_leg1 i)) (l_dogleg (i_leg2 i))
    (l_point (i_leg1 i)) pos3 (l_head (i_leg1 i)) /\
  i_md i = md1 + l_radius (i_leg1 i) * l_dogleg (i_leg1 i) + l_tangent (i_leg1 i) + l_radius (i_leg2 i) * l_dogleg (i_leg2 i).
Proof. exact fixed_sound. Qed.
Print Assumptions C157_sound.
Example C157_sound_case : forall b1 b2, exists i, solver_pass b1 b2 (1 / 100000) 0 30 30 vzero (mkV 0 0 1) 0 s_end (mkV 0 0 1) s_m2 = Some i /\
  regular vzero (mkV 0 0 1) s_m2 (l_radius (i_leg1 i)) /\ regular s_end (vneg (mkV 0 0 1)) (l_point (i_leg1 i)) (l_radius (i_leg2 i)) /\
  i_pos3 i = s_m2 /\ 0 < l_tangent (i_leg1 i).
Proof. exact s_fixed. Qed.
Theorem C157_complete : forall b1 b2 e r1 r2 pos1 vec1 md1 target vt pos3 a len b m1 w, is_unit vec1 -> is_unit vt -> 0 <= e < 1 -> 0 < r1 -> 0 < r2 ->
  regular pos1 vec1 pos3 r1 -> regular target (vneg vt) m1 r2 ->
  r1 <= reach pos1 vec1 pos3 e -> r2 <= reach target (vneg vt) m1 e ->
  0 <= a < 2 * PI -> 0 <= b < 2 * PI -> 0 <= len ->
  curve_hold_curve pos1 vec1 target vt r1 r2 a len b m1 pos3 w ->
  exists i, solver_pass b1 b2 e 0 r1 r2 pos1 vec1 md1 target vt pos3 = Some i /\ i_pos3 i = pos3 /\
    l_dogleg (i_leg1 i) = a /\ l_dogleg (i_leg2 i) = b /\ l_tangent (i_leg1 i) = len /\ l_head (i_leg1 i) = w /\
    l_point (i_leg1 i) = m1 /\ l_radius (i_leg1 i) = r1 /\ l_radius (i_leg2 i) = r2 /\ i_md i = md1 + r1 * a + len + r2 * b /\
    (0 < len -> i_vec23 i = w).
Proof. exact fixed_complete. Qed.
Print Assumptions C157_complete.
Example C157_complete_case : curve_hold_curve vzero (mkV 0 0 1) s_end (mkV 0 0 1) 30 30 (PI / 2) 100 (PI / 2) s_m1 s_m2 (mkV 1 0 0) /\
  (regular vzero (mkV 0 0 1) s_m2 30 /\ regular s_end (vneg (mkV 0 0 1)) s_m1 30) /\
  30 <= reach vzero (mkV 0 0 1) s_m2 (1 / 100000) /\ 30 <= reach s_end (vneg (mkV 0 0 1)) s_m1 (1 / 100000).
Proof. exact (conj s_path (conj s_regular s_reach)). Qed.
Theorem C157_forward : forall p u q v r1 r2 a len b m1 m2 w, 0 < r1 -> 0 < r2 -> is_unit u -> is_unit v ->
  curve_hold_curve p u q v r1 r2 a len b m1 m2 w ->
  circular_arc p u (r1 * a) a m1 w /\ m2 = vadd m1 (vscale len w) /\ circular_arc m2 w (r2 * b) b q v.
Proof. exact path_forward. Qed.
Print Assumptions C157_forward.
Example C157_forward_case : curve_hold_curve vzero (mkV 0 0 1) s_end (mkV 0 0 1) 30 30 (PI / 2) 100 (PI / 2) s_m1 s_m2 (mkV 1 0 0).
Proof. exact s_path. Qed.
Theorem C157_loop : forall bumps n e r1 r2 pos1 vec1 md1 target vt pos3 a len b m1 w, is_unit vec1 -> is_unit vt -> 0 <= e < 1 -> 0 < r1 -> 0 < r2 ->
  regular pos1 vec1 pos3 r1 -> regular target (vneg vt) m1 r2 ->
  r1 <= reach pos1 vec1 pos3 e -> r2 <= reach target (vneg vt) m1 e ->
  0 <= a < 2 * PI -> 0 <= b < 2 * PI -> 0 < len ->
  curve_hold_curve pos1 vec1 target vt r1 r2 a len b m1 pos3 w ->
  exists i j, solver_loop bumps (S (S n)) e 0 r1 r2 pos1 vec1 md1 target vt pos3 vzero = Some [i; j] /\
    i_pos3 j = pos3 /\ i_vec23 j = w /\ l_dogleg (i_leg1 j) = a /\ l_dogleg (i_leg2 j) = b /\ l_tangent (i_leg1 j) = len /\ i_md j = md1 + r1 * a + len + r2 * b.
Proof. exact loop_fixed. Qed.
Print Assumptions C157_loop.
Example C157_loop_case : curve_hold_curve vzero (mkV 0 0 1) s_end (mkV 0 0 1) 30 30 (PI / 2) 100 (PI / 2) s_m1 s_m2 (mkV 1 0 0) /\ 0 < 100.
Proof. split; [exact s_path|lra]. Qed.
Theorem C157_passes : forall bumps n e mt r1 r2 pos1 vec1 md1 target vt pos3 vec_old l,
  solver_loop bumps n e mt r1 r2 pos1 vec1 md1 target vt pos3 vec_old = Some l ->
  (length l <= n)%nat /\ ((length l < n)%nat -> exists before i, l = before ++ [i] /\
    settled_dec e (i_vec23 i) (match rev before with [] => vec_old | k :: _ => i_vec23 k end) = true).
Proof. exact loop_length. Qed.
Print Assumptions C157_passes.
Example C157_passes_case : exists i j, solver_loop (fun _ => (vzero, vzero)) 5 (1 / 100000) 0 30 30 vzero (mkV 0 0 1) 0 s_end (mkV 0 0 1) s_m2 vzero = Some [i; j].
Proof.
  destruct s_units as (U & _). destruct s_regular as [G1 G2]. destruct s_reach as [L1 L2]. pose proof PI_RGT_0 as PP.
  assert (E : 0 <= 1 / 100000 < 1) by lra. assert (P : 0 < 30) by lra. assert (A : 0 <= PI / 2 < 2 * PI) by lra. assert (L : 0 < 100) by lra.
  destruct (loop_fixed (fun _ => (vzero, vzero)) 3 (1 / 100000) 30 30 vzero (mkV 0 0 1) 0 s_end (mkV 0 0 1) s_m2 (PI / 2) 100 (PI / 2) s_m1 (mkV 1 0 0) U U E P P G1 G2 L1 L2 A A L s_path)
    as (i & j & H & _). exists i, j. exact H.
Qed.
Theorem C157_minimum : forall e r rc rt, 0 <= e -> 0 < r -> 0 <= rt ->
  match rc with Some x => 0 <= x | None => True end ->
  match running_minimum e r rc rt with
  | Some y => 0 <= y /\ match rc with Some x => y <= x | None => y = rt end
  | None => rc = None
  end.
Proof. exact running_minimum_falls. Qed.
Print Assumptions C157_minimum.
Example C157_minimum_case : running_minimum (1 / 100000) 30 (Some 25) 20 = Some 20.
Proof. unfold running_minimum. cbn [rmin_inf]. rewrite Rmin_left by lra. destruct (Rlt_dec 20 25); [reflexivity|lra]. Qed.
Theorem C157_candidate : forall r pos1 vec1 perp, 0 < r -> is_unit vec1 -> is_unit perp -> orthogonal vec1 perp ->
  ahead pos1 vec1 (candidate r pos1 vec1 perp) = r /\ off_axis pos1 vec1 (candidate r pos1 vec1 perp) = 2 * r /\
  tangent_circle_radius pos1 vec1 (candidate r pos1 vec1 perp) = 5 / 4 * r.
Proof. exact candidate_place. Qed.
Print Assumptions C157_candidate.
Example C157_candidate_case : is_unit (mkV 0 0 1) /\ is_unit (mkV 1 0 0) /\ orthogonal (mkV 0 0 1) (mkV 1 0 0).
Proof. exact s_units. Qed.
Theorem C157_candidate_refuted : forall b e r pos1 vec1 perp, 0 <= e <= 1 / 5 -> 0 < r -> is_unit vec1 -> is_unit perp -> orthogonal vec1 perp ->
  ~ allclose pos1 (candidate r pos1 vec1 perp) ->
  turn_then_straight pos1 vec1 r (PI / 2) r (vadd (vadd pos1 (vscale r vec1)) (vscale r perp)) (candidate r pos1 vec1 perp) perp /\
  exists l, half_step b e 0 r pos1 vec1 (candidate r pos1 vec1 perp) = Some l /\
    l_radius l = r /\ l_dogleg l = 0 /\ l_tangent l = r /\ l_head l = vec1 /\ l_point l = vadd pos1 (vscale (2 * r) perp).
Proof. exact candidate_singular. Qed.
Print Assumptions C157_candidate_refuted.
Example C157_candidate_refuted_case : ~ allclose vzero (candidate 30 vzero (mkV 0 0 1) (mkV 1 0 0)).
Proof. exact s_candidate. Qed.
Theorem C157_ways : forall pos1 vec1 target n, is_unit vec1 -> In n (four_ways pos1 vec1 target) -> is_unit n /\ orthogonal vec1 n.
Proof. exact four_ways_units. Qed.
Print Assumptions C157_ways.
Example C157_ways_case : In (across vzero (mkV 0 0 1) s_end) (four_ways vzero (mkV 0 0 1) s_end).
Proof. left. reflexivity. Qed.
Theorem C157_choice : forall bumps e r1 r2 pos1 vec1 target vt, is_unit vec1 -> is_unit vt ->
  (forall n, In n (four_ways pos1 vec1 target) -> 0 < off_axis target (vneg vt) (candidate r1 pos1 vec1 n) /\ ~ allclose target (candidate r1 pos1 vec1 n)) ->
  let c := choose bumps e r1 r2 pos1 vec1 target vt (four_ways pos1 vec1 target) (None, candidate r1 pos1 vec1 (across pos1 vec1 target)) in
  exists n, In n (four_ways pos1 vec1 target) /\ c = candidate r1 pos1 vec1 n /\
    (r2 <= reach target (vneg vt) c e \/ forall m, In m (four_ways pos1 vec1 target) ->
      reach target (vneg vt) (candidate r1 pos1 vec1 m) e < r2 /\ reach target (vneg vt) (candidate r1 pos1 vec1 m) e <= reach target (vneg vt) c e).
Proof. exact first_choice. Qed.
Print Assumptions C157_choice.
Example C157_choice_case : forall n, In n (four_ways vzero (mkV 0 0 1) s_end) ->
  0 < off_axis s_end (vneg (mkV 0 0 1)) (candidate 30 vzero (mkV 0 0 1) n) /\ ~ allclose s_end (candidate 30 vzero (mkV 0 0 1) n).
Proof. intros n I. destruct (four_ways_units _ _ _ n (proj1 s_units) I). apply s_far; assumption. Qed.
Theorem C157_first : forall b1 b2 b3 b4 bumps e r1 r2 pos1 vec1 target vt c, is_unit vec1 -> is_unit vt -> 0 <= e < 1 -> 0 < r1 -> 0 < r2 ->
  regular pos1 vec1 target (Rmin r1 (reach pos1 vec1 target e)) -> regular target (vneg vt) pos1 (Rmin r2 (reach target (vneg vt) pos1 e)) ->
  (forall n, is_unit n -> orthogonal vec1 n -> 0 < off_axis target (vneg vt) (candidate r1 pos1 vec1 n) /\ ~ allclose target (candidate r1 pos1 vec1 n)) ->
  first_point b1 b2 b3 b4 bumps e 0 r1 r2 pos1 vec1 target vt = Some c ->
  (exists m m' t t' len len' v v' q,
     turn_then_straight pos1 vec1 (Rmin r1 (reach pos1 vec1 target e)) t len m target v /\
     turn_then_straight target (vneg vt) (Rmin r2 (reach target (vneg vt) pos1 e)) t' len' m' pos1 v' /\
     0 <= len /\ 0 <= len' /\ 0 < t < 2 * PI /\ 0 < t' < 2 * PI /\
     (q = vscale (1 / 2) (vadd m m') \/ off_axis pos1 vec1 (vscale (1 / 2) (vadd m m')) = 0) /\ (c = q \/ off_axis target (vneg vt) q = 0) /\
     r1 <= reach pos1 vec1 q e /\ r2 <= reach target (vneg vt) c e) \/
  (exists n, is_unit n /\ orthogonal vec1 n /\ c = candidate r1 pos1 vec1 n).
Proof. exact first_point_spec. Qed.
Print Assumptions C157_first.
Example C157_first_case : exists c, first_point vzero vzero vzero vzero (fun _ => vzero) (1 / 100000) 0 30 30 vzero (mkV 0 0 1) s_end (mkV 0 0 1) = Some c /\
  regular vzero (mkV 0 0 1) s_end (Rmin 30 (reach vzero (mkV 0 0 1) s_end (1 / 100000))) /\
  regular s_end (vneg (mkV 0 0 1)) vzero (Rmin 30 (reach s_end (vneg (mkV 0 0 1)) vzero (1 / 100000))).
Proof. exact s_first. Qed.
Theorem C157_calls : forall solve stop n s, (1 <= snd (solver_calls solve stop n s) <= 3 + n)%nat.
Proof. exact calls_bound. Qed.
Print Assumptions C157_calls.
Example C157_calls_case : snd (solver_calls easy (fun _ _ => true) 100 (bend_state 5)) = 1%nat.
Proof. rewrite easy_calls. reflexivity. Qed.
Theorem C157_one_call : forall solve stop n s, let s1 := solve O (p_rd (s_prob s)) (p_rd2 (s_prob s)) None s in
  design_missed s1 = false -> solver_calls solve stop n s = (s1, 1%nat).
Proof. exact calls_one. Qed.
Print Assumptions C157_one_call.
Example C157_one_call_case : design_missed (easy O (Some 100) (Some 100) None (bend_state 5)) = false.
Proof. exact easy_met. Qed.
Theorem C157_path : forall solve stop n s s', keeps_inputs solve -> is_unit (p_vec1 (s_prob s)) -> is_unit (s_vtarget s) ->
  0 <= p_min_error (s_prob s) -> target_pos_and_vec_defined solve stop n s = Some s' ->
  s_target s' = s_target s /\ depths_ordered (p_md1 (s_prob s)) (s_geo s') /\
  curve_hold_curve_path (p_pos1 (s_prob s)) (p_vec1 (s_prob s)) (p_md1 (s_prob s)) (s_target s) (s_vtarget s) (s_geo s') (error_of s').
Proof. exact whole_path. Qed.
Print Assumptions C157_path.
Example C157_path_case : keeps_inputs easy /\ exists s', target_pos_and_vec_defined easy (fun _ _ => true) 100 (bend_state 5) = Some s'.
Proof. split; [exact easy_keeps|]. destruct s_calls as (g & s' & _ & H). exists s'. exact H. Qed.
Theorem C157_error : forall solve stop n s s' g, keeps_inputs solve -> is_unit (p_vec1 (s_prob s)) -> is_unit (s_vtarget s) ->
  0 <= p_min_error (s_prob s) -> happy_finish (fst (solver_calls solve stop n s)) = Some g -> target_pos_and_vec_defined solve stop n s = Some s' ->
  error_of s' <= error_of (set_geo (fst (solver_calls solve stop n s)) g).
Proof. exact whole_error. Qed.
Print Assumptions C157_error.
Example C157_error_case : exists g s', happy_finish (fst (solver_calls easy (fun _ _ => true) 100 (bend_state 5))) = Some g /\
  target_pos_and_vec_defined easy (fun _ _ => true) 100 (bend_state 5) = Some s'.
Proof. exact s_calls. Qed.
