(** Proofs about the solver of curve-hold-curve connections. *)
Require Import Reals ZArith Bool List Lra Lia Psatz Nsatz.
Require Import Verif.Base Verif.NumPy Verif.P_Trig Verif.Spec Verif.M_Utils Verif.P_Utils Verif.M_Connector Verif.M_Connector2 Verif.Spec_Connector Verif.Spec_Connector2 Verif.P_Connector Verif.P_Connector2.
Require Import Verif.Spec_Connector3 Verif.P_Connector9 Verif.P_Connector10 Verif.M_Solver Verif.Spec_Solver.
Import ListNotations.
Local Open Scope R_scope.

Lemma regular_distances : forall b p v q r, is_unit v -> regular p v q r -> get_distances b p v q = (q, dist_triple p v q).
Proof.
  intros b p v q r U (NC & O & _). destruct (get_distances b p v q) as [q' ds] eqn:G. pose proof (get_distances_pos _ _ _ _ _ _ U O G) as ->.
  unfold get_distances in G. injection G as G1 G2. rewrite G1 in G2. destruct (allclose_dec p q); [tauto|]. rewrite <- G2. reflexivity.
Qed.
Lemma tcr_pos : forall p v q, 0 < off_axis p v q -> 0 < tangent_circle_radius p v q.
Proof.
  intros p v q O. unfold tangent_circle_radius. apply Rdiv_lt_0_compat; [|lra]. rewrite <- norm_sqr.
  assert (0 < norm (vsub q p)); [|nra]. apply norm_pos. intro Z. unfold off_axis in O. rewrite Z in O. replace (cross vzero v) with vzero in O by vring. rewrite norm_vzero in O. lra.
Qed.
Lemma reach_pos : forall p v q e, 0 <= e < 1 -> 0 < off_axis p v q -> 0 < reach p v q e <= tangent_circle_radius p v q.
Proof. intros p v q e E O. pose proof (tcr_pos p v q O). unfold reach. nra. Qed.
(** half a pass is an exact curve and hold with the largest radius allowed *)
Lemma half_step_turn : forall b e r p v q, is_unit v -> 0 <= e < 1 -> 0 < r -> regular p v q (Rmin r (reach p v q e)) ->
  exists l, half_step b e 0 r p v q = Some l /\ l_to l = q /\ l_radius l = Rmin r (reach p v q e) /\ 0 < l_radius l /\
    0 < l_dogleg l < 2 * PI /\ 0 <= l_tangent l /\ l_curve l = l_radius l * l_dogleg l /\
    turn_then_straight p v (l_radius l) (l_dogleg l) (l_tangent l) (l_point l) q (l_head l).
Proof.
  intros b e r p v q U E R0 RG. pose proof RG as (NC & O & N2). pose proof (reach_pos p v q e E O) as [R1 R2].
  set (re := Rmin r (reach p v q e)) in *. assert (P : 0 < re) by (apply Rmin_glb_lt; lra).
  assert (L : re <= tangent_circle_radius p v q) by (pose proof (Rmin_r r (reach p v q e)); fold re in H; lra).
  destruct (ch_solve p v q re U P O N2 L) as (T & t & w & S0 & Et & V & Bt & HT & W).
  unfold half_step. rewrite (regular_distances b p v q re U RG). rewrite (critical_eq p v q e U) by lra. fold (reach p v q e). fold re.
  rewrite S0, <- Et. cbn [get_curve_hold_data]. rewrite V. eexists. split; [reflexivity|]. cbn [l_to l_radius l_dogleg l_tangent l_curve l_point l_head].
  rewrite (Rmax_left T 0) by lra. repeat split; auto; lra.
Qed.

(** ** there is only one curve and hold of a given radius *)
Lemma turn_frame : forall p u q r t len m v, is_unit u -> 0 < off_axis p u q -> turn_then_straight p u r t len m q v ->
  r * sin t + len * cos t = ahead p u q /\ r * (1 - cos t) + len * sin t = off_axis p u q /\
  let n := vscale (/ off_axis p u q) (vsub (vsub q p) (vscale (ahead p u q) u)) in
  m = arc_point p u n r t /\ v = arc_tangent u n t.
Proof.
  intros p u q r t len m v U Hn (n & N & O & W & M & V & Q).
  assert (E : vsub q p = vadd (vscale (r * sin t + len * cos t) u) (vscale (r * (1 - cos t) + len * sin t) n)).
  { rewrite Q, M, V. unfold arc_point, arc_tangent. vring. }
  set (x := r * sin t + len * cos t) in *. set (y := r * (1 - cos t) + len * sin t) in *. unfold is_unit, orthogonal in *.
  assert (NN : dot (vsub q p) (vsub q p) = x * x + y * y).
  { rewrite E. rewrite !dot_vadd_l, !dot_vadd_r, !dot_vscale_l, !dot_vscale_r. rewrite U, N, O, (dot_comm n u), O. ring. }
  assert (A : ahead p u q = x).
  { unfold ahead. rewrite E, dot_vadd_l, !dot_vscale_l, (dot_comm n u). rewrite U, O. ring. }
  rewrite E, dot_vadd_r, !dot_vscale_r, (dot_comm n u), O, N in W.
  pose proof (off_axis_sqr p u q U) as S0. rewrite NN, A in S0.
  assert (Y : off_axis p u q = y).
  { rewrite <- (Rabs_pos_eq (off_axis p u q)) by lra. rewrite <- (Rabs_pos_eq y) by lra. apply Rsqr_eq_abs_0. unfold Rsqr. lra. }
  split; [auto|]. split; [auto|]. cbv zeta.
  assert (X : vscale (/ off_axis p u q) (vsub (vsub q p) (vscale (ahead p u q) u)) = n).
  { rewrite Y in Hn |- *. rewrite A, E. clearbody x y. clear -Hn. destruct u as [u1 u2 u3], n as [n1 n2 n3]. apply V3_eq; cbn; field; lra. }
  rewrite X. auto.
Qed.
Lemma turn_unique : forall p u q r t len m v t' len' m' v', is_unit u -> 0 < r -> 0 < off_axis p u q ->
  0 <= len -> 0 <= len' -> 0 <= t < 2 * PI -> 0 <= t' < 2 * PI ->
  turn_then_straight p u r t len m q v -> turn_then_straight p u r t' len' m' q v' ->
  t = t' /\ len = len' /\ m = m' /\ v = v'.
Proof.
  intros p u q r t len m v t' len' m' v' U R0 Hn L L' B B' T T'.
  destruct (turn_frame _ _ _ _ _ _ _ _ U Hn T) as (A1 & D1 & M1 & V1). destruct (turn_frame _ _ _ _ _ _ _ _ U Hn T') as (A2 & D2 & M2 & V2).
  set (x := ahead p u q) in *. set (y := off_axis p u q) in *.
  assert (K : forall s l, 0 <= l -> r * sin s + l * cos s = x -> r * (1 - cos s) + l * sin s = y -> l * l = x * x + y * y - 2 * r * y).
  { intros s l _ E1 E2. pose proof (sin2_cos2' s) as Q. rewrite <- E1, <- E2. set (si := sin s) in *. set (co := cos s) in *. clearbody si co.
    replace ((r * si + l * co) * (r * si + l * co) + (r * (1 - co) + l * si) * (r * (1 - co) + l * si) - 2 * r * (r * (1 - co) + l * si))
      with (l * l * (si * si + co * co) + r * r * (si * si + co * co) - r * r) by ring. rewrite Q. ring. }
  assert (LL : len = len') by (pose proof (K _ _ L A1 D1); pose proof (K _ _ L' A2 D2); nra). subst len'.
  assert (C : cos t = cos t' /\ sin t = sin t').
  { assert (F : forall s, r * sin s + len * cos s = x -> r * (1 - cos s) + len * sin s = y ->
      (r * r + len * len) * cos s = len * x - r * (y - r) /\ (r * r + len * len) * sin s = r * x + len * (y - r)).
    { intros s <- <-. split; ring. }
    destruct (F _ A1 D1) as [C1 S1]. destruct (F _ A2 D2) as [C2 S2]. assert (0 < r * r + len * len) by nra.
    split; apply Rmult_eq_reg_l with (r * r + len * len); lra. }
  assert (TT : t = t') by (apply angle_unique; [lra|tauto|tauto]). subst t'. repeat split; congruence.
Qed.

Lemma turn_head : forall p u r t len m q w, is_unit u -> turn_then_straight p u r t len m q w -> dot w w = 1.
Proof.
  intros p u r t len m q w Uu (n & Nn & On & _ & _ & -> & _). unfold arc_tangent. unfold is_unit, orthogonal in *.
  rewrite !dot_vadd_l, !dot_vadd_r, !dot_vscale_l, !dot_vscale_r, Uu, Nn, (dot_comm n u), On. pose proof (sin2_cos2' t). lra.
Qed.

(** ** fixed points *)
Lemma vneg_unit' : forall v, is_unit v -> is_unit (vneg v).
Proof. intros v U. unfold is_unit in *. rewrite dot_vneg_l, dot_vneg_r, U. ring. Qed.
Lemma half_step_some : forall b e mt r p v q l, is_unit v -> 0 <= e < 1 -> regular p v q (l_radius l) -> half_step b e mt r p v q = Some l ->
  l_radius l = Rmin r (reach p v q e).
Proof.
  intros b e mt r p v q l U E RG H. unfold half_step in H. rewrite (regular_distances b p v q _ U RG) in H.
  rewrite (critical_eq p v q e U) in H by (destruct RG; lra). fold (reach p v q e) in H.
  destruct (min_dist_to_target _ _) as [[t dl]|]; [|discriminate]. cbn [get_curve_hold_data] in H. destruct (get_vec_target _ _ _ _ _ _); [|discriminate].
  injection H as <-. reflexivity.
Qed.
Lemma fixed_sound : forall b1 b2 e r1 r2 pos1 vec1 md1 target vt pos3 i, is_unit vec1 -> is_unit vt -> 0 <= e < 1 -> 0 < r1 -> 0 < r2 ->
  solver_pass b1 b2 e 0 r1 r2 pos1 vec1 md1 target vt pos3 = Some i ->
  regular pos1 vec1 pos3 (l_radius (i_leg1 i)) -> regular target (vneg vt) (l_point (i_leg1 i)) (l_radius (i_leg2 i)) ->
  i_pos3 i = pos3 -> 0 < l_tangent (i_leg1 i) ->
  l_radius (i_leg1 i) = Rmin r1 (reach pos1 vec1 pos3 e) /\ l_radius (i_leg2 i) = Rmin r2 (reach target (vneg vt) (l_point (i_leg1 i)) e) /\
  curve_hold_curve pos1 vec1 target vt (l_radius (i_leg1 i)) (l_radius (i_leg2 i)) (l_dogleg (i_leg1 i)) (l_tangent (i_leg1 i)) (l_dogleg (i_leg2 i))
    (l_point (i_leg1 i)) pos3 (l_head (i_leg1 i)) /\
  i_md i = md1 + l_radius (i_leg1 i) * l_dogleg (i_leg1 i) + l_tangent (i_leg1 i) + l_radius (i_leg2 i) * l_dogleg (i_leg2 i).
Proof.
  intros b1 b2 e r1 r2 pos1 vec1 md1 target vt pos3 i U1 U2 E R1 R2 H G1 G2 F L. unfold solver_pass in H.
  destruct (half_step b1 e 0 r1 pos1 vec1 pos3) as [l1|] eqn:H1; [|discriminate].
  destruct (half_step b2 e 0 r2 target (vneg vt) (l_point l1)) as [l2|] eqn:H2; [|discriminate].
  injection H as <-. cbn [i_leg1 i_leg2 i_pos3 i_md] in *.
  pose proof (half_step_some _ _ _ _ _ _ _ _ U1 E G1 H1) as E1. pose proof (half_step_some _ _ _ _ _ _ _ _ (vneg_unit' _ U2) E G2 H2) as E2.
  rewrite E1 in G1. rewrite E2 in G2.
  destruct (half_step_turn b1 e r1 pos1 vec1 pos3 U1 E R1 G1) as (k1 & K1 & _ & _ & P1 & B1 & T1 & C1 & W1). rewrite H1 in K1. injection K1 as <-.
  destruct (half_step_turn b2 e r2 target (vneg vt) (l_point l1) (vneg_unit' _ U2) E R2 G2) as (k2 & K2 & _ & _ & P2 & B2 & T2 & C2 & W2). rewrite H2 in K2. injection K2 as <-.
  assert (PE : l_point l2 = pos3).
  { apply V3_eq; [apply (f_equal vx) in F|apply (f_equal vy) in F|apply (f_equal vz) in F]; cbn in F; lra. }
  rewrite PE in W2.
  assert (Q1 : pos3 = vadd (l_point l1) (vscale (l_tangent l1) (l_head l1))) by (destruct W1 as (? & ? & ? & ? & ? & ? & Q); exact Q).
  assert (Q2 : l_point l1 = vadd pos3 (vscale (l_tangent l2) (l_head l2))) by (destruct W2 as (? & ? & ? & ? & ? & ? & Q); exact Q).
  pose proof (turn_head _ _ _ _ _ _ _ _ U1 W1) as N1. pose proof (turn_head _ _ _ _ _ _ _ _ (vneg_unit' _ U2) W2) as N2.
  assert (Z : vadd (vscale (l_tangent l1) (l_head l1)) (vscale (l_tangent l2) (l_head l2)) = vzero).
  { rewrite Q1 in Q2. apply V3_eq; [apply (f_equal vx) in Q2|apply (f_equal vy) in Q2|apply (f_equal vz) in Q2]; cbn in Q2 |- *; lra. }
  assert (TT : l_tangent l1 = l_tangent l2).
  { assert (X : vscale (l_tangent l1) (l_head l1) = vneg (vscale (l_tangent l2) (l_head l2))).
    { apply V3_eq; [apply (f_equal vx) in Z|apply (f_equal vy) in Z|apply (f_equal vz) in Z]; cbn in Z |- *; lra. }
    apply (f_equal (fun v => dot v v)) in X. rewrite dot_vneg_l, dot_vneg_r, !dot_vscale_l, !dot_vscale_r, N1, N2 in X. nra. }
  assert (HH : l_head l2 = vneg (l_head l1)).
  { rewrite <- TT in Z. apply V3_eq; [apply (f_equal vx) in Z|apply (f_equal vy) in Z|apply (f_equal vz) in Z]; cbn in Z |- *;
      apply Rmult_eq_reg_l with (l_tangent l1); lra. }
  split; [exact E1|]. split; [exact E2|]. split.
  - split; [exact W1|]. rewrite TT, <- HH. exact W2.
  - rewrite (Rmax_left (l_tangent l2) 0) by lra. rewrite C1, C2, TT. ring.
Qed.
Lemma fixed_complete : forall b1 b2 e r1 r2 pos1 vec1 md1 target vt pos3 a len b m1 w, is_unit vec1 -> is_unit vt -> 0 <= e < 1 -> 0 < r1 -> 0 < r2 ->
  regular pos1 vec1 pos3 r1 -> regular target (vneg vt) m1 r2 ->
  r1 <= reach pos1 vec1 pos3 e -> r2 <= reach target (vneg vt) m1 e ->
  0 <= a < 2 * PI -> 0 <= b < 2 * PI -> 0 <= len ->
  curve_hold_curve pos1 vec1 target vt r1 r2 a len b m1 pos3 w ->
  exists i, solver_pass b1 b2 e 0 r1 r2 pos1 vec1 md1 target vt pos3 = Some i /\ i_pos3 i = pos3 /\
    l_dogleg (i_leg1 i) = a /\ l_dogleg (i_leg2 i) = b /\ l_tangent (i_leg1 i) = len /\ l_head (i_leg1 i) = w /\
    l_point (i_leg1 i) = m1 /\ l_radius (i_leg1 i) = r1 /\ l_radius (i_leg2 i) = r2 /\ i_md i = md1 + r1 * a + len + r2 * b /\
    (0 < len -> i_vec23 i = w).
Proof.
  intros b1 b2 e r1 r2 pos1 vec1 md1 target vt pos3 a len b m1 w U1 U2 E R1 R2 G1 G2 L1 L2 A B LE [W1 W2].
  pose proof (Rmin_left r1 _ L1) as M1. pose proof (Rmin_left r2 _ L2) as M2.
  destruct (half_step_turn b1 e r1 pos1 vec1 pos3 U1 E R1) as (l1 & H1 & _ & Q1 & _ & D1 & T1 & C1 & X1); [rewrite M1; exact G1|].
  rewrite M1 in Q1. rewrite Q1 in X1, C1. 
  assert (D1' : 0 <= l_dogleg l1 < 2 * PI) by lra.
  destruct (turn_unique _ _ _ _ _ _ _ _ _ _ _ _ U1 R1 (proj1 (proj2 G1)) LE T1 A D1' W1 X1) as (EA & EL1 & EM1 & EH1).
  destruct (half_step_turn b2 e r2 target (vneg vt) m1 (vneg_unit' _ U2) E R2) as (l2 & H2 & TO & Q2 & _ & D2 & T2 & C2 & X2); [rewrite M2; exact G2|].
  rewrite M2 in Q2. rewrite Q2 in X2, C2. assert (D2' : 0 <= l_dogleg l2 < 2 * PI) by lra.
  destruct (turn_unique _ _ _ _ _ _ _ _ _ _ _ _ (vneg_unit' _ U2) R2 (proj1 (proj2 G2)) LE T2 B D2' W2 X2) as (EB & EL & EM & EH).
  unfold solver_pass. rewrite H1, <- EM1, H2. eexists. split; [reflexivity|]. cbn [i_leg1 i_leg2 i_pos3 i_md i_vec23].
  assert (P3 : vadd (vscale (1 / 2) (l_point l2)) (vscale (1 / 2) pos3) = pos3).
  { rewrite <- EM. apply V3_eq; cbn; field. }
  rewrite P3. split; [reflexivity|]. split; [auto|]. split; [auto|]. split; [auto|]. split; [auto|]. split; [auto|]. split; [auto|]. split; [auto|]. split.
  - rewrite (Rmax_left (l_tangent l2) 0) by lra. rewrite C1, C2, <- EL, EA, EB. reflexivity.
  - intro LP. rewrite TO.
    assert (Q : pos3 = vadd m1 (vscale len w)) by (destruct W1 as (? & ? & ? & ? & ? & ? & Q); exact Q).
    assert (N1 : dot w w = 1) by (exact (turn_head _ _ _ _ _ _ _ _ U1 W1)).
    assert (X : vsub pos3 m1 = vscale len w). { rewrite Q. vring. }
    rewrite X, norm_vscale, Rabs_pos_eq by lra. replace (norm w) with 1 by (symmetry; apply norm_1; exact N1).
    rewrite Rmult_1_r. destruct (Req_EM_T len 0); [lra|]. destruct w as [w1 w2 w3]. apply V3_eq; cbn; field; lra.
Qed.

(** seen forwards: two arcs and a straight line *)
Lemma path_forward : forall p u q v r1 r2 a len b m1 m2 w, 0 < r1 -> 0 < r2 -> is_unit u -> is_unit v ->
  curve_hold_curve p u q v r1 r2 a len b m1 m2 w ->
  circular_arc p u (r1 * a) a m1 w /\ m2 = vadd m1 (vscale len w) /\ circular_arc m2 w (r2 * b) b q v.
Proof.
  intros p u q v r1 r2 a len b m1 m2 w R1 R2 U V [(n & N & O & _ & M & W & Q) (k & K & J & _ & M' & W' & _)].
  split; [exists n, r1; auto 8|]. split; [exact Q|].
  exists (vadd (vscale (cos b) k) (vscale (sin b) v)), r2. pose proof (sin2_cos2' b) as SC.
  assert (WV : w = vsub (vscale (cos b) v) (vscale (sin b) k)).
  { apply V3_eq; [apply (f_equal vx) in W'|apply (f_equal vy) in W'|apply (f_equal vz) in W']; unfold arc_tangent in W'; cbn in W' |- *; lra. }
  assert (KV : dot k v = 0). { unfold orthogonal in J. rewrite dot_vneg_l in J. rewrite dot_comm. lra. }
  unfold is_unit, orthogonal in *. split; [|split; [|split; [|split]]].
  - rewrite !dot_vadd_l, !dot_vadd_r, !dot_vscale_l, !dot_vscale_r, K, V, (dot_comm v k), KV. lra.
  - rewrite WV. replace (vsub (vscale (cos b) v) (vscale (sin b) k)) with (vadd (vscale (cos b) v) (vscale (- sin b) k)) by vring.
    rewrite !dot_vadd_l, !dot_vadd_r, !dot_vscale_l, !dot_vscale_r, K, V, (dot_comm v k), KV. ring.
  - reflexivity.
  - rewrite M', WV. unfold arc_point. clear - SC. set (co := cos b) in *. set (si := sin b) in *. clearbody co si.
    destruct q as [q1 q2 q3], v as [v1 v2 v3], k as [k1 k2 k3]. apply V3_eq; cbn; nsatz.
  - rewrite WV. unfold arc_tangent. clear - SC. set (co := cos b) in *. set (si := sin b) in *. clearbody co si.
    destruct v as [v1 v2 v3], k as [k1 k2 k3]. apply V3_eq; cbn; nsatz.
Qed.

(** ** the loop *)
Lemma unit_not_settled : forall e w, 0 <= e < 1 -> dot w w = 1 -> settled_dec e w vzero = false.
Proof.
  intros e w E W. unfold settled_dec. cbn [vx vy vz vzero]. rewrite !Rabs_R0, !Rmult_0_r, !Rplus_0_r, !Rminus_0_r.
  destruct (Rle_dec (Rabs (vx w)) _) as [X|X]; [|reflexivity]. destruct (Rle_dec (Rabs (vy w)) _) as [Y|Y]; [|reflexivity].
  destruct (Rle_dec (Rabs (vz w)) _) as [Z|Z]; [|reflexivity]. exfalso. unfold dot in W.
  assert (K : forall x, Rabs x <= e * (1 / 10) -> x * x <= 1 / 100).
  { intros x Hx. rewrite <- (Rabs_pos_eq (x * x)) by nra. rewrite Rabs_mult. pose proof (Rabs_pos x). nra. }
  pose proof (K _ X). pose proof (K _ Y). pose proof (K _ Z). lra.
Qed.
Lemma same_settled : forall e w, 0 <= e -> settled_dec e w w = true.
Proof.
  intros e w E. unfold settled_dec.
  assert (K : forall x, Rabs (x - x) <= e * (1 / 10) + e * 10 * Rabs x).
  { intro x. rewrite Rminus_diag_eq, Rabs_R0 by reflexivity. pose proof (Rabs_pos x). nra. }
  destruct (Rle_dec _ _) as [_|N]; [|exfalso; apply N, K]. destruct (Rle_dec _ _) as [_|N]; [|exfalso; apply N, K].
  destruct (Rle_dec _ _) as [_|N]; [|exfalso; apply N, K]. reflexivity.
Qed.
(** started on a path the loop stays on it and ends after the second pass *)
Lemma loop_fixed : forall bumps n e r1 r2 pos1 vec1 md1 target vt pos3 a len b m1 w, is_unit vec1 -> is_unit vt -> 0 <= e < 1 -> 0 < r1 -> 0 < r2 ->
  regular pos1 vec1 pos3 r1 -> regular target (vneg vt) m1 r2 ->
  r1 <= reach pos1 vec1 pos3 e -> r2 <= reach target (vneg vt) m1 e ->
  0 <= a < 2 * PI -> 0 <= b < 2 * PI -> 0 < len ->
  curve_hold_curve pos1 vec1 target vt r1 r2 a len b m1 pos3 w ->
  exists i j, solver_loop bumps (S (S n)) e 0 r1 r2 pos1 vec1 md1 target vt pos3 vzero = Some [i; j] /\
    i_pos3 j = pos3 /\ i_vec23 j = w /\ l_dogleg (i_leg1 j) = a /\ l_dogleg (i_leg2 j) = b /\ l_tangent (i_leg1 j) = len /\ i_md j = md1 + r1 * a + len + r2 * b.
Proof.
  intros bumps n e r1 r2 pos1 vec1 md1 target vt pos3 a len b m1 w U1 U2 E R1 R2 G1 G2 L1 L2 A B LE C.
  pose proof (turn_head _ _ _ _ _ _ _ _ U1 (proj1 C)) as N1. assert (LE' : 0 <= len) by lra.
  destruct (fixed_complete (fst (bumps (S (S n)))) (snd (bumps (S (S n)))) e r1 r2 pos1 vec1 md1 target vt pos3 a len b m1 w U1 U2 E R1 R2 G1 G2 L1 L2 A B LE' C)
    as (i & P & Q & _ & _ & _ & _ & _ & _ & _ & _ & V).
  destruct (fixed_complete (fst (bumps (S n))) (snd (bumps (S n))) e r1 r2 pos1 vec1 md1 target vt pos3 a len b m1 w U1 U2 E R1 R2 G1 G2 L1 L2 A B LE' C)
    as (j & P' & Q' & D1 & D2 & T & _ & _ & _ & _ & MD & V').
  exists i, j. split; [|auto 8].
  cbn [solver_loop]. rewrite P, (V LE), (unit_not_settled e w E N1), Q, P', (V' LE), (same_settled e w) by lra. reflexivity.
Qed.
Lemma loop_length : forall bumps n e mt r1 r2 pos1 vec1 md1 target vt pos3 vec_old l,
  solver_loop bumps n e mt r1 r2 pos1 vec1 md1 target vt pos3 vec_old = Some l ->
  (length l <= n)%nat /\ ((length l < n)%nat -> exists before i, l = before ++ [i] /\
    settled_dec e (i_vec23 i) (match rev before with [] => vec_old | k :: _ => i_vec23 k end) = true).
Proof.
  intros bumps n e mt r1 r2 pos1 vec1 md1 target vt. induction n as [|n IH]; intros pos3 vec_old l H; cbn [solver_loop] in H.
  - injection H as <-. split; [auto|]. cbn. lia.
  - destruct (solver_pass _ _ _ _ _ _ _ _ _ _ _ _) as [i|]; [|discriminate].
    destruct (settled_dec e (i_vec23 i) vec_old) eqn:S0.
    + injection H as <-. split; [cbn; lia|]. intros _. exists [], i. auto.
    + destruct (solver_loop _ n _ _ _ _ _ _ _ _ _ _ _) as [k|] eqn:K; [|discriminate]. injection H as <-.
      destruct (IH _ _ _ K) as [I1 I2]. split; [cbn; lia|]. intro LT. cbn in LT. destruct I2 as (before & j & -> & ST); [lia|].
      exists (i :: before), j. split; [reflexivity|]. cbn [rev]. destruct (rev before) as [|x rb]; cbn [app]; exact ST.
Qed.
Lemma running_minimum_falls : forall e r rc rt, 0 <= e -> 0 < r -> 0 <= rt ->
  match rc with Some x => 0 <= x | None => True end ->
  match running_minimum e r rc rt with
  | Some y => 0 <= y /\ match rc with Some x => y <= x | None => y = rt end
  | None => rc = None
  end.
Proof.
  intros e r rc rt E R0 T X. unfold running_minimum. destruct rc as [x|]; cbn [rmin_inf].
  - pose proof (Rmin_l x (r * (1 - e * 100))). destruct (Rlt_dec rt _) as [L|L]; split; lra.
  - destruct (Rlt_dec rt _); auto.
Qed.

(** ** the first point *)
Lemma across_unit : forall pos1 vec1 target, is_unit vec1 -> is_unit (across pos1 vec1 target) /\ orthogonal vec1 (across pos1 vec1 target).
Proof.
  intros pos1 vec1 target U. unfold across. cbv zeta. set (d := vsub (vsub target pos1) (vscale (dot (vsub target pos1) vec1) vec1)).
  assert (S0 : forall c, norm c <> 0 -> is_unit (vscale (/ norm c) c)).
  { intros c N. unfold is_unit. rewrite dot_vscale_l, dot_vscale_r, <- norm_sqr. field. exact N. }
  destruct (Rlt_dec _ (norm d)) as [L|L].
  - split; [apply S0; lra|]. unfold orthogonal. rewrite dot_vscale_r. replace (dot vec1 d) with 0; [ring|].
    unfold d. unfold is_unit in U. replace (vsub (vsub target pos1) (vscale (dot (vsub target pos1) vec1) vec1)) with (vadd (vsub target pos1) (vscale (- dot (vsub target pos1) vec1) vec1)) by vring.
    rewrite dot_vadd_r, dot_vscale_r, U, (dot_comm (vsub target pos1) vec1). ring.
  - set (arb := if Rlt_dec _ _ then _ else _). cbv zeta.
    assert (N : cross vec1 arb <> vzero).
    { intro Z. subst arb. unfold is_unit, dot in U. destruct vec1 as [a b g]. unfold dot in Z. cbn in U, Z.
      destruct (Rlt_dec (9 / 10) (Rabs (a * 1 + b * 0 + g * 0))) as [P|P]; injection Z as Z1 Z2 Z3.
      - assert (a = 0) by lra. subst a. replace (0 * 1 + b * 0 + g * 0) with 0 in P by ring. rewrite Rabs_R0 in P. lra.
      - assert (b = 0 /\ g = 0) as [-> ->] by lra. assert (a * a = 1) by lra. apply P. replace (a * 1 + 0 * 0 + 0 * 0) with a by ring.
        unfold Rabs. destruct (Rcase_abs a); nra. }
    split; [apply S0; intro Z; apply N, norm_eq0, Z|]. unfold orthogonal. rewrite dot_vscale_r. replace (dot vec1 (cross vec1 arb)) with 0; [ring|].
    unfold dot, cross. destruct vec1, arb. cbn. ring.
Qed.
Lemma across2_unit : forall vec1 perp, is_unit vec1 -> is_unit perp -> orthogonal vec1 perp ->
  across2 vec1 perp = cross vec1 perp /\ is_unit (across2 vec1 perp) /\ orthogonal vec1 (across2 vec1 perp) /\ orthogonal perp (across2 vec1 perp).
Proof.
  intros v p U P O. unfold across2.
  assert (N : dot (cross v p) (cross v p) = 1).
  { unfold is_unit, orthogonal, dot, cross in *. destruct v as [a b c], p as [x y z]. cbn in *. nsatz. }
  rewrite (norm_1 _ N). destruct (Rlt_dec _ 1) as [_|L]; [|lra].
  assert (X : vscale (/ 1) (cross v p) = cross v p). { rewrite Rinv_1. generalize (cross v p). intro c. vring. }
  rewrite X. split; [reflexivity|]. split; [exact N|]. split; unfold orthogonal, dot, cross; destruct v, p; cbn; ring.
Qed.
Lemma candidate_place : forall r pos1 vec1 perp, 0 < r -> is_unit vec1 -> is_unit perp -> orthogonal vec1 perp ->
  ahead pos1 vec1 (candidate r pos1 vec1 perp) = r /\ off_axis pos1 vec1 (candidate r pos1 vec1 perp) = 2 * r /\
  tangent_circle_radius pos1 vec1 (candidate r pos1 vec1 perp) = 5 / 4 * r.
Proof.
  intros r p v n R0 U N O. unfold is_unit, orthogonal in *.
  assert (D : vsub (candidate r p v n) p = vadd (vscale r v) (vscale (2 * r) n)) by (unfold candidate; vring).
  assert (A : ahead p v (candidate r p v n) = r).
  { unfold ahead. rewrite D, dot_vadd_l, !dot_vscale_l, U, (dot_comm n v), O. ring. }
  assert (NN : dot (vsub (candidate r p v n) p) (vsub (candidate r p v n) p) = 5 * (r * r)).
  { rewrite D, !dot_vadd_l, !dot_vadd_r, !dot_vscale_l, !dot_vscale_r, U, N, (dot_comm n v), O. ring. }
  assert (OA : off_axis p v (candidate r p v n) = 2 * r).
  { pose proof (off_axis_sqr p v (candidate r p v n) U) as S0. rewrite NN, A in S0. pose proof (off_axis_ge0 p v (candidate r p v n)). nra. }
  split; [exact A|]. split; [exact OA|]. unfold tangent_circle_radius. rewrite NN, OA. field. lra.
Qed.
(** every candidate is where the angle is zero divided by zero: the step takes no turn *)
Lemma candidate_singular : forall b e r pos1 vec1 perp, 0 <= e <= 1 / 5 -> 0 < r -> is_unit vec1 -> is_unit perp -> orthogonal vec1 perp ->
  ~ allclose pos1 (candidate r pos1 vec1 perp) ->
  turn_then_straight pos1 vec1 r (PI / 2) r (vadd (vadd pos1 (vscale r vec1)) (vscale r perp)) (candidate r pos1 vec1 perp) perp /\
  exists l, half_step b e 0 r pos1 vec1 (candidate r pos1 vec1 perp) = Some l /\
    l_radius l = r /\ l_dogleg l = 0 /\ l_tangent l = r /\ l_head l = vec1 /\ l_point l = vadd pos1 (vscale (2 * r) perp).
Proof.
  intros b e r p v n E R0 U N O NC. destruct (candidate_place r p v n R0 U N O) as (A & OA & T). split.
  - exists n. split; [exact N|]. split; [exact O|]. split; [|split; [|split]].
    + unfold candidate. replace (vsub (vadd (vadd p (vscale r v)) (vscale (2 * r) n)) p) with (vadd (vscale r v) (vscale (2 * r) n)) by vring.
      unfold is_unit, orthogonal in *. rewrite dot_vadd_r, !dot_vscale_r, N, dot_comm, O. lra.
    + unfold arc_point. rewrite sin_PI2, cos_PI2. vring.
    + unfold arc_tangent. rewrite sin_PI2, cos_PI2. vring.
    + unfold candidate. vring.
  - set (q := candidate r p v n) in *.
    assert (G : get_distances b p v q = (q, dist_triple p v q)).
    { destruct (get_distances b p v q) as [q' ds] eqn:G. assert (O0 : 0 < off_axis p v q) by lra. pose proof (get_distances_pos _ _ _ _ _ _ U O0 G) as ->.
      unfold get_distances in G. injection G as G1 G2. rewrite G1 in G2. destruct (allclose_dec p q); [tauto|]. rewrite <- G2. reflexivity. }
    assert (C : Rmin r (get_radius_critical (dist_triple p v q) e) = r).
    { rewrite (critical_eq p v q e U) by lra. rewrite T. apply Rmin_left. nra. }
    unfold half_step. rewrite G, C. pose proof (frame_sqr p v q U) as F. rewrite dist_triple_spec by auto. unfold min_dist_to_target. rewrite F, A, OA.
    replace (r ^ 2 + (2 * r) ^ 2 - 2 * r * (2 * r)) with (r * r) by ring. rewrite sqrt_square by lra. destruct (Rlt_dec (r * r) 0); [nra|]. cbv zeta.
    replace (r - r) with 0 by ring. replace (2 * r - 2 * r) with 0 by ring.
    assert (Z : arctan2 0 0 = 0). { unfold arctan2. destruct (Rlt_dec 0 0); [lra|]. reflexivity. }
    rewrite Z. replace (check_dogleg (2 * 0)) with 0 by (unfold check_dogleg; destruct (Rlt_dec (2 * 0) 0); lra).
    unfold get_curve_hold_data, get_vec_target. destruct (Req_EM_T (r * 0) 0) as [_|W]; [|exfalso; apply W; ring].
    eexists. split; [reflexivity|]. cbn [l_radius l_dogleg l_tangent l_head l_point]. rewrite Rmax_left by lra. repeat split; auto.
    unfold q, candidate. vring.
Qed.
(** the first point is one the target can be reached from, when a candidate is *)
Lemma choose_spec : forall bumps e r1 r2 pos1 vec1 target vt perps best, is_unit vt -> 
  (forall n, In n perps -> 0 < off_axis target (vneg vt) (candidate r1 pos1 vec1 n) /\ ~ allclose target (candidate r1 pos1 vec1 n)) ->
  let c := choose bumps e r1 r2 pos1 vec1 target vt perps best in
  (exists n, In n perps /\ c = candidate r1 pos1 vec1 n /\ r2 <= reach target (vneg vt) c e) \/
  ((forall n, In n perps -> reach target (vneg vt) (candidate r1 pos1 vec1 n) e < r2) /\
   ((c = snd best /\ (forall n, In n perps -> match fst best with Some b => reach target (vneg vt) (candidate r1 pos1 vec1 n) e <= b | None => False end)) \/
    (exists n, In n perps /\ c = candidate r1 pos1 vec1 n /\
      (forall m, In m perps -> reach target (vneg vt) (candidate r1 pos1 vec1 m) e <= reach target (vneg vt) c e) /\
      match fst best with Some b => b < reach target (vneg vt) c e | None => True end))).
Proof.
  intros bumps e r1 r2 pos1 vec1 target vt perps best UT. revert best. pose proof (vneg_unit' _ UT) as UN.
  induction perps as [|p more IH]; intros best H; cbv zeta.
  - right. split; [intros ? []|]. left. split; [reflexivity|intros ? []].
  - cbn [choose]. destruct (H p (or_introl eq_refl)) as [O NC].
    set (q := candidate r1 pos1 vec1 p) in *.
    assert (G : forall b, get_distances b target (vneg vt) q = (q, dist_triple target (vneg vt) q)).
    { intro b. destruct (get_distances b target (vneg vt) q) as [q' ds] eqn:G. pose proof (get_distances_pos _ _ _ _ _ _ UN O G) as ->.
      unfold get_distances in G. injection G as G1 G2. rewrite G1 in G2. destruct (allclose_dec target q); [tauto|]. rewrite <- G2. reflexivity. }
    rewrite G. rewrite (critical_eq target (vneg vt) q e UN) by lra. fold (reach target (vneg vt) q e). set (rc := reach target (vneg vt) q e) in *.
    destruct (Rle_dec r2 rc) as [L|L]; [left; exists p; auto using in_eq|].
    assert (HM : forall n, In n more -> 0 < off_axis target (vneg vt) (candidate r1 pos1 vec1 n) /\ ~ allclose target (candidate r1 pos1 vec1 n)) by (intros n I; apply H; right; exact I).
    set (nb := if _ : bool then _ else _). destruct (IH nb HM) as [(n & I & C & X)|(ALL & D)]; [left; exists n; auto using in_cons|].
    right. split; [intros n [<-|I]; [fold q rc; lra|auto]|].
    set (c := choose bumps e r1 r2 pos1 vec1 target vt more nb) in *. clearbody c.
    destruct D as [(-> & LE)|(n & I & -> & LE & BT)].
    + destruct best as [[bb|] bc]; cbn [fst] in nb; unfold nb in *; clear nb.
      * destruct (Rlt_dec bb rc) as [LT|GE]; cbn [fst snd] in *.
        -- right. exists p. split; [auto using in_eq|]. split; [reflexivity|]. split; [|exact LT]. intros m [<-|I]; [apply Rle_refl|]. fold q rc. apply LE, I.
        -- left. split; [reflexivity|]. intros n [<-|I]; [fold q rc; lra|apply LE, I].
      * cbn [fst snd] in *. right. exists p. split; [auto using in_eq|]. split; [reflexivity|]. split; [|exact I]. intros m [<-|J]; [apply Rle_refl|]. fold q rc. apply LE, J.
    + right. exists n. split; [auto using in_cons|]. split; [reflexivity|].
      assert (Q : rc <= reach target (vneg vt) (candidate r1 pos1 vec1 n) e /\ match fst best with Some b => b < reach target (vneg vt) (candidate r1 pos1 vec1 n) e | None => True end).
      { destruct best as [[bb|] bc]; cbn [fst] in nb; unfold nb in BT; [destruct (Rlt_dec bb rc)|]; cbn [fst] in *; split; auto; lra. }
      split; [|apply Q]. intros m [<-|J]; [apply Q|auto].
Qed.

(** ** the first point as a whole *)
Lemma four_ways_units : forall pos1 vec1 target n, is_unit vec1 -> In n (four_ways pos1 vec1 target) -> is_unit n /\ orthogonal vec1 n.
Proof.
  intros pos1 vec1 target n U I. unfold four_ways in I. cbv zeta in I. destruct (across_unit pos1 vec1 target U) as [A B].
  destruct (across2_unit vec1 (across pos1 vec1 target) U A B) as (_ & C & D & _).
  assert (NO : forall x, orthogonal vec1 x -> orthogonal vec1 (vneg x)) by (intros x Hx; unfold orthogonal in *; rewrite dot_vneg_r; lra).
  destruct I as [<-|[<-|[<-|[<-|[]]]]]; auto using vneg_unit'.
Qed.
Lemma first_choice : forall bumps e r1 r2 pos1 vec1 target vt, is_unit vec1 -> is_unit vt ->
  (forall n, In n (four_ways pos1 vec1 target) -> 0 < off_axis target (vneg vt) (candidate r1 pos1 vec1 n) /\ ~ allclose target (candidate r1 pos1 vec1 n)) ->
  let c := choose bumps e r1 r2 pos1 vec1 target vt (four_ways pos1 vec1 target) (None, candidate r1 pos1 vec1 (across pos1 vec1 target)) in
  exists n, In n (four_ways pos1 vec1 target) /\ c = candidate r1 pos1 vec1 n /\
    (r2 <= reach target (vneg vt) c e \/ forall m, In m (four_ways pos1 vec1 target) ->
      reach target (vneg vt) (candidate r1 pos1 vec1 m) e < r2 /\ reach target (vneg vt) (candidate r1 pos1 vec1 m) e <= reach target (vneg vt) c e).
Proof.
  intros bumps e r1 r2 pos1 vec1 target vt U1 U2 H c.
  destruct (choose_spec bumps e r1 r2 pos1 vec1 target vt (four_ways pos1 vec1 target) (None, candidate r1 pos1 vec1 (across pos1 vec1 target)) U2 H)
    as [(n & I & C & X)|(ALL & [(_ & F)|(n & I & C & X & _)])].
  - exists n. auto.
  - exfalso. apply (F (across pos1 vec1 target)). left. reflexivity.
  - exists n. split; [exact I|]. split; [exact C|]. right. auto.
Qed.
Lemma critical_triple : forall b p u q q' ds e r, is_unit u -> 0 < r -> get_distances b p u q = (q', ds) -> r <= get_radius_critical ds e ->
  0 < off_axis p u q' /\ get_radius_critical ds e = reach p u q' e /\ (q' = q \/ off_axis p u q = 0).
Proof.
  intros b p u q q' [[d a] n] e r U R0 G L. assert (N : n <> 0).
  { intros ->. unfold get_radius_critical in L. destruct (Req_EM_T 0 0); lra. }
  destruct (get_distances_triple _ _ _ _ _ _ _ _ G N) as [NC T]. rewrite T. pose proof (dist_triple_spec p u q' U) as D. rewrite D in T. injection T as _ _ T.
  assert (NN : off_axis p u q' <> 0) by congruence. pose proof (off_axis_ge0 p u q').
  split; [lra|]. split; [rewrite (critical_eq p u q' e U) by auto; reflexivity|].
  destruct (Req_dec (off_axis p u q) 0) as [Z|Z]; [auto|]. left. pose proof (off_axis_ge0 p u q). assert (P : 0 < off_axis p u q) by lra.
  exact (get_distances_pos _ _ _ _ _ _ U P G).
Qed.
Lemma first_point_spec : forall b1 b2 b3 b4 bumps e r1 r2 pos1 vec1 target vt c, is_unit vec1 -> is_unit vt -> 0 <= e < 1 -> 0 < r1 -> 0 < r2 ->
  regular pos1 vec1 target (Rmin r1 (reach pos1 vec1 target e)) -> regular target (vneg vt) pos1 (Rmin r2 (reach target (vneg vt) pos1 e)) ->
  (forall n, is_unit n -> orthogonal vec1 n -> 0 < off_axis target (vneg vt) (candidate r1 pos1 vec1 n) /\ ~ allclose target (candidate r1 pos1 vec1 n)) ->
  first_point b1 b2 b3 b4 bumps e 0 r1 r2 pos1 vec1 target vt = Some c ->
  (exists m m' t t' len len' v v' q,
     turn_then_straight pos1 vec1 (Rmin r1 (reach pos1 vec1 target e)) t len m target v /\
     turn_then_straight target (vneg vt) (Rmin r2 (reach target (vneg vt) pos1 e)) t' len' m' pos1 v' /\
     0 <= len /\ 0 <= len' /\ 0 < t < 2 * PI /\ 0 < t' < 2 * PI /\
     (q = vscale (1 / 2) (vadd m m') \/ off_axis pos1 vec1 (vscale (1 / 2) (vadd m m')) = 0) /\ (c = q \/ off_axis target (vneg vt) q = 0) /\
     r1 <= reach pos1 vec1 q e /\ r2 <= reach target (vneg vt) c e) \/
  (exists n, is_unit n /\ orthogonal vec1 n /\ c = candidate r1 pos1 vec1 n).
Proof.
  intros b1 b2 b3 b4 bumps e r1 r2 pos1 vec1 target vt c U1 U2 E R1 R2 G1 G2 HC H. unfold first_point in H.
  destruct (half_step_turn b1 e r1 pos1 vec1 target U1 E R1 G1) as (l1 & H1 & TO1 & Q1 & _ & D1 & T1 & _ & W1). rewrite H1, TO1 in H.
  destruct (half_step_turn b2 e r2 target (vneg vt) pos1 (vneg_unit' _ U2) E R2 G2) as (l2 & H2 & TO2 & Q2 & _ & D2 & T2 & _ & W2). rewrite H2, TO2 in H. cbv zeta in H.
  rewrite Q1 in W1. rewrite Q2 in W2.
  assert (CH : forall c', choose bumps e r1 r2 pos1 vec1 target vt (four_ways pos1 vec1 target)
      (None, candidate r1 pos1 vec1 (across pos1 vec1 target)) = c' -> exists n, is_unit n /\ orthogonal vec1 n /\ c' = candidate r1 pos1 vec1 n).
  { intros c' <-. destruct (first_choice bumps e r1 r2 pos1 vec1 target vt U1 U2) as (n & I & C & _).
    - intros n I. destruct (four_ways_units _ _ _ _ U1 I). auto.
    - exists n. destruct (four_ways_units _ _ _ _ U1 I). split; [auto|]. split; [auto|]. exact C. }
  replace (vadd (l_point l1) (vscale (1 / 2) (vsub (l_point l2) (l_point l1)))) with (vscale (1 / 2) (vadd (l_point l1) (l_point l2))) in H by (apply V3_eq; cbn; field).
  destruct (get_distances b3 pos1 vec1 _) as [mid1 d1] eqn:GA. destruct (get_distances b4 target (vneg vt) mid1) as [mid d2] eqn:GB.
  destruct (Rle_dec r1 (get_radius_critical d1 e)) as [L1|L1].
  - destruct (Rle_dec r2 (get_radius_critical d2 e)) as [L2|L2]; injection H as H.
    + left. subst c. destruct (critical_triple _ _ _ _ _ _ _ _ U1 R1 GA L1) as (A1 & A2 & A3). destruct (critical_triple _ _ _ _ _ _ _ _ (vneg_unit' _ U2) R2 GB L2) as (B1 & B2 & B3).
      rewrite A2 in L1. rewrite B2 in L2.
      exists (l_point l1), (l_point l2), (l_dogleg l1), (l_dogleg l2), (l_tangent l1), (l_tangent l2), (l_head l1), (l_head l2), mid1. auto 20.
    + right. apply CH, H.
  - injection H as H. right. apply CH, H.
Qed.

(** ** the calls of the solver *)
Lemma balance_calls : forall solve stop n k s, (snd (balance solve stop k n s) <= n)%nat.
Proof.
  intros solve stop. induction n as [|n IH]; intros k s; cbn [balance]; [cbn; lia|].
  destruct (balanced_radius s) as [rc|]; [|cbn; lia]. cbv zeta. set (s1 := solve _ _ _ _ _). destruct (stop k s1); [cbn; lia|].
  specialize (IH (S k) s1). destruct (balance solve stop (S k) n s1) as [s2 c]. cbn in *. lia.
Qed.
Lemma calls_bound : forall solve stop n s, (1 <= snd (solver_calls solve stop n s) <= 3 + n)%nat.
Proof.
  intros solve stop n s. unfold solver_calls. cbv zeta. set (s1 := solve _ _ _ _ _). destruct (design_missed s1); [|cbn; lia].
  assert (C : (snd (second_attempt solve 1 s1) <= 2)%nat).
  { unfold second_attempt. cbv zeta. destruct (rmin_inf _ _) as [m|]; destruct (Rlt_dec 0 _); cbn; try lia. destruct (Rlt_dec _ m); cbn; lia. }
  destruct (second_attempt solve 1 s1) as [s2 c2]. cbn [snd] in C. destruct (design_missed s2); [|cbn; lia].
  pose proof (balance_calls solve stop n (1 + c2) s2). destruct (balance solve stop (1 + c2) n s2). cbn in *. lia.
Qed.
Lemma calls_one : forall solve stop n s, let s1 := solve O (p_rd (s_prob s)) (p_rd2 (s_prob s)) None s in
  design_missed s1 = false -> solver_calls solve stop n s = (s1, 1%nat).
Proof. intros solve stop n s s1 H. unfold solver_calls. cbv zeta. fold s1. rewrite H. reflexivity. Qed.
Definition same_inputs (a b : chc) : Prop := s_prob a = s_prob b /\ s_target a = s_target b /\ s_vtarget a = s_vtarget b.
Lemma same_inputs_trans : forall a b c, same_inputs a b -> same_inputs b c -> same_inputs a c.
Proof. unfold same_inputs. intuition congruence. Qed.
Lemma solve_keeps : forall solve k r1 r2 seed x s, keeps_inputs solve -> same_inputs x s -> same_inputs (solve k r1 r2 seed x) s.
Proof. intros solve k r1 r2 seed x s K H. exact (same_inputs_trans _ _ _ (K k r1 r2 seed x) H). Qed.
Lemma balance_keeps : forall solve stop n k s, keeps_inputs solve -> same_inputs (fst (balance solve stop k n s)) s.
Proof.
  intros solve stop. induction n as [|n IH]; intros k s K; cbn [balance]; [unfold same_inputs; auto|].
  destruct (balanced_radius s) as [rc|]; [|unfold same_inputs; auto]. cbv zeta. set (s1 := solve _ _ _ _ _).
  assert (A : same_inputs s1 s) by (subst s1; apply solve_keeps; [exact K|unfold same_inputs; auto]). destruct (stop k s1); [exact A|].
  specialize (IH (S k) s1 K). destruct (balance solve stop (S k) n s1) as [s2 c]. cbn in *. eapply same_inputs_trans; eauto.
Qed.
Lemma attempt_keeps : forall solve k s, keeps_inputs solve -> same_inputs (fst (second_attempt solve k s)) s.
Proof.
  intros solve k s K. unfold second_attempt. cbv zeta.
  assert (A : same_inputs (fst (solve (S k) (p_rd (s_prob s)) (p_rd2 (s_prob s))
    (Some (g_pos3 (s_geo (solve k (Some (norm (vsub (s_target s) (p_pos1 (s_prob s))) / 4)) (Some (norm (vsub (s_target s) (p_pos1 (s_prob s))) / 4)) None s))))
    (reset_radii (solve k (Some (norm (vsub (s_target s) (p_pos1 (s_prob s))) / 4)) (Some (norm (vsub (s_target s) (p_pos1 (s_prob s))) / 4)) None s)), 2%nat)) s).
  { cbn [fst]. apply solve_keeps; [exact K|]. apply (solve_keeps solve k); [exact K|unfold same_inputs; auto]. }
  destruct (rmin_inf _ _) as [m|]; destruct (Rlt_dec 0 _); try (unfold same_inputs; auto; fail); try exact A. destruct (Rlt_dec _ m); [exact A|unfold same_inputs; auto].
Qed.
Lemma calls_keep : forall solve stop n s, keeps_inputs solve -> same_inputs (fst (solver_calls solve stop n s)) s.
Proof.
  intros solve stop n s K. unfold solver_calls. cbv zeta. set (s1 := solve _ _ _ _ _). assert (A : same_inputs s1 s) by (subst s1; apply solve_keeps; [exact K|unfold same_inputs; auto]).
  destruct (design_missed s1); [|exact A]. pose proof (attempt_keeps solve 1 s1 K) as B. destruct (second_attempt solve 1 s1) as [s2 c2]. cbn [fst] in B.
  destruct (design_missed s2); [|eapply same_inputs_trans; eauto].
  pose proof (balance_keeps solve stop n (1 + c2) s2 K) as C. destruct (balance solve stop (1 + c2) n s2) as [s3 c3]. cbn [fst] in *.
  eapply same_inputs_trans; [exact C|]. eapply same_inputs_trans; eauto.
Qed.
Lemma whole_path : forall solve stop n s s', keeps_inputs solve -> is_unit (p_vec1 (s_prob s)) -> is_unit (s_vtarget s) ->
  0 <= p_min_error (s_prob s) -> target_pos_and_vec_defined solve stop n s = Some s' ->
  s_target s' = s_target s /\ depths_ordered (p_md1 (s_prob s)) (s_geo s') /\
  curve_hold_curve_path (p_pos1 (s_prob s)) (p_vec1 (s_prob s)) (p_md1 (s_prob s)) (s_target s) (s_vtarget s) (s_geo s') (error_of s').
Proof.
  intros solve stop n s s' K U1 U2 E H. unfold target_pos_and_vec_defined in H.
  pose proof (calls_keep solve stop n s K) as (A & B & C). destruct (solver_calls solve stop n s) as [s1 c]. cbn [fst] in *.
  assert (KD : keeps_start_depth solve). { intros k r1 r2 seed x. destruct (K k r1 r2 seed x) as (-> & _). reflexivity. }
  rewrite <- A, <- C in *. rewrite <- B.
  destruct (chc_path solve c s1 s' K U1 U2 E H) as [P1 P2]. split; [exact P1|]. split; [|exact P2].
  exact (chc_depths solve c s1 s' KD U1 U2 E H).
Qed.
(** the miss is at most that of the last solution *)
Lemma whole_error : forall solve stop n s s' g, keeps_inputs solve -> is_unit (p_vec1 (s_prob s)) -> is_unit (s_vtarget s) ->
  0 <= p_min_error (s_prob s) -> happy_finish (fst (solver_calls solve stop n s)) = Some g -> target_pos_and_vec_defined solve stop n s = Some s' ->
  error_of s' <= error_of (set_geo (fst (solver_calls solve stop n s)) g).
Proof.
  intros solve stop n s s' g K U1 U2 E HF H. unfold target_pos_and_vec_defined in H.
  pose proof (calls_keep solve stop n s K) as (A & B & C). destruct (solver_calls solve stop n s) as [s1 c]. cbn [fst] in *.
  rewrite <- A, <- C in *. exact (chc_error solve c s1 s' g K U1 U2 E HF H).
Qed.

(** ** an example: an S of two quarter turns of radius 30 and a hold of 100 *)
Definition s_end : V3 := mkV 160 0 60.
Definition s_m1 : V3 := mkV 30 0 30.
Definition s_m2 : V3 := mkV 130 0 30.
Lemma s_units : is_unit (mkV 0 0 1) /\ is_unit (mkV 1 0 0) /\ orthogonal (mkV 0 0 1) (mkV 1 0 0).
Proof. unfold is_unit, orthogonal, dot. cbn. lra. Qed.
Lemma not_close : forall p q, 1 + / 1000 * Rabs (vx q) <= Rabs (vx p - vx q) -> ~ allclose p q.
Proof. intros p q H (C & _ & _). unfold close, rtol, atol in C. pose proof (Rabs_pos (vx q)). lra. Qed.
Lemma s_off : off_axis vzero (mkV 0 0 1) s_m2 = 130 /\ off_axis s_end (vneg (mkV 0 0 1)) s_m1 = 130.
Proof.
  split; unfold off_axis, s_m1, s_m2, s_end; (apply norm_from_sqr; [lra|]); unfold dot; cbn; ring.
Qed.
Lemma s_regular : regular vzero (mkV 0 0 1) s_m2 30 /\ regular s_end (vneg (mkV 0 0 1)) s_m1 30.
Proof.
  destruct s_off as [A B]. unfold regular. rewrite A, B.
  repeat split; try lra; apply not_close; cbn; unfold Rabs; repeat destruct (Rcase_abs _); lra.
Qed.
Lemma s_reach : 30 <= reach vzero (mkV 0 0 1) s_m2 (1 / 100000) /\ 30 <= reach s_end (vneg (mkV 0 0 1)) s_m1 (1 / 100000).
Proof. destruct s_off as [A B]. unfold reach, tangent_circle_radius. rewrite A, B. unfold dot. cbn. lra. Qed.
Lemma s_path : curve_hold_curve vzero (mkV 0 0 1) s_end (mkV 0 0 1) 30 30 (PI / 2) 100 (PI / 2) s_m1 s_m2 (mkV 1 0 0).
Proof.
  split.
  - exists (mkV 1 0 0). unfold is_unit, orthogonal, arc_point, arc_tangent. rewrite sin_PI2, cos_PI2.
    split; [|split; [|split; [|split; [|split]]]]; try (apply V3_eq; cbn; lra); unfold dot; cbn; lra.
  - exists (mkV (-1) 0 0). unfold is_unit, orthogonal, arc_point, arc_tangent. rewrite sin_PI2, cos_PI2.
    split; [|split; [|split; [|split; [|split]]]]; try (apply V3_eq; cbn; lra); unfold dot; cbn; lra.
Qed.
Lemma s_fixed : forall b1 b2, exists i, solver_pass b1 b2 (1 / 100000) 0 30 30 vzero (mkV 0 0 1) 0 s_end (mkV 0 0 1) s_m2 = Some i /\
  regular vzero (mkV 0 0 1) s_m2 (l_radius (i_leg1 i)) /\ regular s_end (vneg (mkV 0 0 1)) (l_point (i_leg1 i)) (l_radius (i_leg2 i)) /\
  i_pos3 i = s_m2 /\ 0 < l_tangent (i_leg1 i).
Proof.
  intros b1 b2. destruct s_units as (U & _). destruct s_regular as [G1 G2]. destruct s_reach as [L1 L2]. pose proof PI_RGT_0 as PP.
  assert (E : 0 <= 1 / 100000 < 1) by lra. assert (P : 0 < 30) by lra. assert (A : 0 <= PI / 2 < 2 * PI) by lra. assert (L : 0 <= 100) by lra.
  destruct (fixed_complete b1 b2 (1 / 100000) 30 30 vzero (mkV 0 0 1) 0 s_end (mkV 0 0 1) s_m2 (PI / 2) 100 (PI / 2) s_m1 (mkV 1 0 0) U U E P P G1 G2 L1 L2 A A L s_path)
    as (i & H & Q & _ & _ & T & _ & M & R1 & R2 & _).
  exists i. rewrite M, R1, R2, T. split; [exact H|]. split; [exact G1|]. split; [exact G2|]. split; [exact Q|lra].
Qed.
Lemma s_candidate : ~ allclose vzero (candidate 30 vzero (mkV 0 0 1) (mkV 1 0 0)).
Proof. apply not_close. cbn. unfold Rabs. repeat destruct (Rcase_abs _); lra. Qed.
Definition easy : solver := fun _ _ _ _ s => set_work s (mkWork None None (Some 101) (Some 101) 0).
Lemma easy_keeps : keeps_inputs easy.
Proof. intros k r1 r2 seed s. repeat split. Qed.
Lemma easy_met : design_missed (easy O (Some 100) (Some 100) None (bend_state 5)) = false.
Proof.
  unfold design_missed, easy. cbn [s_work set_work w_distances1 w_distances2 w_rc w_rc2 s_prob bend_state p_rd p_rd2].
  destruct (Rlt_dec 100 101); [reflexivity|lra].
Qed.
Lemma easy_calls : solver_calls easy (fun _ _ => true) 100 (bend_state 5) = (easy O (Some 100) (Some 100) None (bend_state 5), 1%nat).
Proof. apply calls_one. exact easy_met. Qed.
Lemma s_calls : exists g s', happy_finish (fst (solver_calls easy (fun _ _ => true) 100 (bend_state 5))) = Some g /\
  target_pos_and_vec_defined easy (fun _ _ => true) 100 (bend_state 5) = Some s'.
Proof.
  unfold target_pos_and_vec_defined. rewrite easy_calls. cbn [fst].
  destruct (happy_finish (easy O (Some 100) (Some 100) None (bend_state 5))) as [g|] eqn:H.
  - exists g. unfold finish_curve_hold_curve. rewrite H. eexists. split; reflexivity.
  - exfalso. unfold happy_finish in H. unfold easy in H.
    cbn [s_work set_work w_distances1 w_distances2 w_rc w_rc2 w_tangent s_prob bend_state p_rd p_rd2 final_radius rmin_inf s_geo g_dogleg get_curve_hold_data] in H.
    unfold get_vec_target in H at 1. destruct (Req_EM_T _ 0) as [_|N]; [|apply N; ring].
    destruct (close_path _ _ _ _ _ _) as [[? ?] ?]. discriminate.
Qed.

Lemma s_far : forall n, is_unit n -> orthogonal (mkV 0 0 1) n ->
  0 < off_axis s_end (vneg (mkV 0 0 1)) (candidate 30 vzero (mkV 0 0 1) n) /\ ~ allclose s_end (candidate 30 vzero (mkV 0 0 1) n).
Proof.
  intros [a b c] U O. unfold is_unit, orthogonal, dot in *. cbn in U, O. assert (c = 0) by lra. subst c. assert (-1 <= a <= 1) by nra. split.
  - unfold off_axis. apply norm_pos. intro Z. apply (f_equal vy) in Z. cbn in Z. lra.
  - apply not_close. cbn. unfold Rabs. repeat destruct (Rcase_abs _); lra.
Qed.
Lemma s_first : exists c, first_point vzero vzero vzero vzero (fun _ => vzero) (1 / 100000) 0 30 30 vzero (mkV 0 0 1) s_end (mkV 0 0 1) = Some c /\
  regular vzero (mkV 0 0 1) s_end (Rmin 30 (reach vzero (mkV 0 0 1) s_end (1 / 100000))) /\
  regular s_end (vneg (mkV 0 0 1)) vzero (Rmin 30 (reach s_end (vneg (mkV 0 0 1)) vzero (1 / 100000))).
Proof.
  assert (U : is_unit (mkV 0 0 1)) by (unfold is_unit, dot; cbn; lra). assert (E : 0 <= 1 / 100000 < 1) by lra. assert (P : 0 < 30) by lra.
  assert (O1 : off_axis vzero (mkV 0 0 1) s_end = 160) by (apply norm_from_sqr; [lra|]; unfold dot; cbn; ring).
  assert (O2 : off_axis s_end (vneg (mkV 0 0 1)) vzero = 160) by (apply norm_from_sqr; [lra|]; unfold dot; cbn; ring).
  assert (G1 : regular vzero (mkV 0 0 1) s_end (Rmin 30 (reach vzero (mkV 0 0 1) s_end (1 / 100000)))).
  { split; [apply not_close; cbn; unfold Rabs; repeat destruct (Rcase_abs _); lra|]. rewrite O1. split; [lra|]. pose proof (Rmin_l 30 (reach vzero (mkV 0 0 1) s_end (1 / 100000))). lra. }
  assert (G2 : regular s_end (vneg (mkV 0 0 1)) vzero (Rmin 30 (reach s_end (vneg (mkV 0 0 1)) vzero (1 / 100000)))).
  { split; [apply not_close; cbn; unfold Rabs; repeat destruct (Rcase_abs _); lra|]. rewrite O2. split; [lra|]. pose proof (Rmin_l 30 (reach s_end (vneg (mkV 0 0 1)) vzero (1 / 100000))). lra. }
  destruct (half_step_turn vzero _ _ _ _ _ U E P G1) as (l1 & H1 & T1 & _). destruct (half_step_turn vzero _ _ _ _ _ (vneg_unit' _ U) E P G2) as (l2 & H2 & T2 & _).
  unfold first_point. rewrite H1, T1, H2, T2. cbv zeta. destruct (get_distances _ vzero _ _) as [mid1 d1]. destruct (get_distances _ s_end _ _) as [mid d2].
  destruct (Rle_dec 30 _); [destruct (Rle_dec 30 _)|]; eexists; split; try reflexivity; auto.
Qed.
