(** Which target a connection ends at; concrete connections. *)
Require Import Reals ZArith Bool String List Lra Lia Psatz.
Require Import Verif.Base Verif.NumPy Verif.P_Trig Verif.Spec Verif.M_Utils Verif.P_Utils
  Verif.M_Survey Verif.M_Torque Verif.M_Connector Verif.Spec_Connector Verif.Spec_Connector2 Verif.P_Connector
  Verif.P_Connector2 Verif.P_Connector3 Verif.P_Connector4.
Import ListNotations.
Open Scope R_scope.

Lemma base_not_force : forall a, a_force a = false -> a_pos2 a <> None -> base_method a <> "min_curve"%string.
Proof.
  intros a F P. unfold base_method. rewrite F. destruct (a_pos2 a); [|congruence]. cbn.
  destruct (_ || _)%bool; discriminate.
Qed.
(** C72 *)
Lemma target_kept : forall bump a c q, is_unit (start_vec a) -> a_force a = false ->
  connector bump a = inl c -> a_pos2 a = Some q ->
  q <> a_pos1 a -> start_vec a <> vunit (vsub q (a_pos1 a)) \/ ~ never_hold a /\ target_vec a = start_vec a ->
  k_pos_target c = q.
Proof.
  intros bump a c q U F H Q NQ NE. destruct (connector_cases bump a c H) as (C & D).
  destruct (method_cases a C U) as [(S & NH & E)|(S & E)];
    unfold connector in H; rewrite C, E in H.
  - cbn -[do_hold] in H. unfold do_hold in H. rewrite Q in H.
    destruct (a_md2 a); injection H as <-; reflexivity.
  - pose proof (base_not_force a F ltac:(congruence)) as NB.
    unfold base_method in *. rewrite F in *. rewrite Q in *. cbn -[do_curve_hold] in *.
    destruct (given (a_vec2 a) || given (a_inc2 a) && given (a_azi2 a))%bool;
      cbn -[do_curve_hold] in H; [discriminate|].
    destruct (do_curve_hold _ _ _ _ _ _ q) eqn:X; [|discriminate]. injection H as <-.
    assert (NE' : start_vec a <> vunit (vsub q (a_pos1 a))).
    { destruct NE as [NE|[NH T]]; auto. intro Z. destruct S as [S|S]; [|tauto].
      apply S. split; auto. intros q' Q'. assert (q' = q) as -> by congruence.
      split; [auto|]. rewrite Z. unfold allclose, close, rtol, atol.
      assert (Y : forall x, Rabs (x - x) <= 1 / 100000000 + 1 / 100000 * Rabs x).
      { intro x. replace (x - x) with 0 by ring. rewrite Rabs_R0. pose proof (Rabs_pos x). lra. }
      auto. }
    unfold do_curve_hold in X. destruct (get_distances bump (a_pos1 a) (start_vec a) q) as [q' ds] eqn:G.
    assert (q' = q).
    { unfold get_distances, normalised in G. injection G as <- _.
      destruct (Req_EM_T (norm (vsub q (a_pos1 a))) 0); [reflexivity|].
      destruct (v3_eq_dec (start_vec a) (vunit (vsub q (a_pos1 a)))); [tauto|reflexivity]. }
    subst q'. destruct (radius_design a).
    + destruct (Rle_dec _ _).
      * clear -X. unfold do_min_dist in X. repeat dm. injection X as <-. reflexivity.
      * exact (min_curve_to_pos _ _ _ _ _ _ _ X).
    + exact (min_curve_to_pos _ _ _ _ _ _ _ X).
Qed.

(** ** concrete connections *)
Definition plain (q : V3) (d : R) : cargs :=
  mkArgs vzero (Some (mkV 0 0 1)) None None 0 (Some d) None (Some q) None None None true
    (1 / 100000) false.
Lemma plain_only : forall q d, 0 < d -> only_position (plain q d) (mkV 0 0 1) q (30 / d).
Proof. intros q d Hd. repeat split; cbn; try lra. exists d. auto. Qed.
Lemma down_unit : is_unit (mkV 0 0 1).
Proof. unfold is_unit, dot. cbn. ring. Qed.
Lemma off_down : forall x z, 0 <= x -> off_axis vzero (mkV 0 0 1) (mkV x 0 z) = x.
Proof.
  intros x z H. unfold off_axis. apply norm_from_sqr; auto. unf. ring.
Qed.
Lemma tcr_down : forall x z, 0 < x ->
  tangent_circle_radius vzero (mkV 0 0 1) (mkV x 0 z) = (x * x + z * z) / (2 * x).
Proof.
  intros x z H. unfold tangent_circle_radius. rewrite off_down by lra. f_equal. unf. ring.
Qed.
Lemma not_close : forall a b, 1 / 100 <= Rabs (a - b) -> Rabs b <= 1 -> ~ close a b.
Proof.
  intros a b H B C. unfold close, rtol, atol in C. lra.
Qed.
Lemma not_allclose_dir : forall x z, 0 < x -> z * z <= 10 * x * x ->
  ~ allclose (mkV 0 0 1) (vunit (vsub (mkV x 0 z) vzero)).
Proof.
  intros x z Hx Hz (A & _ & _). revert A.
  set (w := vunit (vsub (mkV x 0 z) vzero)).
  set (n := norm (vsub (mkV x 0 z) vzero)).
  assert (N : n * n = x * x + z * z). { unfold n. rewrite norm_sqr. unf. ring. }
  assert (n0 : 0 < n). { unfold n. apply norm_pos. intro Z. injection Z as Z _ _. unf. cbn in Z. lra. }
  assert (W : vx w = x / n). { unfold w, vunit. fold n. unf. cbn. field. lra. }
  rewrite W. cbn [vx].
  assert (n <= 4 * x) by nra. assert (x <= n) by nra.
  assert (1 / 4 <= x / n). { apply Rmult_le_reg_r with n; auto. replace (x / n * n) with x by (field; lra). lra. }
  assert (x / n <= 1). { apply Rmult_le_reg_r with n; auto. replace (x / n * n) with x by (field; lra). lra. }
  apply not_close.
  - rewrite Rabs_left; lra.
  - rewrite Rabs_pos_eq; lra.
Qed.
Lemma not_allclose_origin : forall x z, 1 <= x -> ~ allclose vzero (mkV x 0 z).
Proof.
  intros x z H (A & _). unfold close, rtol, atol in A. cbn in A.
  rewrite Rabs_left, Rabs_pos_eq in A; lra.
Qed.

(** reached: target 40 m off the axis and 80 m down, radius 30 m *)
Lemma reach_example : exists c, connector vzero (plain (mkV 40 0 80) 1) = inl c /\
  k_method c = MinDistToTarget /\ k_pos_target c = mkV 40 0 80.
Proof.
  pose proof (plain_only (mkV 40 0 80) 1 ltac:(lra)) as P. unfold Rdiv in P. rewrite Rinv_1, Rmult_1_r in P.
  apply (curve_hold_solves vzero _ _ _ _ P down_unit).
  - apply not_allclose_dir; lra.
  - apply not_allclose_origin; lra.
  - cbn [a_pos1 plain]. rewrite off_down; lra.
  - cbn [a_pos1 plain]. rewrite off_down; lra.
  - cbn [a_pos1 plain a_min_error]. rewrite tcr_down; lra.
Qed.
(** missed: target 60 m off the axis, twice the radius *)
Lemma twice_connected : exists c, connector vzero (plain (mkV 60 0 80) 1) = inl c /\
  k_method c = MinDistToTarget /\ k_pos_target c = mkV 60 0 80 /\ radius_design (plain (mkV 60 0 80) 1) = Some 30.
Proof.
  pose proof (plain_only (mkV 60 0 80) 1 ltac:(lra)) as P. unfold Rdiv in P. rewrite Rinv_1, Rmult_1_r in P.
  destruct (only_position_method _ _ _ _ P) as (C & SV & RD & Hr & GM).
  specialize (GM down_unit (not_allclose_dir 60 80 ltac:(lra) ltac:(lra))).
  assert (G : get_distances vzero vzero (mkV 0 0 1) (mkV 60 0 80) = (mkV 60 0 80, dist_triple vzero (mkV 0 0 1) (mkV 60 0 80))).
  { destruct (get_distances vzero vzero (mkV 0 0 1) (mkV 60 0 80)) as [q' ds] eqn:G.
    assert (q' = mkV 60 0 80).
    { eapply get_distances_pos; [apply down_unit| |apply G]. rewrite off_down; lra. }
    unfold get_distances in G. injection G as G1 G2. rewrite G1, H in G2.
    destruct (allclose_dec vzero (mkV 60 0 80)) as [Z|Z]; [exfalso; revert Z; apply not_allclose_origin; lra|].
    congruence. }
  assert (exists c, do_curve_hold vzero (1 / 100000) (Some 30) vzero (mkV 0 0 1) 0 (mkV 60 0 80) = Some c /\
    k_method c = MinDistToTarget /\ k_pos_target c = mkV 60 0 80) as (c & D & M & T).
  { unfold do_curve_hold. rewrite G, critical_eq.
    2: apply down_unit. 2: rewrite off_down; lra.
    rewrite tcr_down by lra. destruct (Rle_dec 30 _); [|lra].
    unfold do_min_dist. rewrite dist_triple_spec by apply down_unit. rewrite off_down by lra.
    assert (N2 : norm (vsub (mkV 60 0 80) vzero) = 100) by (apply norm_from_sqr; [lra|unf; ring]).
    assert (A2 : ahead vzero (mkV 0 0 1) (mkV 60 0 80) = 80) by (unfold ahead; unf; ring).
    unfold min_dist_to_target. rewrite N2, A2.
    replace (100 ^ 2 - 2 * 30 * 60) with (80 * 80) by ring. rewrite sqrt_square by lra.
    destruct (Rlt_dec (80 * 80) 0); [lra|].
    replace (80 - 80) with 0 by ring. replace (2 * 30 - 60) with 0 by ring.
    assert (Z : arctan2 0 0 = 0) by (unfold arctan2; destruct (Rlt_dec 0 0); [lra|reflexivity]).
    rewrite Z. replace (check_dogleg (2 * 0)) with 0 by (unfold check_dogleg; destruct (Rlt_dec (2 * 0) 0); lra).
    cbn [get_curve_hold_data]. unfold get_vec_target.
    destruct (Req_EM_T (30 * 0) 0) as [_|W]; [|exfalso; apply W; ring].
    eexists. split; [reflexivity|]. split; reflexivity. }
  exists c. repeat split; auto. unfold connector. rewrite C, GM. cbn -[do_curve_hold radius_design].
  rewrite RD, D. reflexivity.
Qed.
Lemma twice_radius_refuted : exists bump a c r,
  0 <= a_min_error a /\ is_unit (start_vec a) /\ connector bump a = inl c /\
  k_method c = MinDistToTarget /\ radius_design a = Some r /\
  r <= tangent_circle_radius (a_pos1 a) (start_vec a) (k_pos_target c) /\
  forall pos2, ~ turn_then_straight (a_pos1 a) (start_vec a) r (k_dogleg c) (k_tangent c)
      pos2 (k_pos_target c) (k_vec_target c).
Proof.
  destruct twice_connected as (c & H & M & T & R).
  exists vzero, (plain (mkV 60 0 80) 1), c, 30.
  assert (E0 : 0 <= a_min_error (plain (mkV 60 0 80) 1)) by (cbn; lra).
  assert (SU : is_unit (start_vec (plain (mkV 60 0 80) 1))) by (cbn; apply down_unit).
  assert (X : off_axis (a_pos1 (plain (mkV 60 0 80) 1)) (start_vec (plain (mkV 60 0 80) 1)) (k_pos_target c) = 2 * 30).
  { rewrite T. cbn [start_vec a_pos1 plain a_inc1 a_vec1]. rewrite off_down; lra. }
  assert (A2 : 0 <= ahead (a_pos1 (plain (mkV 60 0 80) 1)) (start_vec (plain (mkV 60 0 80) 1)) (k_pos_target c)).
  { rewrite T. unfold ahead. cbn [start_vec a_pos1 plain a_inc1 a_vec1]. unf. lra. }
  destruct (twice_radius vzero _ c 30 E0 SU H M R X A2) as (_ & _ & _ & _ & _ & N).
  repeat split; auto.
  rewrite T. cbn [start_vec a_pos1 plain a_inc1 a_vec1]. rewrite tcr_down; lra.
Qed.

(** a start 500 km from the origin of the coordinates and a target 5 m away *)
Lemma close_target_refuted : exists bump a c q,
  is_unit (start_vec a) /\ a_pos2 a = Some q /\ connector bump a = inl c /\
  dist q (a_pos1 a) = 5 /\ k_pos_target c = q /\ k_md_target c = a_md1 a.
Proof.
  set (p := mkV 500000 6000000 0). set (q := mkV 500003 6000000 0).
  set (q4 := mkV 500003 6000004 0).
  set (a := mkArgs p (Some (mkV 0 0 1)) None None 1000 (Some 1) None (Some q4) None None None true
    (1 / 100000) false).
  assert (P : only_position a (mkV 0 0 1) q4 30).
  { repeat split; cbn; try lra. exists 1. repeat split; lra. }
  assert (V : vsub q4 p = mkV 3 4 0) by (unfold q4, p; unf; apply V3_eq; cbn; lra).
  assert (N5 : norm (vsub q4 p) = 5) by (rewrite V; apply norm_from_sqr; [lra|unf; ring]).
  destruct (coincident_within_tolerance vzero a (mkV 0 0 1) q4 30 P down_unit) as (c & H & T & _ & Md & _).
  - cbn [a_pos1 a]. intros (_ & _ & Z). revert Z. unfold vunit. rewrite N5, V. unf.
    cbn [vz]. unfold close, rtol, atol. rewrite Rmult_0_r, Rminus_0_r, Rabs_R1, Rabs_R0. lra.
  - cbn [a_pos1 a]. unfold allclose, close, rtol, atol, p, q4. cbn [vx vy vz].
    repeat split.
    + rewrite Rabs_left, Rabs_pos_eq; lra.
    + rewrite Rabs_left, Rabs_pos_eq; lra.
    + rewrite Rminus_0_r, Rabs_R0. lra.
  - exists vzero, a, c, q4. repeat split; auto.
    apply down_unit.
Qed.

(** a target exactly ahead, given with an azimuth: it is moved at random *)
Definition ahead_args : cargs :=
  mkArgs vzero (Some (mkV 0 0 1)) None None 0 (Some 3) None (Some (mkV 0 0 100)) None None (Some 0) true
    (1 / 100000) false.
Lemma target_moved_refuted : exists bump a c q,
  is_unit (start_vec a) /\ a_force a = false /\ a_pos2 a = Some q /\
  (0 <= vx bump < 1 /\ 0 <= vy bump < 1 /\ 0 <= vz bump < 1) /\
  connector bump a = inl c /\ dist (k_pos_target c) q = 1 / 2.
Proof.
  set (bump := mkV (1 / 2) 0 0).
  assert (C : check_args ahead_args = None).
  { unfold check_args, ahead_args. cbn. destruct (Rlt_dec 0 3); [|lra]. destruct (Rlt_dec (1 / 100000) 1); [|lra].
    destruct (Req_EM_T 0 0); reflexivity. }
  destruct (dispatch ahead_args C down_unit) as [_ D2].
  assert (M : get_method ahead_args = inl "curve_hold"%string).
  { rewrite D2; [reflexivity|]. right. repeat split; cbn; congruence. }
  set (q' := mkV (1 / 2) 0 100).
  assert (NO : ~ allclose vzero q').
  { intros (A & _). unfold close, rtol, atol, q' in A. cbn in A. rewrite Rabs_left, Rabs_pos_eq in A; lra. }
  assert (G : get_distances bump vzero (mkV 0 0 1) (mkV 0 0 100) = (q', dist_triple vzero (mkV 0 0 1) q')).
  { unfold get_distances, normalised.
    assert (N : norm (vsub (mkV 0 0 100) vzero) = 100) by (apply norm_from_sqr; [lra|unf; ring]).
    rewrite N. destruct (Req_EM_T 100 0); [lra|].
    assert (E : vunit (vsub (mkV 0 0 100) vzero) = mkV 0 0 1).
    { unfold vunit. rewrite N. unf. apply V3_eq; cbn; field. }
    rewrite E. destruct (v3_eq_dec (mkV 0 0 1) (mkV 0 0 1)); [|congruence].
    replace (vadd (mkV 0 0 100) bump) with q' by (unfold q', bump; unf; apply V3_eq; cbn; lra).
    destruct (allclose_dec vzero q'); [tauto|reflexivity]. }
  assert (O : off_axis vzero (mkV 0 0 1) q' = 1 / 2) by (apply off_down; lra).
  assert (T : tangent_circle_radius vzero (mkV 0 0 1) q' = (1 / 2 * (1 / 2) + 100 * 100) / (2 * (1 / 2)))
    by (apply tcr_down; lra).
  assert (L : 30 / 3 <= tangent_circle_radius vzero (mkV 0 0 1) q') by (rewrite T; lra).
  destruct (ch_solve vzero (mkV 0 0 1) q' (30 / 3) down_unit ltac:(lra) ltac:(lra) ltac:(lra) L)
    as (len & t & v & S & Et & V & _).
  exists bump, ahead_args.
  exists (mkConn MinDistToTarget vzero (mkV 0 0 1) 0 q' v (0 + Rabs (30 / 3 * t) + len)
           (Some (vsub q' (vscale len v))) (Some (0 + Rabs (30 / 3 * t))) len t (30 / 3 * t) (get_rf t)),
    (mkV 0 0 100).
  split; [apply down_unit|]. split; [reflexivity|]. split; [reflexivity|].
  split; [cbn; lra|]. split.
  - unfold connector. rewrite C, M. cbn -[do_curve_hold].
    unfold do_curve_hold. cbn [a_min_error ahead_args radius_design a_dls a_meters a_pos1 start_vec a_inc1 a_vec1 a_md1].
    rewrite G, critical_eq by (try apply down_unit; lra). rewrite T.
    destruct (Rle_dec (30 / 3) _); [|lra].
    unfold do_min_dist. rewrite S. cbv zeta. rewrite <- Et. cbn [get_curve_hold_data]. rewrite V. reflexivity.
  - cbn [k_pos_target]. unfold dist. apply norm_from_sqr; [lra|]. unfold q'. unf. field.
Qed.

(** force_min_curve with a position and another direction: the position is lost *)
Lemma forced_refuted : exists bump a c q,
  is_unit (start_vec a) /\ a_force a = true /\ a_pos2 a = Some q /\
  connector bump a = inl c /\ k_pos_target c <> q.
Proof.
  set (q := mkV 100 0 100).
  set (a := mkArgs vzero (Some (mkV 0 0 1)) None None 0 (Some 1) None (Some q) (Some (mkV 1 0 0)) None None true
    (1 / 100000) true).
  assert (C : check_args a = None).
  { unfold check_args, a. cbn. destruct (Rlt_dec 0 1); [|lra]. destruct (Rlt_dec (1 / 100000) 1); [reflexivity|lra]. }
  assert (TV : target_vec a = mkV 1 0 0).
  { unfold target_vec. cbn -[v3_eq_dec vneg]. destruct (v3_eq_dec (mkV 1 0 0) (vneg (mkV 0 0 1))) as [Z|Z]; [|reflexivity].
    exfalso. injection Z as Z _. unf. lra. }
  destruct (dispatch a C down_unit) as [_ D2].
  assert (M : get_method a = inl "min_curve"%string).
  { rewrite D2; [reflexivity|]. left. intros (E & _). rewrite TV in E. cbn in E. injection E as E _. lra. }
  destruct (connector vzero a) as [c|e] eqn:H.
  - exists vzero, a, c, q. repeat split; auto. { apply down_unit. }
    assert (KM : k_method c = MinCurve).
    { unfold connector in H. rewrite C, M in H. cbn -[do_min_curve] in H. eapply min_curve_method; eauto. }
    assert (PP := PI_RGT_0).
    destruct (min_curve_connection vzero a c (PI / 2) down_unit) as (r & pos2 & len & _ & _ & _ & _ & (n & r' & Nn & O & L & P2 & _) & KP & _ & _ & _ & MD); auto.
    + rewrite TV. unfold is_unit. unf. ring.
    + rewrite TV. split; [lra|]. rewrite cos_PI2. unf. cbn. ring.
    + lra.
    + destruct (MD eq_refl) as [-> RD]. cbn in RD. injection RD as RD.
      assert (r' = 30) as ->.
      { apply Rmult_eq_reg_r with (PI / 2); [|lra]. rewrite <- L, <- RD. field. }
      rewrite KP, P2, vscale_0, vadd_0_r. unfold arc_point. rewrite sin_PI2, cos_PI2.
      intro E. assert (D : dot q q = 1800).
      { rewrite <- E. cbn [a_pos1 a]. rewrite vadd_0_l.
        rewrite !dot_vadd_l, !dot_vadd_r, !dot_vscale_l, !dot_vscale_r.
        unfold is_unit, orthogonal in *. rewrite (dot_comm n), O, Nn.
        replace (dot (start_vec a) (start_vec a)) with 1 by (cbn; unf; ring). ring. }
      unfold q in D. unf. lra.
  - exfalso. unfold connector in H. rewrite C, M in H. cbn -[do_min_curve] in H.
    apply min_curve_errors in H. cbn in H. destruct H as [(_ & _ & Z)|(_ & _ & Z)]; discriminate.
Qed.
(** the method does not depend on the presence of the fields alone *)
Lemma presence_only_refuted : exists a b, same_fields a b /\
  check_args a = None /\ check_args b = None /\ is_unit (start_vec a) /\ is_unit (start_vec b) /\
  get_method a = inl "hold"%string /\ get_method b = inl "curve_hold"%string.
Proof.
  exists (plain (mkV 0 0 100) 1), (plain (mkV 40 0 80) 1).
  assert (C : forall q, check_args (plain q 1) = None).
  { intro q. unfold check_args, plain. cbn. destruct (Rlt_dec 0 1); [|lra]. destruct (Rlt_dec (1 / 100000) 1); [reflexivity|lra]. }
  split. { unfold same_fields, plain. cbn. intuition congruence. }
  split; [apply C|]. split; [apply C|]. split; [apply down_unit|]. split; [apply down_unit|].
  assert (N : norm (vsub (mkV 0 0 100) vzero) = 100) by (apply norm_from_sqr; [lra|unf; ring]).
  assert (T : forall q, target_vec (plain q 1) = mkV 0 0 1).
  { intro q. unfold target_vec. cbn -[v3_eq_dec vneg].
    destruct (v3_eq_dec (mkV 0 0 1) (vneg (mkV 0 0 1))) as [Z|Z]; [|reflexivity].
    exfalso. injection Z as _ _ Z. unf. lra. }
  split.
  - apply (dispatch (plain (mkV 0 0 100) 1) (C _) down_unit).
    + split; [rewrite T; reflexivity|]. intros q Q. cbn in Q. injection Q as <-. split.
      * intro Z. injection Z as Z. lra.
      * assert (E : vunit (vsub (mkV 0 0 100) (a_pos1 (plain (mkV 0 0 100) 1))) = mkV 0 0 1).
        { cbn [a_pos1 plain]. unfold vunit. rewrite N. unf. apply V3_eq; cbn; field. }
        rewrite E. cbn [start_vec plain a_inc1 a_vec1]. unfold allclose, close, rtol, atol. cbn.
        rewrite !Rminus_0_r, Rminus_diag_eq, Rabs_R0, Rabs_R1 by reflexivity. lra.
    + intros (_ & _ & Z & _). cbn in Z. congruence.
  - apply (dispatch (plain (mkV 40 0 80) 1) (C _) down_unit). left. intros (_ & S).
    destruct (S _ eq_refl) as [_ Z]. revert Z. apply not_allclose_dir; lra.
Qed.

(** a target that needs a tighter turn than the design radius is reached on one arc *)
Lemma single_arc_solves : forall bump a u q r, only_position a u q r -> is_unit u ->
  ~ allclose u (vunit (vsub q (a_pos1 a))) -> ~ allclose (a_pos1 a) q ->
  0 < off_axis (a_pos1 a) u q -> ahead (a_pos1 a) u q <> 0 ->
  tangent_circle_radius (a_pos1 a) u q < r ->
  exists c, connector bump a = inl c /\ k_method c = MinCurveToTarget /\ k_pos_target c = q.
Proof.
  intros bump a u q r OP U NA NC N A L.
  destruct (only_position_method a u q r OP) as (C & SV & RD & Hr & GM).
  specialize (GM U NA).
  assert (P2 : a_pos2 a = Some q) by (unfold only_position in OP; tauto).
  assert (He : 0 <= a_min_error a < 1) by (unfold only_position in OP; tauto).
  destruct (get_distances bump (a_pos1 a) u q) as [q' ds] eqn:G.
  pose proof (get_distances_pos _ _ _ _ _ _ U N G) as ->.
  assert (DS : ds = dist_triple (a_pos1 a) u q).
  { unfold get_distances in G. injection G as G1 G2. rewrite G1 in G2.
    destruct (allclose_dec (a_pos1 a) q); [tauto|]. auto. }
  destruct (arc_solve _ _ _ U N A) as (t & v & S & Et & V & Hrc & Bt & W).
  set (rc := tangent_circle_radius (a_pos1 a) u q) in *.
  exists (mkConn MinCurveToTarget (a_pos1 a) u (a_md1 a) q v (rc * t + 0 + 0 + a_md1 a)
           None None 0 t (rc * t) (get_rf t)).
  split; [|split; reflexivity].
  unfold connector. rewrite C, GM. cbn -[do_curve_hold]. rewrite P2, RD, SV.
  unfold do_curve_hold. rewrite G. rewrite DS, critical_eq by (auto; lra). fold rc.
  destruct (Rle_dec r _) as [Z|_]; [exfalso; nra|].
  unfold do_min_curve_to_target. rewrite S, Et. cbn [rmin_inf]. rewrite Rmin_right by lra.
  cbn [get_curve_hold_data]. rewrite V. reflexivity.
Qed.
Lemma arc_example : exists c, connector vzero (plain (mkV 40 0 80) (1 / 10)) = inl c /\
  k_method c = MinCurveToTarget /\ k_pos_target c = mkV 40 0 80 /\
  ~ allclose vzero (mkV 40 0 80) /\
  0 < off_axis vzero (mkV 0 0 1) (mkV 40 0 80) /\ ahead vzero (mkV 0 0 1) (mkV 40 0 80) <> 0 /\
  tangent_circle_radius vzero (mkV 0 0 1) (mkV 40 0 80) = 100 /\ radius_design (plain (mkV 40 0 80) (1 / 10)) = Some 300.
Proof.
  assert (P : only_position (plain (mkV 40 0 80) (1 / 10)) (mkV 0 0 1) (mkV 40 0 80) (30 / (1 / 10))) by (apply plain_only; lra).
  replace (30 / (1 / 10)) with 300 in P by field.
  assert (AH : ahead vzero (mkV 0 0 1) (mkV 40 0 80) = 80) by (unfold ahead; unf; ring).
  assert (T : tangent_circle_radius vzero (mkV 0 0 1) (mkV 40 0 80) = 100) by (rewrite tcr_down; lra).
  assert (O : off_axis vzero (mkV 0 0 1) (mkV 40 0 80) = 40) by (apply off_down; lra).
  assert (NC : ~ allclose vzero (mkV 40 0 80)) by (apply not_allclose_origin; lra).
  destruct (single_arc_solves vzero _ _ _ _ P down_unit) as (c & H & M & Q); cbn [a_pos1 plain]; auto; try lra.
  { apply not_allclose_dir; lra. }
  exists c. destruct (only_position_method _ _ _ _ P) as (_ & _ & RD & _).
  repeat split; auto; try lra.
Qed.
(** a radius within the tolerance of the critical one *)
Lemma band_example : exists c r, connector vzero (plain (mkV 40 0 80) (3 / 10 + 1 / 10000000)) = inl c /\
  k_method c = MinCurveToTarget /\ k_pos_target c = mkV 40 0 80 /\
  radius_design (plain (mkV 40 0 80) (3 / 10 + 1 / 10000000)) = Some r /\ r < 100.
Proof.
  set (d := 3 / 10 + 1 / 10000000). assert (Hd : 0 < d) by (unfold d; lra).
  assert (P : only_position (plain (mkV 40 0 80) d) (mkV 0 0 1) (mkV 40 0 80) (30 / d)) by (apply plain_only; auto).
  assert (Rb : 100 * (1 - 1 / 100000) < 30 / d < 100).
  { split; apply Rmult_lt_reg_r with d; auto; replace (30 / d * d) with 30 by (field; lra); unfold d; lra. }
  set (r := 30 / d) in *. clearbody r.
  assert (AH : ahead vzero (mkV 0 0 1) (mkV 40 0 80) = 80) by (unfold ahead; unf; ring).
  assert (T : tangent_circle_radius vzero (mkV 0 0 1) (mkV 40 0 80) = 100) by (rewrite tcr_down; lra).
  assert (O : off_axis vzero (mkV 0 0 1) (mkV 40 0 80) = 40) by (apply off_down; lra).
  assert (NC : ~ allclose vzero (mkV 40 0 80)) by (apply not_allclose_origin; lra).
  destruct (only_position_method _ _ _ _ P) as (C & SV & RD & Hr & GM).
  specialize (GM down_unit (not_allclose_dir 40 80 ltac:(lra) ltac:(lra))).
  destruct (get_distances vzero vzero (mkV 0 0 1) (mkV 40 0 80)) as [q' ds] eqn:G.
  assert (q' = mkV 40 0 80) as ->.
  { eapply get_distances_pos; [apply down_unit| |apply G]. lra. }
  assert (DS : ds = dist_triple vzero (mkV 0 0 1) (mkV 40 0 80)).
  { unfold get_distances in G. injection G as G1 G2. rewrite G1 in G2.
    destruct (allclose_dec vzero (mkV 40 0 80)); [tauto|]. auto. }
  destruct (arc_solve vzero (mkV 0 0 1) (mkV 40 0 80) down_unit ltac:(lra) ltac:(lra)) as (t & v & S & Et & V & Hrc & Bt & W).
  rewrite T in *.
  assert (VV : exists w, get_vec_target vzero (mkV 0 0 1) (mkV 40 0 80) 0 (r * t) (get_rf t) = Some w).
  { unfold get_vec_target in *. destruct (Req_EM_T (100 * t) 0) as [Z|_]; [exfalso; nra|].
    destruct (Req_EM_T (r * t) 0) as [Z|_]; [exfalso; nra|].
    revert V. match goal with |- context [if ?c then _ else _] => destruct c as [Z|Z] end; [discriminate|]. intros _.
    match goal with |- context [if ?c then _ else _] => destruct c as [Z'|Z'] end.
    2: { unfold normalised. match goal with |- context [if ?c then _ else _] => destruct c as [W'|W'] end; [|eauto].
      exfalso. apply norm_eq0 in W'. apply (f_equal vx) in W'. revert W'. unf. cbn [vx].
      assert (I0 := Rinv_neq_0_compat _ Z'). intro W'. apply Rmult_integral in W'. destruct W' as [W'|W']; [auto|].
      lra. }
    exfalso. apply Z. replace (100 * t * get_rf t / 2 + 0) with (100 / r * (r * t * get_rf t / 2 + 0)) by (field; lra).
    rewrite Z'. ring. }
  destruct VV as [w VV].
  exists (mkConn MinCurveToTarget vzero (mkV 0 0 1) 0 (mkV 40 0 80) w (r * t + 0 + 0 + 0)
           None None 0 t (r * t) (get_rf t)), r.
  split; [|split; [|split; [|split]]]; auto; try lra.
  unfold connector. rewrite C, GM. cbn -[do_curve_hold radius_design]. rewrite RD.
  unfold do_curve_hold. rewrite G, DS, critical_eq by (try apply down_unit; lra). rewrite T.
  destruct (Rle_dec r _) as [Z|_]; [exfalso; lra|].
  unfold do_min_curve_to_target. rewrite S, Et. cbn [rmin_inf]. rewrite Rmin_left by lra.
  cbn [get_curve_hold_data]. rewrite VV. reflexivity.
Qed.
Lemma quarter_turn : exists a c, is_unit (start_vec a) /\ is_unit (target_vec a) /\ connector vzero a = inl c /\
  k_method c = MinCurve /\ angle_between (start_vec a) (target_vec a) (PI / 2).
Proof.
  set (a := mkArgs vzero (Some (mkV 0 0 1)) None None 0 (Some 1) None None (Some (mkV 1 0 0)) None None true
    (1 / 100000) false).
  assert (C : check_args a = None).
  { unfold check_args, a. cbn. destruct (Rlt_dec 0 1); [|lra]. destruct (Rlt_dec (1 / 100000) 1); [reflexivity|lra]. }
  assert (TV : target_vec a = mkV 1 0 0).
  { unfold target_vec. cbn -[v3_eq_dec vneg]. destruct (v3_eq_dec (mkV 1 0 0) (vneg (mkV 0 0 1))) as [Z|Z]; [|reflexivity].
    exfalso. injection Z as Z _. unf. lra. }
  destruct (dispatch a C down_unit) as [_ D2].
  assert (M : get_method a = inl "min_curve"%string).
  { rewrite D2; [reflexivity|]. left. intros (E & _). rewrite TV in E. cbn in E. injection E as E _. lra. }
  destruct (connector vzero a) as [c|e] eqn:H.
  - exists a, c. pose proof PI_RGT_0. split; [apply down_unit|]. rewrite TV.
    split; [unfold is_unit; unf; ring|]. split; [auto|]. split.
    + unfold connector in H. rewrite C, M in H. cbn -[do_min_curve] in H. eapply min_curve_method; eauto.
    + split; [lra|]. rewrite cos_PI2. unf. cbn. ring.
  - exfalso. unfold connector in H. rewrite C, M in H. cbn -[do_min_curve] in H.
    apply min_curve_errors in H. cbn in H. destruct H as [(_ & _ & Z)|(_ & _ & Z)]; discriminate.
Qed.
Lemma hold_example : exists c, connector vzero (plain (mkV 0 0 100) 1) = inl c /\ k_method c = Hold.
Proof.
  destruct (only_position_method _ _ _ _ (plain_only (mkV 0 0 100) 1 ltac:(lra))) as (C & _).
  assert (N : norm (vsub (mkV 0 0 100) vzero) = 100) by (apply norm_from_sqr; [lra|unf; ring]).
  assert (T : target_vec (plain (mkV 0 0 100) 1) = mkV 0 0 1).
  { unfold target_vec. cbn -[v3_eq_dec vneg].
    destruct (v3_eq_dec (mkV 0 0 1) (vneg (mkV 0 0 1))) as [Z|Z]; [|reflexivity].
    exfalso. injection Z as _ _ Z. unf. lra. }
  assert (M : get_method (plain (mkV 0 0 100) 1) = inl "hold"%string).
  { apply (dispatch (plain (mkV 0 0 100) 1) C down_unit).
    + split; [rewrite T; reflexivity|]. intros q Q. cbn in Q. injection Q as <-. split.
      * intro Z. injection Z as Z. lra.
      * assert (E : vunit (vsub (mkV 0 0 100) (a_pos1 (plain (mkV 0 0 100) 1))) = mkV 0 0 1).
        { cbn [a_pos1 plain]. unfold vunit. rewrite N. unf. apply V3_eq; cbn; field. }
        rewrite E. cbn [start_vec plain a_inc1 a_vec1]. unfold allclose, close, rtol, atol. cbn.
        rewrite !Rminus_0_r, Rminus_diag_eq, Rabs_R0, Rabs_R1 by reflexivity. lra.
    + intros (_ & _ & Z & _). cbn in Z. congruence. }
  unfold connector. rewrite C, M. eexists. split; reflexivity.
Qed.
