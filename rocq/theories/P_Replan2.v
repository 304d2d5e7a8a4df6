(** C150: a plan that changes with the origin; a plan toward north. *)
Require Import Reals Lra Psatz Lia ZArith Bool String List.
Require Import Verif.Base Verif.NumPy Verif.P_Trig Verif.Spec Verif.M_Utils Verif.P_Utils Verif.M_Torque Verif.M_Connector Verif.M_Connector2
  Verif.Spec_Connector Verif.Spec_Connector2 Verif.P_Connector Verif.P_Connector2 Verif.P_Connector3 Verif.P_Connector5
  Verif.Spec_Frames Verif.P_Frames Verif.P_Frames3 Verif.Spec_Replan Verif.P_Replan.
Import ListNotations.
Local Open Scope R_scope.

(** heading north at 1000 m, a target 30 m north and 3 m east at the same depth, radius 30 m *)
Definition level_args : cargs :=
  mkArgs vzero (Some (mkV 1 0 0)) None None 1000 (Some 1) None (Some (mkV 30 3 0)) None None None true (1 / 100000) false.
Lemma level_only : only_position level_args (mkV 1 0 0) (mkV 30 3 0) 30.
Proof. repeat split; cbn; try lra. exists 1. repeat split; lra. Qed.
Lemma level_unit : is_unit (mkV 1 0 0).
Proof. unfold is_unit, dot; cbn. ring. Qed.
Lemma level_not_straight : forall p, ~ allclose (mkV 1 0 0) (vunit (vsub (vadd (mkV 30 3 0) p) p)).
Proof.
  intros p. replace (vsub (vadd (mkV 30 3 0) p) p) with (mkV 30 3 0).
  2: { destruct p. unfold vsub, vadd; simpl. apply V3_eq; simpl; ring. }
  intros (_ & A & _). revert A. apply not_close.
  - unfold vunit, vscale; cbn [vy]. set (n := norm (mkV 30 3 0)).
    assert (N : n * n = 909) by (unfold n; rewrite norm_sqr; unfold dot; cbn; ring). pose proof (norm_ge0 (mkV 30 3 0)) as G. fold n in G.
    assert (30 < n < 31) by nra. replace (0 - / n * 3) with (- (3 / n)) by (field; lra). rewrite Rabs_Ropp.
    assert (1 / 100 <= 3 / n). { apply Rmult_le_reg_r with n; [lra|]. unfold Rdiv at 2. rewrite Rmult_assoc, Rinv_l by lra. lra. }
    rewrite Rabs_pos_eq; lra.
  - unfold vunit, vscale; cbn [vy]. set (n := norm (mkV 30 3 0)).
    assert (N : n * n = 909) by (unfold n; rewrite norm_sqr; unfold dot; cbn; ring). pose proof (norm_ge0 (mkV 30 3 0)) as G. fold n in G.
    assert (30 < n < 31) by nra. replace (/ n * 3) with (3 / n) by (field; lra).
    assert (0 < 3 / n <= 1). { split. apply Rdiv_lt_0_compat; lra. apply Rmult_le_reg_r with n; [lra|]. unfold Rdiv. rewrite Rmult_assoc, Rinv_l by lra. lra. }
    rewrite Rabs_pos_eq; lra.
Qed.
Lemma level_off : off_axis vzero (mkV 1 0 0) (mkV 30 3 0) = 3.
Proof. unfold off_axis. apply norm_from_sqr; [lra|]. unfold cross, vsub, vzero, dot; cbn. ring. Qed.
Lemma origin_matters : exists a t c c', is_unit (start_vec a) /\ a_pos2 a = Some (vadd (a_pos1 a) (mkV 30 3 0)) /\
  connector vzero a = inl c /\ connector vzero (turned_args 0 t a) = inl c' /\
  a_md1 a < k_md_target c /\ k_md_target c' = a_md1 a.
Proof.
  pose proof level_only as P. pose proof level_unit as U. set (t := mkV 6000000 500000 2000).
  assert (I : forall v, mv (turn 0) v = v).
  { intros []. unfold turn, mv, dot; simpl. rewrite cos_0, sin_0. apply V3_eq; simpl; ring. }
  pose proof (level_not_straight vzero) as NS.
  assert (Z : vadd (mkV 30 3 0) vzero = mkV 30 3 0) by (unfold vadd, vzero; simpl; apply V3_eq; simpl; ring). rewrite Z in NS.
  destruct (curve_hold_solves vzero level_args (mkV 1 0 0) (mkV 30 3 0) 30 P U) as (c & H & M & T).
  - exact NS.
  - cbn [a_pos1 level_args]. intros (A & _). unfold close, rtol, atol in A. cbn in A. rewrite Rabs_left, Rabs_pos_eq in A; lra.
  - cbn [a_pos1 level_args]. rewrite level_off. lra.
  - cbn [a_pos1 level_args]. rewrite level_off. lra.
  - cbn [a_pos1 level_args a_min_error]. unfold tangent_circle_radius. rewrite level_off. unfold vsub, vzero, dot; cbn. lra.
  - assert (P' : only_position (turned_args 0 t level_args) (mkV 1 0 0) (vadd (mkV 30 3 0) t) 30).
    { unfold only_position, turned_args, level_args; cbn -[mv turn]. unfold moved. rewrite !I. repeat split; try lra. exists 1. repeat split; lra. }
    assert (Q : a_pos1 (turned_args 0 t level_args) = t).
    { unfold turned_args, level_args; cbn -[mv turn]. unfold moved. rewrite I. unfold t, vadd, vzero; simpl. apply V3_eq; simpl; ring. }
    destruct (coincident_within_tolerance vzero _ _ _ _ P' U) as (c' & H' & _ & _ & Md & _).
    + rewrite Q. apply level_not_straight.
    + rewrite Q. unfold allclose, close, rtol, atol, t, vadd; cbn [vx vy vz]. repeat split.
      * rewrite Rabs_left, Rabs_pos_eq; lra.
      * rewrite Rabs_left, Rabs_pos_eq; lra.
      * replace (2000 - (0 + 2000)) with 0 by ring. rewrite Rabs_R0, Rabs_pos_eq; lra.
    + exists level_args, t, c, c'. split; [exact U|]. split; [cbn; f_equal; unfold vadd, vzero; simpl; apply V3_eq; simpl; ring|].
      split; [exact H|]. split; [exact H'|]. split; [|exact Md].
      destruct (curve_hold_reaches vzero level_args c 30) as (p2 & _ & _ & D & T0 & _ & _ & E); auto.
      * cbn. lra.
      * unfold radius_design; cbn. f_equal. field.
      * rewrite T. cbn [a_pos1 level_args start_vec a_inc1 a_vec1]. rewrite level_off. lra.
      * rewrite E. nra.
Qed.
(** straight down, given as a direction, to an inclination of 1 rad: toward north in every frame *)
Lemma north_matters : exists a w, check_args a = None /\ no_azimuth a /\
  target_vec (turned_args w vzero a) = target_vec a /\ target_vec a <> mv (turn w) (target_vec a).
Proof.
  exists (mkArgs vzero (Some (mkV 0 0 1)) None None 0 (Some 1) None None None (Some 1) None true (1 / 100000) false), PI.
  assert (I : mv (turn PI) (mkV 0 0 1) = mkV 0 0 1) by (unfold turn, mv, dot; simpl; apply V3_eq; simpl; ring).
  assert (G : get_angles true (mkV 0 0 1) = (0, 0)).
  { unfold get_angles. replace (vunit (mkV 0 0 1)) with (mkV 0 0 1).
    2: { unfold vunit. rewrite (norm_from_sqr (mkV 0 0 1) 1) by (try lra; unfold dot; simpl; ring). unfold vscale; simpl. apply V3_eq; simpl; field. }
    unfold get_angles_xyz; simpl. replace (0 * (0 * 1) + 0 * (0 * 1)) with 0 by ring. rewrite sqrt_0.
    assert (A : arctan2 0 0 = 0) by (unfold arctan2; repeat destruct (Rlt_dec _ _); lra). rewrite A.
    assert (B : arctan2 0 1 = 0). { unfold arctan2. destruct (Rlt_dec 0 1); [|lra]. unfold Rdiv. rewrite Rmult_0_l. apply atan_0. }
    rewrite B. f_equal. pose proof PI_RGT_0. apply (rmod_unique _ _ 0 1); lra. }
  assert (T : forall t z, target_vec (mkArgs t (Some (mkV 0 0 1)) None None 0 (Some 1) None z None (Some 1) None true (1 / 100000) false) = direction_nev 1 0).
  { intros t z. unfold target_vec, target_vec0, target_angles, start_angles, start_vec; cbn -[get_vec get_angles v3_eq_dec mod_vec]. rewrite G. cbn [snd].
    rewrite get_vec_direction. destruct (v3_eq_dec _ _) as [E|]; auto. exfalso. apply (f_equal vx) in E. unfold direction_nev, vneg in E; simpl in E.
    rewrite cos_0 in E. assert (0 < sin 1) by (apply sin_gt_0; pose proof PI2_1; lra). lra. }
  split; [unfold check_args; cbn; repeat destruct (Rlt_dec _ _); auto; lra|]. split.
  { exists (mkV 0 0 1), 1. repeat split. }
  unfold turned_args; cbn [a_pos1 a_vec1 a_inc1 a_azi1 a_md1 a_dls a_md2 a_pos2 a_vec2 a_inc2 a_azi2 a_meters a_min_error a_force option_map].
  rewrite I, !T. split; auto. rewrite <- turn_direction, Rplus_0_l. intros E. apply (f_equal vx) in E. unfold direction_nev in E; simpl in E.
  rewrite cos_0, cos_PI in E. assert (0 < sin 1) by (apply sin_gt_0; pose proof PI2_1; lra). lra.
Qed.
(** an example in two frames *)
Lemma replan_sample : let a := plain (mkV 40 0 80) 1 in let t := mkV 100 100 0 in
  ~ no_azimuth a /\ (forall q, a_pos2 a = Some q -> alike (PI / 2) t vzero a q) /\
  exists c, connector vzero a = inl c /\ connector (mv (turn (PI / 2)) vzero) (turned_args (PI / 2) t a) = inl (turned_conn (PI / 2) t c).
Proof.
  intros a t.
  assert (N : ~ no_azimuth a) by (intros (v & i & _ & _ & _ & _ & K & _); discriminate).
  assert (T : forall x y z, mv (turn (PI / 2)) (mkV x y z) = mkV (- y) x z).
  { intros. unfold turn, mv, dot; simpl. rewrite cos_PI2, sin_PI2. apply V3_eq; simpl; ring. }
  assert (A : forall q, a_pos2 a = Some q -> alike (PI / 2) t vzero a q).
  { intros q E. injection E as <-.
    assert (F : (allclose (moved (turn (PI / 2)) t (a_pos1 a)) (moved (turn (PI / 2)) t (mkV 40 0 80)) <-> allclose (a_pos1 a) (mkV 40 0 80))).
    { split; intros K; exfalso.
      - destruct K as (_ & K & _). revert K. unfold moved. cbn [a_pos1 a plain]. unfold vzero. rewrite !T. unfold t, vadd, close, rtol, atol; cbn.
        rewrite Rabs_left, Rabs_pos_eq; lra.
      - revert K. apply not_allclose_origin. lra. }
    split; [exact F|]. split.
    { replace (vadd (mkV 40 0 80) vzero) with (mkV 40 0 80) by (unfold vadd, vzero; simpl; apply V3_eq; simpl; ring). exact F. }
    intros u E. unfold heading, normalised in E. destruct (Req_EM_T _ _) as [|NZ]; [discriminate|]. injection E as <-.
    assert (C : ~ allclose (mkV 0 0 1) (vunit (vsub (mkV 40 0 80) vzero))) by (apply not_allclose_dir; lra).
    change (start_vec a) with (mkV 0 0 1). change (a_pos1 a) with vzero in *.
    destruct (vunit (vsub (mkV 40 0 80) vzero)) as [ux uy uz] eqn:U. rewrite !T.
    assert (UY : uy = 0). { apply (f_equal vy) in U. unfold vunit, vscale, vsub, vzero in U; cbn in U. rewrite <- U. ring. }
    unfold allclose in *; cbn [vx vy vz] in *. subst uy. rewrite Ropp_0. tauto. }
  split; [exact N|]. split; [exact A|].
  destruct reach_example as (c & H & _). exists c. split; [exact H|]. rewrite (connector_turned _ _ _ _ N A). fold a in H. rewrite H. reflexivity.
Qed.
