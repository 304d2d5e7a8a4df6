(** A well that goes down 100 m, turns to horizontal over a quarter circle of radius
    100 m, and one that goes straight up. *)
Require Import Reals ZArith Bool String List Lra Lia Psatz.
Require Import Verif.Base Verif.NumPy Verif.P_Trig Verif.Spec Verif.Spec_Lists Verif.M_Utils
  Verif.P_Utils Verif.P_Utils2 Verif.P_Utils3 Verif.M_Connector
  Verif.M_Survey Verif.P_Survey Verif.P_Survey2
  Verif.P_Survey3 Verif.P_Survey4 Verif.P_Tvd Verif.Spec_Refine Verif.P_Refine Verif.P_Refine3 Verif.M_Levels Verif.P_Levels Verif.P_Levels2 Verif.P_Levels3
  Verif.Spec_Levels Verif.P_Levels4 Verif.P_Levels5 Verif.P_Levels6 Verif.P_Levels7 Verif.P_Levels8.
Import ListNotations.
Open Scope R_scope.

Definition lev_h : header := mkHeader RefGrid 0 0 1 None "meters".
Lemma lev_survey : forall l, (2 <= length l)%nat -> exists s,
  Survey lev_h (map (fun a => (st_md a, st_inc a, st_azi a)) l) false vzero vzero "meters" = Some s /\ sv_rows s = l /\ placed s vzero vzero.
Proof.
  intros l L. destruct (Survey_total lev_h (map (fun a => (st_md a, st_inc a, st_azi a)) l) false vzero vzero) as [s HS].
  { left. reflexivity. } { rewrite map_length. auto. }
  exists s. split; [exact HS|]. split; [|eapply placed_survey; eauto].
  rewrite (Survey_rows _ _ _ _ _ _ _ HS), map_map. rewrite <- (map_id l) at 2. apply map_ext. intros []. reflexivity.
Qed.
(** a straight leg suits when its levels are not too close to its end *)
Lemma straight_no_opposite : forall z u dm w, is_unit u -> ~ opposite_depth z u u dm w.
Proof.
  intros z u dm w U (t & n & r & (A & B) & C & _). unfold is_unit in U. rewrite U in B.
  assert (t = 0); [|lra]. apply cos_inj_0_PI; try lra. rewrite cos_0. auto.
Qed.

Definition quarter : list station := [mkSt 0 0 0; mkSt 100 0 0; mkSt (100 + 50 * PI) (PI / 2) 0].
Lemma quarter_dogleg : pair_dogleg (mkSt 100 0 0) (mkSt (100 + 50 * PI) (PI / 2) 0) = PI / 2.
Proof.
  apply pair_dogleg_is; [pose proof PI_RGT_0; lra|]. unfold dir, direction_nev. cbn [st_inc st_azi]. unf.
  rewrite cos_PI2, sin_0, cos_0. ring.
Qed.
Lemma quarter_positions : forall s, sv_rows s = quarter -> placed s vzero vzero ->
  sv_nev s = [vzero; mkV 0 0 100; mkV 100 0 200].
Proof.
  intros s R PL. destruct (placed_len _ _ _ PL) as [_ LN]. rewrite R in LN. destruct (placed_hd _ _ _ PL) as [_ HN].
  destruct (sv_nev s) as [|p0 [|p1 [|p2 [|]]]] eqn:E; try discriminate. simpl in HN. subst p0.
  assert (E1 : p1 = vadd vzero (step_between (mkSt 0 0 0) (mkSt 100 0 0))).
  { apply (placed_steps s vzero vzero 0); rewrite ?R, ?E; auto. }
  assert (E2 : p2 = vadd p1 (step_between (mkSt 100 0 0) (mkSt (100 + 50 * PI) (PI / 2) 0))).
  { apply (placed_steps s vzero vzero 1); rewrite ?R, ?E; auto. }
  pose proof PI_RGT_0 as P0.
  assert (Q1 : p1 = mkV 0 0 100).
  { rewrite E1. rewrite <- leg_pos_end; cbn [st_md]; try lra.
    - rewrite leg_pos_straight; [|apply dogleg_0_iff; reflexivity]. unfold dir, direction_nev. cbn [st_inc st_azi].
      rewrite sin_0, cos_0. unf. apply V3_eq; simpl; ring.
    - replace (pair_dogleg (mkSt 0 0 0) (mkSt 100 0 0)) with 0; auto. symmetry. apply dogleg_0_iff. reflexivity. }
  rewrite Q1 in *. f_equal. f_equal. f_equal. rewrite E2.
  rewrite <- leg_pos_end; cbn [st_md]; try lra; [|rewrite quarter_dogleg; lra].
  rewrite leg_pos_arc; rewrite ?quarter_dogleg; cbn [st_md]; try lra.
  replace ((100 + 50 * PI - 100) * (PI / 2 / (100 + 50 * PI - 100))) with (PI / 2) by (field; lra).
  replace ((100 + 50 * PI - 100) / (PI / 2)) with 100 by (field; lra).
  unfold arc_point, bend_normal, dir, direction_nev. cbn [st_inc st_azi]. rewrite sin_PI2, cos_PI2, sin_0, cos_0. unf. apply V3_eq; simpl; lra.
Qed.
Lemma level30 : forall start z, is_level 0 30 start -> is_level start 30 z -> exists k : Z, z = IZR k * 30.
Proof. intros start z (i & ->) (j & ->). exists (i + j)%Z. rewrite plus_IZR. ring. Qed.

Lemma quarter_suits : forall s start, sv_rows s = quarter -> placed s vzero vzero -> is_level 0 30 start -> suits s start 30.
Proof.
  intros s start R PL LS. pose proof (quarter_positions s R PL) as NV.
  pose proof PI_RGT_0 as P0. assert (P3 := PI2_3_2). assert (P4 := PI_4).
  assert (INC : strictly_increasing (map st_md (sv_rows s))). { rewrite R. simpl. repeat split; lra. }
  intros k a b p A B P. rewrite R in A, B. rewrite NV in P.
  destruct k as [|[|[|k]]]; simpl in A, B, P; try discriminate; injection A as <-; injection B as <-; injection P as <-; cbn [st_md st_inc st_azi].
  - split; [unfold well_before; rewrite Rabs_right; lra|]. split; [left; reflexivity|].
    split; [intros w O; exfalso; revert O; apply straight_no_opposite; apply direction_unit|].
    intros m n h' Bm E LV.
    destruct (placed_lookup s vzero vzero 0 (mkSt 0 0 0) (mkSt 100 0 0) vzero m PL INC) as (n' & E' & _ & NP & NVc & _); rewrite ?R, ?NV; auto.
    rewrite E' in E. injection E as <- _. destruct (level30 _ _ LS LV) as (i & EI).
    rewrite NP in EI. cbn [st_md] in EI. change (interpolate_pos_nev vzero (mkSt 0 0 0) (mkSt 100 0 0) (m - 0)) with (leg_pos vzero (mkSt 0 0 0) (mkSt 100 0 0) (m - 0)) in EI.
    assert (D0 : pair_dogleg (mkSt 0 0 0) (mkSt 100 0 0) = 0) by (apply dogleg_0_iff; reflexivity).
    rewrite leg_pos_straight in EI by auto. unfold dir, direction_nev in EI. cbn [st_inc st_azi] in EI. rewrite cos_0 in EI. revert EI. unf. cbn [vz]. intro EI.
    assert (I3 : (i < 4)%Z) by (apply lt_IZR; simpl; lra). assert (I4 : IZR i <= 3) by (apply IZR_le; lia).
    split; [unfold well_before; rewrite Rabs_right; lra|]. left. rewrite NVc. cbn [st_md].
    change (dir (interp_station (mkSt 0 0 0) (mkSt 100 0 0) (m - 0))) with (leg_dir (mkSt 0 0 0) (mkSt 100 0 0) (m - 0)).
    rewrite leg_dir_straight by auto. reflexivity.
  - assert (U : direction_nev 0 0 = mkV 0 0 1). { unfold direction_nev. rewrite sin_0, cos_0. apply V3_eq; simpl; ring. }
    assert (V : direction_nev (PI / 2) 0 = mkV 1 0 0). { unfold direction_nev. rewrite sin_PI2, cos_PI2, cos_0, sin_0. apply V3_eq; simpl; ring. }
    rewrite U, V. set (A := mkSt 100 0 0). set (B := mkSt (100 + 50 * PI) (PI / 2) 0).
    assert (DG : pair_dogleg A B = PI / 2) by exact quarter_dogleg.
    split; [unfold well_before; rewrite Rabs_right; lra|]. split.
    { right. exists (PI / 2). split; [split; [lra|rewrite cos_PI2; unf; simpl; ring]|]. split; [lra|]. split; [nra|]. rewrite sin_PI2. split; lra. }
    split.
    { intros w (t & n & r & (T1 & T2) & T3 & T4 & N1 & N2 & N3 & ->) LW.
      assert (ET : t = PI / 2). { apply cos_inj_0_PI; try lra. rewrite T2, cos_PI2. unf. simpl. ring. }
      subst t. assert (NZ : vz n = 0). { revert N2. unfold orthogonal. unf. simpl. lra. }
      rewrite NZ in LW. destruct (level30 _ _ LS LW) as (i & EI). cbn [vz] in EI.
      assert (I3 : (3 < i)%Z) by (apply lt_IZR; simpl; lra). assert (I4 : (i < 4)%Z) by (apply lt_IZR; simpl; lra). lia. }
    intros m n h' Bm E LV.
    destruct (placed_lookup s vzero vzero 1 A B (mkV 0 0 100) m PL INC) as (n' & E' & _ & NP & NVc & _); rewrite ?R, ?NV; auto.
    rewrite E' in E. injection E as <- _. destruct (level30 _ _ LS LV) as (i & EI).
    rewrite NP in EI. change (interpolate_pos_nev (mkV 0 0 100) A B (m - st_md A)) with (leg_pos (mkV 0 0 100) A B (m - st_md A)) in EI.
    change (dir (interp_station A B (m - st_md A))) with (leg_dir A B (m - st_md A)) in NVc.
    rewrite leg_pos_arc in EI by (rewrite ?DG; cbn [st_md A B]; lra). rewrite leg_dir_arc in NVc by (rewrite DG; lra). rewrite DG in *.
    cbn [st_md A B] in EI, NVc.
    replace (100 + 50 * PI - 100) with (50 * PI) in EI, NVc by ring.
    replace ((m - 100) * (PI / 2 / (50 * PI))) with ((m - 100) / 100) in EI, NVc by (field; lra).
    set (d := (m - 100) / 100) in *.
    assert (Bd : 0 < d < PI / 2) by (unfold d; lra).
    assert (BN : bend_normal (dir A) (dir B) (PI / 2) = mkV 1 0 0).
    { unfold bend_normal. change (dir A) with (direction_nev 0 0). change (dir B) with (direction_nev (PI / 2) 0). rewrite U, V, sin_PI2, cos_PI2.
      unf. apply V3_eq; simpl; lra. }
    rewrite BN in EI, NVc. change (dir A) with (direction_nev 0 0) in EI, NVc. rewrite U in EI, NVc.
    revert EI. unfold arc_point. unf. cbn [vz]. replace (50 * PI / (PI / 2)) with 100 by (field; lra). intro EI.
    assert (SB : 0 < sin d < 1).
    { split; [apply sin_gt_0; lra|]. rewrite <- sin_PI2. apply sin_increasing_1; lra. }
    assert (I7 : (i < 7)%Z) by (apply lt_IZR; simpl; lra). assert (I6 : IZR i <= 6) by (apply IZR_le; lia).
    assert (S8 : sin d <= 8 / 10) by lra.
    assert (CB : 6 / 10 <= cos d).
    { pose proof (sin2_cos2 d) as SC. unfold Rsqr in SC. assert (0 < cos d) by (apply cos_gt_0; lra). nra. }
    assert (TB : 6 / 10 <= PI / 2 - d).
    { assert (sin (PI / 2 - d) < PI / 2 - d) by (apply sin_lt_x; lra). rewrite sin_shift in H. lra. }
    assert (M2 : 100 + 50 * PI - m = 100 * (PI / 2 - d)) by (unfold d; field).
    split; [unfold well_before; rewrite Rabs_right; lra|].
    right. exists (PI / 2 - d). rewrite NVc. split; [split; [lra|rewrite cos_shift; unfold arc_tangent; unf; simpl; ring]|].
    split; [lra|]. rewrite M2, sin_shift. split; [nra|]. split; lra.
Qed.

Definition upward : list station := [mkSt 0 PI 0; mkSt 100 PI 0].
Lemma upward_suits : forall s, sv_rows s = upward -> placed s vzero vzero -> suits s 0 30 /\ sv_nev s = [vzero; mkV 0 0 (-100)].
Proof.
  intros s R PL. destruct (placed_len _ _ _ PL) as [_ LN]. rewrite R in LN. destruct (placed_hd _ _ _ PL) as [_ HN].
  assert (INC : strictly_increasing (map st_md (sv_rows s))). { rewrite R. simpl. repeat split; lra. }
  assert (D0 : pair_dogleg (mkSt 0 PI 0) (mkSt 100 PI 0) = 0) by (apply dogleg_0_iff; reflexivity).
  assert (U : direction_nev PI 0 = mkV 0 0 (-1)). { unfold direction_nev. rewrite sin_PI, cos_PI. apply V3_eq; simpl; ring. }
  pose proof PI_RGT_0 as P0.
  assert (NV : sv_nev s = [vzero; mkV 0 0 (-100)]).
  { destruct (sv_nev s) as [|p0 [|p1 [|]]] eqn:E; try discriminate. simpl in HN. subst p0. f_equal. f_equal.
    rewrite (placed_steps s vzero vzero 0 (mkSt 0 PI 0) (mkSt 100 PI 0) vzero p1 PL); rewrite ?R, ?E; auto.
    rewrite <- leg_pos_end; cbn [st_md]; try lra. rewrite leg_pos_straight by auto. change (dir (mkSt 0 PI 0)) with (direction_nev PI 0). rewrite U.
    unf. apply V3_eq; simpl; ring. }
  split; auto. intros k a b p A B P. rewrite R in A, B. rewrite NV in P.
  destruct k as [|[|k]]; simpl in A, B, P; try discriminate; injection A as <-; injection B as <-; injection P as <-; cbn [st_md st_inc st_azi].
  split; [unfold well_before; rewrite Rabs_right; lra|]. split; [left; reflexivity|].
  split; [intros w O; exfalso; revert O; apply straight_no_opposite; apply direction_unit|].
  intros m n h' Bm E LV.
  destruct (placed_lookup s vzero vzero 0 (mkSt 0 PI 0) (mkSt 100 PI 0) vzero m PL INC) as (n' & E' & _ & NP & NVc & _); rewrite ?R, ?NV; auto.
  rewrite E' in E. injection E as <- _. destruct LV as (i & EI).
  rewrite NP in EI. cbn [st_md] in EI. change (interpolate_pos_nev vzero (mkSt 0 PI 0) (mkSt 100 PI 0) (m - 0)) with (leg_pos vzero (mkSt 0 PI 0) (mkSt 100 PI 0) (m - 0)) in EI.
  rewrite leg_pos_straight in EI by auto. change (dir (mkSt 0 PI 0)) with (direction_nev PI 0) in EI. rewrite U in EI. revert EI. unf. cbn [vz]. intro EI.
  assert (I3 : (-4 < i)%Z) by (apply lt_IZR; simpl; lra). assert (I4 : -3 <= IZR i) by (apply IZR_le; lia).
  split; [unfold well_before; rewrite Rabs_right; lra|]. left. rewrite NVc. cbn [st_md].
  change (dir (interp_station (mkSt 0 PI 0) (mkSt 100 PI 0) (m - 0))) with (leg_dir (mkSt 0 PI 0) (mkSt 100 PI 0) (m - 0)).
  rewrite leg_dir_straight by auto. reflexivity.
Qed.
