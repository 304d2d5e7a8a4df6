(** Part of a leg is the leg of its end points; the survey of one connection. *)
Require Import Reals ZArith Bool String List Lra Lia Psatz.
Require Import Verif.Base Verif.NumPy Verif.P_Trig Verif.Spec Verif.Spec_Lists Verif.M_Utils
  Verif.P_Utils Verif.P_Utils2 Verif.P_Utils3 Verif.M_Survey Verif.P_Survey Verif.P_Survey2
  Verif.P_Survey3 Verif.P_Survey4 Verif.P_Tvd Verif.P_Levels.
Import ListNotations.
Open Scope R_scope.

Lemma pair_dogleg_is : forall s t th, 0 <= th <= PI -> cos th = dot (dir s) (dir t) -> pair_dogleg s t = th.
Proof. intros s t th H E. apply dogleg_is; auto. Qed.
Lemma pair_dogleg_range : forall s t, 0 <= pair_dogleg s t <= PI /\ cos (pair_dogleg s t) = dot (dir s) (dir t).
Proof. intros s t. destruct (dogleg_angle (st_inc s) (st_azi s) (st_inc t) (st_azi t)) as [A B]. split; auto. Qed.

Lemma leg_part : forall p a b x1 x2 s1 s2, pair_dogleg a b < PI -> 0 < st_md b - st_md a ->
  0 <= x1 <= x2 -> x2 <= st_md b - st_md a ->
  st_md s1 = st_md a + x1 -> dir s1 = leg_dir a b x1 -> st_md s2 = st_md a + x2 -> dir s2 = leg_dir a b x2 ->
  pair_dogleg s1 s2 = (x2 - x1) * (pair_dogleg a b / (st_md b - st_md a)) /\
  vadd (leg_pos p a b x1) (step_between s1 s2) = leg_pos p a b x2.
Proof.
  intros p a b x1 x2 s1 s2 Ht Hm Hx Hx2 M1 D1 M2 D2.
  destruct (pair_dogleg_range a b) as [[T0 _] TC].
  destruct (Req_dec (pair_dogleg a b) 0) as [Z|NZ].
  - rewrite (leg_dir_straight _ _ x1 Z) in D1. rewrite (leg_dir_straight _ _ x2 Z) in D2. rewrite Z.
    assert (PZ : pair_dogleg s1 s2 = 0).
    { apply dogleg_0_iff. fold (dir s1) (dir s2). congruence. }
    split; [rewrite PZ; unfold Rdiv; ring|].
    rewrite !leg_pos_straight by auto. rewrite step_straight' by auto. rewrite M1, M2, D1.
    destruct p, (dir a). unf. apply V3_eq; simpl; ring.
  - set (th := pair_dogleg a b) in *. set (dl := st_md b - st_md a) in *.
    assert (R0 : 0 < th < PI) by lra.
    destruct (bend_normal_spec (dir a) (dir b) th) as [U [O EQ]]; try apply direction_unit; auto.
    set (n := bend_normal (dir a) (dir b) th) in *.
    assert (K0 : 0 < th / dl) by (apply Rdiv_lt_0_compat; lra).
    set (e1 := x1 * (th / dl)). set (e2 := x2 * (th / dl)).
    assert (B1 : 0 <= e1) by (unfold e1; nra).
    assert (B2 : e1 <= e2) by (unfold e1, e2; nra).
    assert (B3 : e2 <= th).
    { unfold e2. replace th with (dl * (th / dl)) at 2 by (field; lra). apply Rmult_le_compat_r; lra. }
    rewrite (leg_dir_arc a b x1 R0) in D1. rewrite (leg_dir_arc a b x2 R0) in D2.
    fold th dl n in D1, D2. fold e1 in D1. fold e2 in D2.
    assert (UA : is_unit (dir a)) by apply direction_unit.
    set (n' := vadd (vscale (- sin e1) (dir a)) (vscale (cos e1) n)).
    assert (N1 : is_unit n').
    { unfold is_unit, n', orthogonal in *. rewrite dot_vadd_l, !dot_vadd_r, !dot_vscale_l, !dot_vscale_r, (dot_comm n (dir a)), UA, U, O.
      pose proof (sin2_cos2' e1). lra. }
    assert (N2 : orthogonal (dir s1) n').
    { rewrite D1. unfold is_unit, n', orthogonal, arc_tangent in *. rewrite dot_vadd_l, !dot_vadd_r, !dot_vscale_l, !dot_vscale_r, (dot_comm n (dir a)), UA, U, O.
      ring. }
    assert (T2 : dir s2 = arc_tangent (dir s1) n' (e2 - e1)).
    { rewrite D1, D2. unfold n', arc_tangent. rewrite sin_minus, cos_minus.
      pose proof (sin2_cos2' e1) as S.
      assert (Sp : sin e1 * sin e1 = 1 - cos e1 * cos e1) by lra.
      destruct (dir a), n; unf; apply V3_eq; simpl; ring [Sp]. }
    assert (PD : pair_dogleg s1 s2 = e2 - e1).
    { apply pair_dogleg_is; [lra|]. rewrite T2. unfold arc_tangent.
      rewrite dot_vadd_r, !dot_vscale_r. unfold orthogonal in N2. rewrite N2.
      assert (US : is_unit (dir s1)) by apply direction_unit. unfold is_unit in US. rewrite US. ring. }
    split; [rewrite PD; unfold e1, e2; ring|].
    rewrite step_between_disp, PD, M1, M2, T2.
    replace (st_md a + x2 - (st_md a + x1)) with (dl / th * (e2 - e1)) by (unfold e1, e2; field; lra).
    rewrite mc_disp_radial; auto; [|apply direction_unit|lra].
    rewrite (leg_pos_arc p a b x1 R0 Hm ltac:(unfold dl in *; lra)), (leg_pos_arc p a b x2 R0 Hm ltac:(unfold dl in *; lra)).
    fold th dl n e1 e2. rewrite D1. unfold n', arc_point, arc_tangent. rewrite sin_minus, cos_minus.
    pose proof (sin2_cos2' e1) as S.
    assert (Sp : sin e1 * sin e1 = 1 - cos e1 * cos e1) by lra.
    destruct p, (dir a), n; unf; apply V3_eq; simpl; ring [Sp].
Qed.

Lemma leg_dir_0 : forall a b, pair_dogleg a b < PI -> leg_dir a b 0 = dir a.
Proof.
  intros a b H. destruct (pair_dogleg_range a b) as [[T _] _].
  destruct (Req_dec (pair_dogleg a b) 0) as [Z|NZ]; [apply leg_dir_straight; auto|].
  rewrite leg_dir_arc by lra. rewrite Rmult_0_l. unfold arc_tangent. rewrite sin_0, cos_0.
  destruct (dir a), (bend_normal _ _ _). unf. apply V3_eq; simpl; ring.
Qed.
Lemma leg_dir_end : forall a b, pair_dogleg a b < PI -> 0 < st_md b - st_md a -> leg_dir a b (st_md b - st_md a) = dir b.
Proof.
  intros a b H Hm. destruct (pair_dogleg_range a b) as [[T _] C].
  destruct (Req_dec (pair_dogleg a b) 0) as [Z|NZ].
  - rewrite leg_dir_straight by auto. apply dogleg_0_iff. exact Z.
  - rewrite leg_dir_arc by lra.
    replace ((st_md b - st_md a) * (pair_dogleg a b / (st_md b - st_md a))) with (pair_dogleg a b) by (field; lra).
    symmetry. apply (bend_normal_spec (dir a) (dir b)); auto; try apply direction_unit; lra.
Qed.
Lemma leg_pos_0 : forall p a b, pair_dogleg a b < PI -> 0 < st_md b - st_md a -> leg_pos p a b 0 = p.
Proof.
  intros p a b H Hm. destruct (pair_dogleg_range a b) as [[T _] _].
  destruct (Req_dec (pair_dogleg a b) 0) as [Z|NZ].
  - rewrite leg_pos_straight by auto. destruct p, (dir a). unf. apply V3_eq; simpl; ring.
  - rewrite leg_pos_arc by lra. rewrite Rmult_0_l. unfold arc_point. rewrite sin_0, cos_0.
    destruct p, (dir a), (bend_normal _ _ _). unf. apply V3_eq; simpl; ring.
Qed.
Lemma leg_pos_end : forall p a b, pair_dogleg a b < PI -> 0 < st_md b - st_md a ->
  leg_pos p a b (st_md b - st_md a) = vadd p (step_between a b).
Proof.
  intros p a b H Hm. rewrite <- (proj2 (leg_part p a b 0 (st_md b - st_md a) a b H Hm ltac:(lra) ltac:(lra)
    ltac:(lra) (eq_sym (leg_dir_0 a b H)) ltac:(lra) (eq_sym (leg_dir_end a b H Hm)))).
  rewrite leg_pos_0 by auto. reflexivity.
Qed.
(** the leg from an inner point to the end *)
Lemma leg_rest : forall p a b x1 s1 b1, pair_dogleg a b < PI -> 0 < st_md b - st_md a ->
  0 <= x1 < st_md b - st_md a -> st_md s1 = st_md a + x1 -> dir s1 = leg_dir a b x1 ->
  st_md b1 = st_md b -> dir b1 = dir b ->
  pair_dogleg s1 b1 = (st_md b - st_md a - x1) * (pair_dogleg a b / (st_md b - st_md a)) /\
  forall x, 0 <= x <= st_md b - st_md a - x1 ->
    leg_dir s1 b1 x = leg_dir a b (x1 + x) /\
    leg_pos (leg_pos p a b x1) s1 b1 x = leg_pos p a b (x1 + x).
Proof.
  intros p a b x1 s1 b1 Ht Hm Hx M1 D1 M2 D2.
  assert (D2' : dir b1 = leg_dir a b (st_md b - st_md a)) by (rewrite leg_dir_end; auto).
  destruct (leg_part p a b x1 (st_md b - st_md a) s1 b1 Ht Hm ltac:(lra) ltac:(lra) M1 D1 ltac:(lra) D2') as [PD _].
  split; [exact PD|]. intros x Bx.
  destruct (pair_dogleg_range a b) as [[T0 _] TC].
  assert (DD : leg_dir s1 b1 x = leg_dir a b (x1 + x)).
  { destruct (Req_dec (pair_dogleg a b) 0) as [Z|NZ].
    - rewrite !leg_dir_straight; auto. rewrite D1, leg_dir_straight; auto. rewrite PD, Z. unfold Rdiv; ring.
    - set (th := pair_dogleg a b) in *. set (dl := st_md b - st_md a) in *.
      assert (K0 : 0 < th / dl) by (apply Rdiv_lt_0_compat; lra).
      assert (B3 : (dl - x1) * (th / dl) <= th).
      { replace th with (dl * (th / dl)) at 2 by (field; lra). apply Rmult_le_compat_r; lra. }
      assert (R0 : 0 < pair_dogleg s1 b1 < PI) by (rewrite PD; split; [apply Rmult_lt_0_compat; lra|lra]).
      rewrite (leg_dir_arc s1 b1 x R0), (leg_dir_arc a b (x1 + x)) by (fold th; lra). fold th dl.
      rewrite PD, M1, M2. replace (st_md b - (st_md a + x1)) with (dl - x1) by (unfold dl; ring).
      replace (x * ((dl - x1) * (th / dl) / (dl - x1))) with (x * (th / dl)) by (field; lra).
      set (e1 := x1 * (th / dl)). set (e := x * (th / dl)).
      replace ((x1 + x) * (th / dl)) with (e1 + e) by (unfold e1, e; ring).
      replace ((dl - x1) * (th / dl)) with (th - e1) by (unfold e1; field; lra).
      destruct (bend_normal_spec (dir a) (dir b) th) as [U [O EQ]]; try apply direction_unit; try (fold th; lra); auto.
      set (n := bend_normal (dir a) (dir b) th) in *.
      rewrite D2. rewrite D1. rewrite (leg_dir_arc a b x1) by (fold th; lra). fold th dl e1 n. rewrite EQ.
      clearbody n.
      assert (S1 : 0 < sin (th - e1)).
      { replace (th - e1) with ((dl - x1) * (th / dl)) by (unfold e1; field; lra). rewrite PD in R0. apply sin_gt_0; lra. }
      unfold bend_normal, arc_tangent.
      assert (Q : forall y z, / sin (th - e1) * (cos th * y + sin th * z - cos (th - e1) * (cos e1 * y + sin e1 * z))
        = - sin e1 * y + cos e1 * z).
      { intros y z. replace th with ((th - e1) + e1) at 2 3 by ring. rewrite (cos_plus (th - e1)), (sin_plus (th - e1)). field. lra. }
      generalize (dir a). intros u. rewrite (cos_plus e1 e), (sin_plus e1 e).
      destruct u as [u1 u2 u3], n as [n1 n2 n3]; unf; apply V3_eq; cbn [vx vy vz]; rewrite ?Q; ring. }
  split; [exact DD|].
  unfold leg_pos at 1. rewrite interpolate_pos_nev_step.
  apply (leg_part p a b x1 (x1 + x)); auto; try lra.
  rewrite md_interp, M1. ring.
Qed.
