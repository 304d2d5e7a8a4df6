(** One connection: the rows drawn from it lie on it. *)
Require Import Reals ZArith Bool String List Lra Lia Psatz Sorted.
Require Import Verif.Base Verif.NumPy Verif.P_Trig Verif.Spec Verif.Spec_Lists Verif.M_Utils
  Verif.P_Utils Verif.P_Utils2 Verif.P_Utils3 Verif.M_Connector Verif.Spec_Connector Verif.P_Connector6 Verif.P_Connector7 Verif.P_Connector8
  Verif.M_Survey Verif.P_Survey Verif.P_Survey2
  Verif.P_Survey3 Verif.P_Survey4 Verif.P_Tvd Verif.M_Levels Verif.P_Levels Verif.P_Levels2 Verif.P_Levels3 Verif.M_Draw Verif.Spec_Draw.
Import ListNotations.
Open Scope R_scope.

(** a station at a depth heading in a direction *)
Definition stn (m : R) (v : V3) : station := let '(i, z) := get_angles true v in mkSt m i z.
Lemma stn_dir : forall m v, is_unit v -> dir (stn m v) = v /\ st_md (stn m v) = m.
Proof. intros m v U. pose proof (angles_dir v U) as H. unfold stn. destruct (get_angles true v). split; auto. Qed.

Lemma arc_unit : forall u n t, is_unit u -> is_unit n -> orthogonal u n -> is_unit (arc_tangent u n t).
Proof.
  unfold is_unit, orthogonal, arc_tangent. intros [a b c] [x y z] t U N O. revert U N O. unf. simpl. intros U N O.
  pose proof (sin2_cos2 t) as S. unfold Rsqr in S.
  replace 1 with (sin t * sin t + cos t * cos t) by lra.
  transitivity (cos t * cos t * (a * a + b * b + c * c) + sin t * sin t * (x * x + y * y + z * z) + 2 * sin t * cos t * (a * x + b * y + c * z)); [ring|].
  rewrite U, N, O. ring.
Qed.
Lemma arc_dot : forall u n s t, is_unit u -> is_unit n -> orthogonal u n ->
  dot (arc_tangent u n s) (arc_tangent u n t) = cos (t - s).
Proof.
  unfold is_unit, orthogonal, arc_tangent. intros [a b c] [x y z] s t U N O. revert U N O. unf. simpl. intros U N O.
  rewrite cos_minus.
  transitivity (cos s * cos t * (a * a + b * b + c * c) + sin s * sin t * (x * x + y * y + z * z)
    + (sin s * cos t + cos s * sin t) * (a * x + b * y + c * z)); [ring|].
  rewrite U, N, O. ring.
Qed.
(** the normal of a turn is determined by its two directions *)
Lemma arc_normal_unique : forall u n n' t, sin t <> 0 -> arc_tangent u n t = arc_tangent u n' t -> n = n'.
Proof.
  unfold arc_tangent. intros [a b c] [x y z] [x' y' z'] t S E. revert E. unf. intro E. injection E as E1 E2 E3.
  apply V3_eq; simpl; apply (Rmult_eq_reg_l (sin t)); auto; lra.
Qed.
(** the minimum-curvature step between two points of an arc *)
Lemma arc_step : forall p u n r x y s1 s2, is_unit u -> is_unit n -> orthogonal u n -> 0 < r ->
  0 <= x <= y -> (y - x) / r < PI ->
  dir s1 = arc_tangent u n (x / r) -> dir s2 = arc_tangent u n (y / r) -> st_md s2 - st_md s1 = y - x ->
  vadd (arc_point p u n r (x / r)) (step_between s1 s2) = arc_point p u n r (y / r).
Proof.
  intros p u n r x y s1 s2 U N O Hr XY L D1 D2 M.
  assert (PD : pair_dogleg s1 s2 = y / r - x / r).
  { apply pair_dogleg_is.
    - replace (y / r - x / r) with ((y - x) / r) by (field; lra). split; [|lra].
      apply Rmult_le_pos; [lra|]. left. apply Rinv_0_lt_compat. auto.
    - rewrite D1, D2. symmetry. apply arc_dot; auto. }
  rewrite step_between_disp, M, PD, D1, D2. set (a := x / r) in *. set (b := y / r) in *.
  assert (EX : y - x = r * (b - a)) by (unfold a, b; field; lra). rewrite EX.
  assert (AB : 0 <= b - a < PI).
  { unfold a, b. replace (y / r - x / r) with ((y - x) / r) by (field; lra). split; [|lra].
    apply Rmult_le_pos; [lra|]. left. apply Rinv_0_lt_compat. auto. }
  clearbody a b. clear - AB U N O.
  destruct (arc_normal_next u n a U N O) as [N1 N2].
  set (n' := vsub (vscale (cos a) n) (vscale (sin a) u)) in *.
  replace (arc_tangent u n b) with (arc_tangent (arc_tangent u n a) n' (b - a))
    by (unfold n'; rewrite arc_tangent_next; f_equal; lra).
  rewrite (mc_disp_radial (arc_tangent u n a) n' r (b - a)); auto using arc_tangent_unit.
  unfold n', arc_tangent, arc_point. rewrite sin_minus, cos_minus.
  pose proof (sin2_cos2' a) as S.
  assert (Sp : sin a * sin a = 1 - cos a * cos a) by lra.
  destruct p, u, n; unf; apply V3_eq; simpl; ring [Sp].
Qed.
Lemma straight_step : forall s1 s2 v, dir s1 = v -> dir s2 = v -> step_between s1 s2 = vscale (st_md s2 - st_md s1) v.
Proof.
  intros s1 s2 v D1 D2. rewrite step_between_disp, D1, D2.
  replace (pair_dogleg s1 s2) with 0; [apply mc_disp_straight|].
  symmetry. apply dogleg_0_iff. unfold dir in *. congruence.
Qed.

(** facts of a sound connection that turns *)
Definition bends (c : conn) (n : V3) (r : R) : Prop :=
  is_unit (k_vec1 c) /\ is_unit n /\ orthogonal (k_vec1 c) n /\ 0 < r /\ 0 < k_dogleg c < PI /\
  1 / 10000000000 <= sin (k_dogleg c) /\ k_dist_curve c = r * k_dogleg c /\
  k_vec_target c = arc_tangent (k_vec1 c) n (k_dogleg c) /\
  k_pos_target c = vadd (arc_point (k_pos1 c) (k_vec1 c) n r (k_dogleg c))
     (vscale (k_md_target c - (k_md1 c + k_dist_curve c)) (k_vec_target c)) /\
  k_md1 c + k_dist_curve c <= k_md_target c /\ wf_conn c /\
  match k_md2 c with Some m => m = k_md1 c + k_dist_curve c | None => k_md_target c = k_md1 c + k_dist_curve c end.
Lemma sound_bends : forall c, sound c -> k_method c <> Hold -> exists n r, bends c n r.
Proof.
  intros c (U & V & S) NH. unfold bends, wf_conn.
  destruct (k_method c); try congruence; try (destruct S; fail);
    destruct S as (r & pos2 & R0 & D & SN & (n & N & O & _ & -> & E & Q) & DC & L & K);
    destruct (k_md2 c); try (destruct K; fail); subst;
    exists n, r; repeat split; auto; try lra; rewrite ?DC; apply Rlt_le, Rmult_lt_0_compat; lra.
Qed.
Lemma sound_wf : forall c, sound c -> wf_conn c.
Proof.
  intros c S. destruct (k_method c) eqn:M; try (destruct (sound_bends c S) as (n & r & B); [congruence|]; apply B).
  destruct S as (_ & _ & S). rewrite M in S. unfold wf_conn. rewrite M. lra.
Qed.
Lemma sound_lt : forall c, sound c -> k_md1 c < k_md_target c.
Proof.
  intros c S. destruct (k_method c) eqn:M;
    try (destruct (sound_bends c S) as (n & r & _ & _ & _ & R0 & D & _ & E & _ & _ & L & _); [congruence|]; nra).
  destruct S as (_ & _ & S). rewrite M in S. tauto.
Qed.
Lemma hold_or : forall c, k_method c = Hold \/ k_method c <> Hold.
Proof. intros c. destruct (k_method c); auto; right; discriminate. Qed.
Lemma on_bend : forall c n r x q d, bends c n r -> k_method c <> Hold -> (on_connection c x q d <->
  k_md1 c <= x <= k_md_target c /\
  (x <= k_md1 c + k_dist_curve c ->
     q = arc_point (k_pos1 c) (k_vec1 c) n r ((x - k_md1 c) / r) /\ d = arc_tangent (k_vec1 c) n ((x - k_md1 c) / r)) /\
  (k_md1 c + k_dist_curve c <= x ->
     q = vadd (k_pos_target c) (vscale (x - k_md_target c) (k_vec_target c)) /\ d = k_vec_target c)).
Proof.
  intros c n r x q d (U & N & O & R0 & D & SN & DC & E & Q & _) NH. unfold on_connection.
  assert (RE : k_dist_curve c / k_dogleg c = r) by (rewrite DC; field; lra). rewrite RE. cbv zeta.
  assert (W : forall P : V3 -> Prop, (exists n', is_unit n' /\ orthogonal (k_vec1 c) n' /\ k_vec_target c = arc_tangent (k_vec1 c) n' (k_dogleg c) /\ P n') <-> P n).
  { intro P. split.
    - intros (n' & _ & _ & E' & H). replace n with n'; auto. eapply arc_normal_unique; [|rewrite <- E', <- E; reflexivity]. lra.
    - intro H. exists n. auto. }
  destruct (k_method c); try congruence; rewrite W; tauto.
Qed.
(** the place and direction at a depth: exists and is unique *)
Lemma on_exists : forall c x, sound c -> k_md1 c <= x <= k_md_target c -> exists q d, on_connection c x q d.
Proof.
  intros c x S B. destruct (hold_or c) as [M|M].
  - unfold on_connection. rewrite M. eauto.
  - destruct (sound_bends c S M) as (n & r & H).
    destruct (Rle_dec x (k_md1 c + k_dist_curve c)).
    + exists (arc_point (k_pos1 c) (k_vec1 c) n r ((x - k_md1 c) / r)), (arc_tangent (k_vec1 c) n ((x - k_md1 c) / r)).
      apply (on_bend c n r); auto. split; auto. split; auto. intro L.
      destruct H as (U & N & O & R0 & D & SN & DC & E & Q & _).
      assert (x = k_md1 c + k_dist_curve c) by lra. subst x.
      replace ((k_md1 c + k_dist_curve c - k_md1 c) / r) with (k_dogleg c) by (rewrite DC; field; lra).
      rewrite <- E. split; auto. rewrite Q. set (P := arc_point _ _ _ _ _). destruct P, (k_vec_target c). unf. apply V3_eq; simpl; ring.
    + exists (vadd (k_pos_target c) (vscale (x - k_md_target c) (k_vec_target c))), (k_vec_target c).
      apply (on_bend c n r); auto. split; auto. split; intros; [lra|auto].
Qed.
Lemma on_unique : forall c x q d q' d', sound c -> on_connection c x q d -> on_connection c x q' d' -> q = q' /\ d = d'.
Proof.
  intros c x q d q' d' S. destruct (hold_or c) as [M|M].
  - unfold on_connection. rewrite M. intros (_ & -> & ->) (_ & -> & ->). auto.
  - destruct (sound_bends c S M) as (n & r & H). rewrite !(on_bend c n r) by auto.
    intros (B & A1 & A2) (_ & A1' & A2').
    destruct (Rle_dec x (k_md1 c + k_dist_curve c)) as [L|L].
    + destruct (A1 L), (A1' L). split; congruence.
    + destruct (A2 ltac:(lra)), (A2' ltac:(lra)). split; congruence.
Qed.
Lemma on_unit : forall c x q d, sound c -> on_connection c x q d -> is_unit d.
Proof.
  intros c x q d S. destruct (hold_or c) as [M|M].
  - unfold on_connection. rewrite M. intros (_ & _ & ->). apply S.
  - destruct (sound_bends c S M) as (n & r & H). rewrite (on_bend c n r) by auto.
    intros (B & A1 & A2). destruct (Rle_dec x (k_md1 c + k_dist_curve c)) as [L|L].
    + destruct (A1 L) as (_ & ->). destruct H as (U & N & O & _). apply arc_unit; auto.
    + destruct (A2 ltac:(lra)) as (_ & ->). apply S.
Qed.
Lemma on_start : forall c, sound c -> on_connection c (k_md1 c) (k_pos1 c) (k_vec1 c).
Proof.
  intros c S. pose proof (sound_lt c S). destruct (on_exists c (k_md1 c) S ltac:(lra)) as (q & d & A).
  assert (q = k_pos1 c /\ d = k_vec1 c) as [<- <-]; [|exact A].
  destruct (hold_or c) as [M|M].
  - unfold on_connection in A. rewrite M in A. destruct A as (_ & -> & ->). split; auto.
    destruct (k_pos1 c), (k_vec1 c). unf. apply V3_eq; simpl; ring.
  - destruct (sound_bends c S M) as (n & r & Hb). rewrite (on_bend c n r) in A by auto. destruct A as (_ & A & _).
    destruct Hb as (U & N & O & R0 & D & SN & DC & E & Q & _).
    destruct A as (-> & ->); [nra|]. replace ((k_md1 c - k_md1 c) / r) with 0 by (field; lra).
    unfold arc_point, arc_tangent. rewrite sin_0, cos_0.
    destruct (k_pos1 c), (k_vec1 c), n. unf. split; apply V3_eq; simpl; ring.
Qed.
Lemma on_end : forall c, sound c -> on_connection c (k_md_target c) (k_pos_target c) (k_vec_target c).
Proof.
  intros c S. pose proof (sound_lt c S). destruct (on_exists c (k_md_target c) S ltac:(lra)) as (q & d & A).
  assert (q = k_pos_target c /\ d = k_vec_target c) as [<- <-]; [|exact A].
  destruct (hold_or c) as [M|M].
  - unfold on_connection in A. rewrite M in A. destruct A as (_ & -> & ->).
    destruct S as (_ & _ & S). rewrite M in S. destruct S as (_ & _ & V & P). auto.
  - destruct (sound_bends c S M) as (n & r & Hb). rewrite (on_bend c n r) in A by auto. destruct A as (_ & _ & A).
    destruct A as (-> & ->); [apply Hb|]. split; auto.
    destruct (k_pos_target c), (k_vec_target c). unf. apply V3_eq; simpl; ring.
Qed.
(** between two depths of one connection, neither of which passes the end of the
    turn, the survey step is the way from one to the other *)
Lemma on_step : forall c x y q d q' d' s1 s2, sound c -> x <= y -> on_connection c x q d -> on_connection c y q' d' ->
  (k_method c <> Hold -> y <= k_md1 c + k_dist_curve c \/ k_md1 c + k_dist_curve c <= x) ->
  st_md s1 = x -> st_md s2 = y -> dir s1 = d -> dir s2 = d' -> vadd q (step_between s1 s2) = q'.
Proof.
  intros c x y q d q' d' s1 s2 S XY A B J M1 M2 D1 D2. destruct (hold_or c) as [M|M].
  - unfold on_connection in *. rewrite M in *. destruct A as (_ & -> & ->), B as (_ & -> & ->).
    rewrite (straight_step s1 s2 _ D1 D2), M1, M2. destruct (k_pos1 c), (k_vec1 c). unf. apply V3_eq; simpl; ring.
  - specialize (J M). destruct (sound_bends c S M) as (n & r & H). rewrite (on_bend c n r) in A, B by auto.
    destruct A as (BA & A1 & A2), B as (BB & B1 & B2). destruct J as [J|J].
    + destruct (A1 ltac:(lra)) as (-> & ->), (B1 J) as (-> & ->).
      destruct H as (U & N & O & R0 & D & SN & DC & E & Q & _).
      apply arc_step; auto; try lra.
      replace (y - k_md1 c - (x - k_md1 c)) with (y - x) by ring.
      apply (Rle_lt_trans _ (k_dogleg c)); [|lra]. apply (Rmult_le_reg_r r); auto.
      unfold Rdiv. rewrite Rmult_assoc, Rinv_l, Rmult_1_r by lra. nra.
    + destruct (A2 J) as (-> & ->), (B2 ltac:(lra)) as (-> & ->).
      rewrite (straight_step s1 s2 _ D1 D2), M1, M2. destruct (k_pos_target c), (k_vec_target c). unf. apply V3_eq; simpl; ring.
Qed.
