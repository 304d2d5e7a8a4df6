(** Proofs about M_Survey.v: arc splitting, interpolation, azimuth references. *)
Require Import Reals Lra Psatz ZArith String List.
Require Import Verif.Base Verif.NumPy Verif.P_Trig Verif.Spec Verif.Spec_Lists Verif.M_Utils Verif.P_Utils
  Verif.P_Utils2 Verif.M_Survey.
Import ListNotations.
Open Scope R_scope.

(** ** splitting an arc *)
Lemma slerp_arc : forall u v t p, 0 < t < PI ->
  vadd (vscale (sin (t - p) / sin t) u) (vscale (sin p / sin t) v)
  = arc_tangent u (bend_normal u v t) p.
Proof.
  intros u v t p Ht. assert (0 < sin t) by (apply sin_gt_0; lra).
  unfold arc_tangent, bend_normal. rewrite sin_minus.
  destruct u, v; unf; apply V3_eq; simpl; field; lra.
Qed.

Lemma swap_vadd : forall a b, swap_xy (vadd a b) = vadd (swap_xy a) (swap_xy b).
Proof. intros [] []; reflexivity. Qed.
Lemma swap_vscale : forall k a, swap_xy (vscale k a) = vscale k (swap_xy a).
Proof. intros k []; reflexivity. Qed.

Lemma get_angles_direction_xyz : forall v, v <> vzero ->
  let '(i, a) := get_angles false v in direction_nev i a = swap_xy (vunit v).
Proof.
  intros v Hv. pose proof (get_angles_get_vec_unit false v Hv) as H.
  destruct (get_angles false v) as [i a]. rewrite get_vec_spec in H by lra.
  rewrite <- H. rewrite swap_swap. reflexivity.
Qed.

Definition dir (a : station) : V3 := direction_nev (st_inc a) (st_azi a).

(** tangent of the interpolated station *)
Lemma interp_direction : forall a b x, 0 < pair_dogleg a b < PI ->
  let '(i, z) := interp_angles a b x in
  direction_nev i z = arc_tangent (dir a) (bend_normal (dir a) (dir b) (pair_dogleg a b))
                        (x * (pair_dogleg a b / (st_md b - st_md a))).
Proof.
  intros a b x Ht. unfold interp_angles.
  destruct (Req_EM_T (pair_dogleg a b) 0); [lra|].
  set (t := pair_dogleg a b) in *. set (p := x * (t / (st_md b - st_md a))).
  set (T := vadd _ _).
  assert (ET : T = swap_xy (arc_tangent (dir a) (bend_normal (dir a) (dir b) t) p)).
  { unfold T. rewrite <- slerp_arc by auto. rewrite !get_vec_spec by lra.
    rewrite swap_vadd, !swap_vscale. reflexivity. }
  destruct (dogleg_angle (st_inc a) (st_azi a) (st_inc b) (st_azi b)) as [_ C].
  fold (pair_dogleg a b) in C. fold t in C.
  destruct (bend_normal_spec (dir a) (dir b) t) as [B1 [B2 _]]; auto; try apply direction_unit.
  assert (U : is_unit T).
  { rewrite ET. apply swap_unit, arc_tangent_unit; auto; apply direction_unit. }
  rewrite (vunit_unit T U).
  pose proof (get_angles_direction_xyz T (unit_nonzero _ U)) as G.
  destruct (get_angles false T) as [i z]. rewrite G, (vunit_unit T U), ET, swap_swap. reflexivity.
Qed.

Lemma mc_disp_radial : forall u n r t, is_unit u -> is_unit n -> orthogonal u n -> 0 <= t < PI ->
  mc_disp (r * t) t u (arc_tangent u n t)
  = vadd (vscale (r * sin t) u) (vscale (r * (1 - cos t)) n).
Proof.
  intros u n r t Hu Hn Ho Ht.
  destruct (Req_EM_T t 0) as [E|E].
  - subst t. unfold mc_disp, arc_tangent. rewrite sin_0, cos_0.
    destruct u, n; unf; apply V3_eq; simpl; field.
  - assert (C : circular_arc vzero u (r * t) t (arc_point vzero u n r t) (arc_tangent u n t)).
    { exists n, r. repeat split; auto. }
    apply circular_arc_disp in C; auto; [|lra].
    rewrite vadd_0_l in C. rewrite <- C. unfold arc_point. apply vadd_0_l.
Qed.

Lemma arc_tangent_next : forall u n p q,
  arc_tangent (arc_tangent u n p) (vsub (vscale (cos p) n) (vscale (sin p) u)) q
  = arc_tangent u n (p + q).
Proof.
  intros. unfold arc_tangent. rewrite cos_plus, sin_plus.
  destruct u, n; unf; apply V3_eq; simpl; ring.
Qed.
Lemma arc_normal_next : forall u n p, is_unit u -> is_unit n -> orthogonal u n ->
  let n' := vsub (vscale (cos p) n) (vscale (sin p) u) in
  is_unit n' /\ orthogonal (arc_tangent u n p) n'.
Proof.
  unfold is_unit, orthogonal, arc_tangent; intros u n p Hu Hn Ho; simpl.
  pose proof (sin2_cos2' p).
  split.
  - rewrite dot_vsub_l, !dot_vsub_r, !dot_vscale_l, !dot_vscale_r, Hn, Hu, (dot_comm n u), Ho. lra.
  - rewrite dot_vadd_l, !dot_vsub_r, !dot_vscale_l, !dot_vscale_r, Hu, Hn, (dot_comm n u), Ho. ring.
Qed.

Lemma disp_split : forall u n r p t, is_unit u -> is_unit n -> orthogonal u n ->
  0 <= p <= t -> t < PI ->
  vadd (mc_disp (r * p) p u (arc_tangent u n p))
       (mc_disp (r * (t - p)) (t - p) (arc_tangent u n p) (arc_tangent u n t))
  = mc_disp (r * t) t u (arc_tangent u n t).
Proof.
  intros u n r p t Hu Hn Ho Hp Ht.
  destruct (arc_normal_next u n p Hu Hn Ho) as [N1 N2].
  set (n' := vsub (vscale (cos p) n) (vscale (sin p) u)) in *.
  replace (arc_tangent u n t) with (arc_tangent (arc_tangent u n p) n' (t - p)) at 1.
  2: { unfold n'. rewrite arc_tangent_next. f_equal; lra. }
  rewrite (mc_disp_radial u n r p), (mc_disp_radial (arc_tangent u n p) n' r (t - p)),
    (mc_disp_radial u n r t); auto using arc_tangent_unit; try lra.
  unfold n', arc_tangent. rewrite sin_minus, cos_minus.
  pose proof (sin2_cos2' p) as S.
  assert (Sp : sin p * sin p = 1 - cos p * cos p) by lra.
  destruct u, n; unf; apply V3_eq; simpl; ring [Sp].
Qed.

Lemma arc_tangent_dot : forall u n p q, is_unit u -> is_unit n -> orthogonal u n ->
  dot (arc_tangent u n p) (arc_tangent u n q) = cos (q - p).
Proof.
  unfold is_unit, orthogonal, arc_tangent; intros u n p q Hu Hn Ho.
  rewrite dot_vadd_l, !dot_vadd_r, !dot_vscale_l, !dot_vscale_r, Hu, Hn, (dot_comm n u), Ho, cos_minus. ring.
Qed.
Lemma arc_tangent_0 : forall u n, arc_tangent u n 0 = u.
Proof. intros. unfold arc_tangent. rewrite cos_0, sin_0. destruct u, n; unf; apply V3_eq; simpl; ring. Qed.

Definition step_between (a b : station) : V3 :=
  min_curve_step (st_md b - st_md a) (st_inc a) (st_azi a) (st_inc b) (st_azi b).

Lemma step_between_disp : forall a b,
  step_between a b = mc_disp (st_md b - st_md a) (pair_dogleg a b) (dir a) (dir b).
Proof. reflexivity. Qed.

Lemma dir_interp : forall a b x, 0 < pair_dogleg a b < PI ->
  dir (interp_station a b x)
  = arc_tangent (dir a) (bend_normal (dir a) (dir b) (pair_dogleg a b))
      (x * (pair_dogleg a b / (st_md b - st_md a))).
Proof.
  intros a b x H. pose proof (interp_direction a b x H) as D.
  unfold interp_station. destruct (interp_angles a b x). exact D.
Qed.
Lemma md_interp : forall a b x, st_md (interp_station a b x) = st_md a + x.
Proof. intros. unfold interp_station. destruct (interp_angles a b x). reflexivity. Qed.

Lemma interp_doglegs : forall a b x, 0 < pair_dogleg a b < PI ->
  0 < st_md b - st_md a -> 0 <= x <= st_md b - st_md a ->
  pair_dogleg a (interp_station a b x) = x * (pair_dogleg a b / (st_md b - st_md a)) /\
  pair_dogleg (interp_station a b x) b
  = pair_dogleg a b - x * (pair_dogleg a b / (st_md b - st_md a)).
Proof.
  intros a b x Ht Hd Hx.
  destruct (dogleg_angle (st_inc a) (st_azi a) (st_inc b) (st_azi b)) as [_ C].
  fold (pair_dogleg a b) in C. fold (dir a) in C. fold (dir b) in C.
  pose proof (dir_interp a b x Ht) as D.
  set (t := pair_dogleg a b) in *. set (p := x * (t / (st_md b - st_md a))) in *.
  destruct (bend_normal_spec (dir a) (dir b) t) as [B1 [B2 B3]]; auto; try apply direction_unit.
  set (n := bend_normal (dir a) (dir b) t) in *.
  assert (Hp : 0 <= p <= t).
  { unfold p. assert (0 < t / (st_md b - st_md a)) by (apply Rdiv_lt_0_compat; lra).
    split; [nra|]. replace t with ((st_md b - st_md a) * (t / (st_md b - st_md a))) at 2 by (field; lra).
    nra. }
  split.
  - apply (angle_between_unique (dir a) (dir (interp_station a b x))).
    + apply dogleg_angle.
    + split; [lra|]. rewrite D. rewrite <- (arc_tangent_0 (dir a) n) at 1.
      rewrite arc_tangent_dot; auto; try apply direction_unit. f_equal; ring.
  - apply (angle_between_unique (dir (interp_station a b x)) (dir b)).
    + apply dogleg_angle.
    + split; [lra|]. rewrite D, B3. rewrite arc_tangent_dot; auto; try apply direction_unit.
Qed.

Lemma step_split_curve : forall a b x, 0 < pair_dogleg a b < PI ->
  0 < st_md b - st_md a -> 0 <= x <= st_md b - st_md a ->
  vadd (step_between a (interp_station a b x)) (step_between (interp_station a b x) b)
  = step_between a b.
Proof.
  intros a b x Ht Hd Hx.
  destruct (interp_doglegs a b x Ht Hd Hx) as [D1 D2].
  rewrite !step_between_disp, D1, D2, !md_interp, (dir_interp a b x Ht).
  destruct (dogleg_angle (st_inc a) (st_azi a) (st_inc b) (st_azi b)) as [_ C].
  fold (pair_dogleg a b) in C. fold (dir a) in C. fold (dir b) in C.
  set (t := pair_dogleg a b) in *. set (p := x * (t / (st_md b - st_md a))) in *.
  destruct (bend_normal_spec (dir a) (dir b) t) as [B1 [B2 B3]]; auto; try apply direction_unit.
  set (n := bend_normal (dir a) (dir b) t) in *.
  assert (Hp : 0 <= p <= t).
  { unfold p. assert (0 < t / (st_md b - st_md a)) by (apply Rdiv_lt_0_compat; lra).
    split; [nra|]. replace t with ((st_md b - st_md a) * (t / (st_md b - st_md a))) at 2 by (field; lra).
    nra. }
  set (r := (st_md b - st_md a) / t).
  replace (st_md a + x - st_md a) with (r * p) by (unfold r, p; field; lra).
  replace (st_md b - (st_md a + x)) with (r * (t - p)) by (unfold r, p; field; lra).
  replace (st_md b - st_md a) with (r * t) by (unfold r; field; lra).
  rewrite B3. apply disp_split; auto; try lra. apply direction_unit.
Qed.

Lemma step_straight' : forall a b, pair_dogleg a b = 0 ->
  step_between a b = vscale (st_md b - st_md a) (dir a).
Proof. intros. unfold step_between. apply step_straight. exact H. Qed.

Lemma step_split_straight : forall a b x, pair_dogleg a b = 0 ->
  vadd (step_between a (interp_station a b x)) (step_between (interp_station a b x) b)
  = step_between a b.
Proof.
  intros a b x H0. unfold interp_station, interp_angles.
  destruct (Req_EM_T (pair_dogleg a b) 0); [|lra].
  rewrite !step_straight'; auto.
  - simpl. unfold dir; simpl. generalize (direction_nev (st_inc a) (st_azi a)). intros []; unf; apply V3_eq; simpl; ring.
  - apply dogleg_0_iff. reflexivity.
Qed.

Lemma step_split : forall a b x, pair_dogleg a b < PI ->
  0 < st_md b - st_md a -> 0 <= x <= st_md b - st_md a ->
  vadd (step_between a (interp_station a b x)) (step_between (interp_station a b x) b)
  = step_between a b.
Proof.
  intros a b x Ht Hd Hx.
  destruct (dogleg_angle (st_inc a) (st_azi a) (st_inc b) (st_azi b)) as [B _].
  fold (pair_dogleg a b) in B.
  destruct (Req_EM_T (pair_dogleg a b) 0).
  - apply step_split_straight; auto.
  - apply step_split_curve; auto; lra.
Qed.

(** ** positions as a recursive path *)
Fixpoint path_from (p : V3) (a : station) (l : list station) : list V3 :=
  p :: match l with
       | [] => []
       | b :: r => path_from (vadd p (pair_delta a b)) b r
       end.

Lemma vcumsum_map_add : forall l acc s,
  map (fun p => vadd p s) (vcumsum_from acc l) = vcumsum_from (vadd acc s) l.
Proof.
  induction l; intros; simpl; auto. rewrite IHl.
  replace (vadd (vadd acc a) s) with (vadd (vadd acc s) a); auto.
  rewrite <- !vadd_assoc. f_equal. apply vadd_comm.
Qed.

Lemma cumsum_path : forall l p a,
  p :: vcumsum_from p (pairwise pair_delta (a :: l)) = path_from p a l.
Proof.
  induction l as [|b r IH]; intros p a.
  - reflexivity.
  - change (pairwise pair_delta (a :: b :: r)) with (pair_delta a b :: pairwise pair_delta (b :: r)).
    change (p :: (vadd p (pair_delta a b)
       :: vcumsum_from (vadd p (pair_delta a b)) (pairwise pair_delta (b :: r)))
       = p :: path_from (vadd p (pair_delta a b)) b r).
    rewrite IH. reflexivity.
Qed.

Lemma mc_list_path : forall a l start, mc_list (a :: l) start = path_from start a l.
Proof.
  intros. unfold mc_list, vcumsum. rewrite vcumsum_map_add.
  change (vcumsum_from (vadd vzero start) (vzero :: pairwise pair_delta (a :: l)))
    with (vadd (vadd vzero start) vzero :: vcumsum_from (vadd (vadd vzero start) vzero) (pairwise pair_delta (a :: l))).
  rewrite vadd_0_l, vadd_0_r. apply cumsum_path.
Qed.

Notation remove_at := without_entry.

Lemma pair_delta_swap : forall a b, pair_delta a b = swap_xy (step_between a b).
Proof. reflexivity. Qed.

Lemma path_insert : forall pre p c a m b post,
  vadd (step_between a m) (step_between m b) = step_between a b ->
  path_from p c (pre ++ a :: b :: post)
  = remove_at (S (S (length pre))) (path_from p c (pre ++ a :: m :: b :: post)).
Proof.
  induction pre as [|d pre IH]; intros p c a m b post H.
  - simpl. f_equal. f_equal. f_equal.
    rewrite !pair_delta_swap. rewrite <- H, swap_vadd.
    rewrite vadd_assoc. reflexivity.
  - simpl. f_equal. apply IH; auto.
Qed.

Lemma mc_insert : forall pre a m b post start,
  vadd (step_between a m) (step_between m b) = step_between a b ->
  mc_list (pre ++ a :: b :: post) start
  = remove_at (S (length pre)) (mc_list (pre ++ a :: m :: b :: post) start).
Proof.
  intros pre a m b post start H. destruct pre as [|c pre].
  - simpl app. rewrite !mc_list_path. simpl. f_equal. f_equal.
    rewrite !pair_delta_swap. rewrite <- H, swap_vadd, vadd_assoc. reflexivity.
  - simpl app. rewrite !mc_list_path. apply path_insert; auto.
Qed.

(** ** azimuth references *)
Lemma deg_rad : forall x, degrees (radians x) = x.
Proof. intros. unfold degrees, radians. pose proof PI_neq0'. field; auto. Qed.
Lemma rad_deg : forall x, radians (degrees x) = x.
Proof. intros. unfold degrees, radians. pose proof PI_neq0'. field; auto. Qed.
Lemma rad_add : forall x y, radians (x + y) = radians x + radians y.
Proof. intros; unfold radians; ring. Qed.
Lemma rad_sub : forall x y, radians (x - y) = radians x - radians y.
Proof. intros; unfold radians; ring. Qed.

Lemma azi_consistent : forall ref c d deg azi,
  let a := process_azi_ref ref c d deg azi in
  az_true_rad a - c = az_grid_rad a /\ az_true_rad a - d = az_mag_rad a /\
  az_grid_deg a = degrees (az_grid_rad a) /\
  az_true_deg a = degrees (az_true_rad a) /\
  az_mag_deg a = degrees (az_mag_rad a).
Proof.
  intros ref c d deg azi. unfold process_azi_ref.
  destruct ref, deg; simpl; rewrite ?rad_add, ?rad_sub, ?rad_add, ?rad_deg, ?deg_rad;
    repeat split; try lra; unfold degrees, radians; pose proof PI_neq0'; field; auto.
Qed.
Definition pick (ref : azi_ref) (deg : bool) (a : azis) : R :=
  match ref, deg with
  | RefGrid, true => az_grid_deg a | RefGrid, false => az_grid_rad a
  | RefTrue, true => az_true_deg a | RefTrue, false => az_true_rad a
  | RefMagnetic, true => az_mag_deg a | RefMagnetic, false => az_mag_rad a
  end.
Lemma azi_input : forall ref c d deg azi, pick ref deg (process_azi_ref ref c d deg azi) = azi.
Proof. intros [] c d [] azi; reflexivity. Qed.

Lemma azis_eq : forall a b, az_grid_deg a = az_grid_deg b -> az_grid_rad a = az_grid_rad b ->
  az_true_deg a = az_true_deg b -> az_true_rad a = az_true_rad b ->
  az_mag_deg a = az_mag_deg b -> az_mag_rad a = az_mag_rad b -> a = b.
Proof. intros [] []; simpl; intros; subst; reflexivity. Qed.

Lemma azi_rebuild : forall ref c d deg azi ref' deg',
  let a := process_azi_ref ref c d deg azi in
  process_azi_ref ref' c d deg' (pick ref' deg' a) = a.
Proof.
  intros. subst a. pose proof PI_neq0' as HP.
  destruct ref, deg, ref', deg'; simpl;
  apply azis_eq; simpl; unfold degrees, radians; field; auto.
Qed.

(** ** searchsorted *)
Notation increasing := strictly_increasing.
Lemma increasing_tail : forall a l, increasing (a :: l) -> increasing l.
Proof. intros a [|b r]; simpl; tauto. Qed.
Lemma increasing_head_lt : forall l a k b, increasing (a :: l) ->
  nth_error l k = Some b -> a < b.
Proof.
  induction l as [|c r IH]; intros a k b H E.
  - destruct k; discriminate.
  - destruct H as [H1 H2]. destruct k; simpl in E.
    + injection E; intros; subst; auto.
    + assert (c < b) by (eapply IH; eauto). lra.
Qed.
Lemma increasing_nth_lt : forall l i j a b, increasing l -> (i < j)%nat ->
  nth_error l i = Some a -> nth_error l j = Some b -> a < b.
Proof.
  induction l as [|c r IH]; intros i j a b H L Ei Ej.
  - destruct i; discriminate.
  - destruct j as [|j]; [lia|]. simpl in Ej. destruct i as [|i]; simpl in Ei.
    + injection Ei; intros; subst. eapply increasing_head_lt; eauto.
    + eapply (IH i j); eauto using increasing_tail. lia.
Qed.

Lemma ss_left_le : forall l v, (searchsorted_left l v <= length l)%nat.
Proof. induction l; intros; simpl; auto. destruct (Rlt_dec a v); simpl; auto with arith. Qed.
Lemma ss_left_below : forall l v k b, (k < searchsorted_left l v)%nat ->
  nth_error l k = Some b -> b < v.
Proof.
  induction l as [|a r IH]; intros v k b H E.
  - destruct k; discriminate.
  - simpl in H. destruct (Rlt_dec a v); [|lia].
    destruct k; simpl in E. injection E; intros; subst; auto. eapply IH; eauto. lia.
Qed.
Lemma ss_left_at : forall l v b, nth_error l (searchsorted_left l v) = Some b -> v <= b.
Proof.
  induction l as [|a r IH]; intros v b E; simpl in E; [discriminate|].
  destruct (Rlt_dec a v); simpl in E. eauto. injection E; intros; subst; lra.
Qed.

Lemma ss_left_full : forall l v last, increasing l -> nth_error l (pred (length l)) = Some last ->
  ((length l <= searchsorted_left l v)%nat <-> last < v).
Proof.
  intros l v last Hi Hl. split; intro H.
  - apply (ss_left_below l v (pred (length l))); auto.
    destruct l; simpl in *; [discriminate|lia].
  - destruct (Nat.le_gt_cases (length l) (searchsorted_left l v)); auto.
    exfalso. destruct (nth_error l (searchsorted_left l v)) as [b|] eqn:E.
    2: { apply nth_error_None in E. lia. }
    pose proof (ss_left_at _ _ _ E).
    destruct (Nat.eq_dec (searchsorted_left l v) (pred (length l))) as [Q|Q].
    + rewrite Q in E. rewrite Hl in E. injection E; intros; subst; lra.
    + assert (b < last) by (eapply (increasing_nth_lt l (searchsorted_left l v) (pred (length l))); eauto; lia). lra.
Qed.
