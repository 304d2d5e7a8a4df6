(** From the constructor's arguments to the solved connection. *)
Require Import Reals ZArith Bool String List Lra Lia Psatz.
Require Import Verif.Base Verif.NumPy Verif.P_Trig Verif.Spec Verif.M_Utils Verif.P_Utils
  Verif.M_Survey Verif.M_Torque Verif.M_Connector Verif.Spec_Connector Verif.Spec_Connector2 Verif.P_Connector.
Import ListNotations.
Open Scope R_scope.

Ltac dm := match goal with
  | H : context [match ?x with _ => _ end] |- _ => destruct x eqn:?; try discriminate
  end.
Ltac dmg := match goal with |- context [match ?x with _ => _ end] => destruct x eqn:? end.

Lemma check_args_dls : forall a d, check_args a = None -> a_dls a = Some d -> 0 < d.
Proof.
  intros a d H E. unfold check_args in H. rewrite E in H.
  repeat match type of H with (if ?c then _ else _) = None => destruct c eqn:?; [discriminate|] end.
  destruct (Rlt_dec 0 d); [auto|discriminate].
Qed.
Lemma check_args_error : forall a, check_args a = None -> a_min_error a < 1.
Proof.
  intros a H. unfold check_args in H.
  repeat match type of H with (if ?c then _ else _) = None => destruct c eqn:?; [discriminate|] end.
  destruct (Rlt_dec (a_min_error a) 1); [auto|discriminate].
Qed.
Lemma radius_pos : forall a r, check_args a = None -> radius_design a = Some r -> 0 < r.
Proof.
  intros a r H E. unfold radius_design in E. destruct (a_dls a) eqn:D; [|discriminate].
  pose proof (check_args_dls a _ H D). injection E as <-.
  destruct (a_meters a); apply Rdiv_lt_0_compat; lra.
Qed.

(** ** which branch produced a connection *)
Lemma hold_method : forall a c, do_hold a = inl c -> k_method c = Hold.
Proof. intros a c H. unfold do_hold in H. repeat dm; injection H as <-; reflexivity. Qed.
Lemma min_curve_method : forall a c, do_min_curve a = inl c -> k_method c = MinCurve.
Proof.
  intros a c H. unfold do_min_curve in H. cbv zeta in H.
  repeat dm; injection H as <-; reflexivity.
Qed.
Lemma connector_cases : forall bump a c, connector bump a = inl c ->
  check_args a = None /\
  ((do_hold a = inl c) \/ (do_min_curve a = inl c) \/
   (exists q, a_pos2 a = Some q /\
      do_curve_hold bump (a_min_error a) (radius_design a) (a_pos1 a) (start_vec a) (a_md1 a) q = Some c)).
Proof.
  intros bump a c H. unfold connector in H. destruct (check_args a) eqn:C; [discriminate|].
  split; [reflexivity|]. destruct (get_method a) as [m|]; [|discriminate].
  destruct (String.eqb m "hold"); [auto|]. destruct (String.eqb m "min_curve"); [auto|].
  destruct (String.eqb m "curve_hold_curve"); [discriminate|].
  destruct (a_pos2 a) as [q|]; [|discriminate].
  destruct (do_curve_hold _ _ _ _ _ _ q) eqn:E; [|discriminate].
  injection H as <-. right; right. exists q. auto.
Qed.
Lemma min_dist_method : forall r ds p u m q c, do_min_dist r ds p u m q = Some c ->
  k_method c = MinDistToTarget.
Proof.
  intros r ds p u m q c H. unfold do_min_dist in H. repeat dm. injection H as <-. reflexivity.
Qed.
Lemma min_curve_to_method : forall r ds p u m q c, do_min_curve_to_target r ds p u m q = Some c ->
  k_method c = MinCurveToTarget.
Proof.
  intros r ds p u m q c H. unfold do_min_curve_to_target in H. repeat dm.
  injection H as <-. reflexivity.
Qed.
Lemma min_curve_to_pos : forall r ds p u m q c, do_min_curve_to_target r ds p u m q = Some c ->
  k_pos_target c = q.
Proof.
  intros r ds p u m q c H. unfold do_min_curve_to_target in H. repeat dm.
  injection H as <-. reflexivity.
Qed.

(** the target after the call, and the distances used *)
Lemma get_distances_pos : forall bump p u q q' ds, is_unit u -> 0 < off_axis p u q ->
  get_distances bump p u q = (q', ds) -> q' = q.
Proof.
  intros bump p u q q' ds U H E. unfold get_distances in E. injection E as E _. subst q'.
  unfold normalised. destruct (Req_EM_T (norm (vsub q p)) 0); [reflexivity|].
  destruct (v3_eq_dec u (vunit (vsub q p))) as [Z|Z]; [|reflexivity].
  exfalso. unfold off_axis in H. rewrite Z in H.
  replace (cross (vsub q p) (vunit (vsub q p))) with vzero in H.
  - rewrite norm_vzero in H. lra.
  - unfold vunit. generalize (vsub q p) (/ norm (vsub q p)). intros d k. vring.
Qed.
Lemma get_distances_triple : forall bump p u q q' d a n,
  get_distances bump p u q = (q', (d, a, n)) -> n <> 0 ->
  ~ allclose p q' /\ (d, a, n) = dist_triple p u q'.
Proof.
  intros bump p u q q' d a n E N. unfold get_distances in E. injection E as E1 E2.
  rewrite E1 in E2. destruct (allclose_dec p q'); [injection E2 as <- <- <-; lra|]. auto.
Qed.

Lemma min_dist_branch : forall bump a c, connector bump a = inl c ->
  k_method c = MinDistToTarget ->
  exists r q q' ds, radius_design a = Some r /\ 0 < r /\ a_pos2 a = Some q /\
    get_distances bump (a_pos1 a) (start_vec a) q = (q', ds) /\
    r <= get_radius_critical ds (a_min_error a) /\
    do_min_dist r ds (a_pos1 a) (start_vec a) (a_md1 a) q' = Some c.
Proof.
  intros bump a c H M. destruct (connector_cases bump a c H) as (C & [D|[D|(q & Q & D)]]).
  - rewrite (hold_method a c D) in M. discriminate.
  - rewrite (min_curve_method a c D) in M. discriminate.
  - unfold do_curve_hold in D. destruct (get_distances bump (a_pos1 a) (start_vec a) q) as [q' ds] eqn:E.
    destruct (radius_design a) as [r|] eqn:R.
    + destruct (Rle_dec r (get_radius_critical ds (a_min_error a))).
      * exists r, q, q', ds. repeat split; auto. eapply radius_pos; eauto.
      * rewrite (min_curve_to_method _ _ _ _ _ _ _ D) in M. discriminate.
    + rewrite (min_curve_to_method _ _ _ _ _ _ _ D) in M. discriminate.
Qed.
Lemma critical_le : forall p u q e, is_unit u -> 0 <= e -> 0 < off_axis p u q ->
  get_radius_critical (dist_triple p u q) e <= tangent_circle_radius p u q.
Proof.
  intros p u q e U He Hn. rewrite dist_triple_spec by auto. unfold get_radius_critical.
  destruct (Req_EM_T (off_axis p u q) 0); [lra|]. unfold tangent_circle_radius.
  rewrite <- norm_sqr.
  replace (norm (vsub q p) ^ 2) with (norm (vsub q p) * norm (vsub q p)) by ring.
  set (x := norm (vsub q p) * norm (vsub q p) / (2 * off_axis p u q)).
  assert (0 <= x). { apply Rmult_le_pos; [nra|]. left. apply Rinv_0_lt_compat. lra. }
  nra.
Qed.
Lemma critical_eq : forall p u q e, is_unit u -> off_axis p u q <> 0 ->
  get_radius_critical (dist_triple p u q) e = tangent_circle_radius p u q * (1 - e).
Proof.
  intros p u q e U Hn. rewrite dist_triple_spec by auto. unfold get_radius_critical.
  destruct (Req_EM_T (off_axis p u q) 0); [lra|]. unfold tangent_circle_radius.
  rewrite <- norm_sqr. f_equal. f_equal. ring.
Qed.

(** what a reported curve-and-hold connection is *)
Lemma min_dist_facts : forall bump a c, 0 <= a_min_error a -> is_unit (start_vec a) ->
  connector bump a = inl c -> k_method c = MinDistToTarget ->
  exists r q q', radius_design a = Some r /\ 0 < r /\ a_pos2 a = Some q /\
    ~ allclose (a_pos1 a) q' /\
    0 < off_axis (a_pos1 a) (start_vec a) q' /\
    r <= tangent_circle_radius (a_pos1 a) (start_vec a) q' /\
    do_min_dist r (dist_triple (a_pos1 a) (start_vec a) q') (a_pos1 a) (start_vec a) (a_md1 a) q' = Some c /\
    k_pos_target c = q'.
Proof.
  intros bump a c He U H M.
  destruct (min_dist_branch bump a c H M) as (r & q & q' & ds & R & Hr & Q & G & L & D).
  destruct ds as [[d x] n].
  assert (N : n <> 0).
  { intro Z. subst n. unfold get_radius_critical in L. destruct (Req_EM_T 0 0); lra. }
  destruct (get_distances_triple _ _ _ _ _ _ _ _ G N) as [NC E].
  assert (n = off_axis (a_pos1 a) (start_vec a) q').
  { rewrite dist_triple_spec in E by auto. injection E as _ _ E. auto. }
  pose proof (off_axis_ge0 (a_pos1 a) (start_vec a) q').
  exists r, q, q'. rewrite E in D, L. repeat split; auto; try lra.
  - eapply Rle_trans; [apply L|]. apply critical_le; auto; lra.
  - unfold do_min_dist in D. repeat dm. injection D as <-. reflexivity.
Qed.

(** C33 *)
Lemma curve_hold_reaches : forall bump a c r, 0 <= a_min_error a -> is_unit (start_vec a) ->
  connector bump a = inl c -> k_method c = MinDistToTarget -> radius_design a = Some r ->
  off_axis (a_pos1 a) (start_vec a) (k_pos_target c) <> 2 * r ->
  exists pos2,
    k_pos2 c = Some pos2 /\
    turn_then_straight (a_pos1 a) (start_vec a) r (k_dogleg c) (k_tangent c)
      pos2 (k_pos_target c) (k_vec_target c) /\
    0 < k_dogleg c < 2 * PI /\ 0 <= k_tangent c /\
    k_dist_curve c = r * k_dogleg c /\
    k_md2 c = Some (a_md1 a + r * k_dogleg c) /\
    k_md_target c = a_md1 a + r * k_dogleg c + k_tangent c.
Proof.
  intros bump a c r He U H M R B.
  destruct (min_dist_facts bump a c He U H M) as (r' & q & q' & R' & Hr & Q & NC & N & L & D & T).
  rewrite R in R'. injection R' as <-. rewrite T in B.
  destruct (ch_solve _ _ _ _ U Hr N B L) as (len & t & v & S & Et & V & Bt & Hl & W).
  unfold do_min_dist in D. rewrite S in D. cbv zeta in D. rewrite <- Et in D.
  unfold get_curve_hold_data in D. rewrite V in D. injection D as <-. cbn.
  exists (vsub q' (vscale len v)).
  rewrite (Rabs_pos_eq (r * t)) by nra. repeat split; auto; try lra.
Qed.

(** and a reachable target is solved that way *)
Lemma only_position_method : forall a u q r, only_position a u q r ->
  check_args a = None /\ start_vec a = u /\ radius_design a = Some r /\ 0 < r /\
  (is_unit u -> ~ allclose u (vunit (vsub q (a_pos1 a))) -> get_method a = inl "curve_hold"%string).
Proof.
  intros a u q r (V1 & I1 & Z1 & M2 & I2 & Z2 & V2 & P2 & F & (d & D & Hd & Er) & He).
  assert (C : check_args a = None).
  { unfold check_args. rewrite V1, I1, Z1, M2, I2, Z2, V2, P2, D. cbn.
    destruct (Rlt_dec 0 d); [|lra]. destruct (Rlt_dec (a_min_error a) 1); [reflexivity|lra]. }
  assert (SV : start_vec a = u) by (unfold start_vec; rewrite I1, V1; reflexivity).
  assert (RD : radius_design a = Some r).
  { unfold radius_design. rewrite D, Er. reflexivity. }
  repeat split; auto.
  - rewrite Er. destruct (a_meters a); apply Rdiv_lt_0_compat; lra.
  - intros U NC. unfold get_method, initial_method, target_input.
    rewrite F, M2, I2, Z2, V2, P2. cbn -[v3_eq_dec allclose_dec target_vec].
    assert (TV : target_vec a = u).
    { unfold target_vec, target_vec0. rewrite V2, I2, Z2, SV.
      destruct (v3_eq_dec u (vneg u)) as [Z|Z]; [|reflexivity].
      exfalso. unfold is_unit in U. assert (dot u u = - dot u u) by (rewrite Z at 1; rewrite dot_vneg_l; reflexivity). lra. }
    rewrite TV, SV. destruct (v3_eq_dec u u); [|congruence].
    unfold normalised. destruct (Req_EM_T _ 0); [reflexivity|].
    destruct (allclose_dec u (vunit (vsub q (a_pos1 a)))); [tauto|reflexivity].
Qed.
Lemma curve_hold_solves : forall bump a u q r, only_position a u q r -> is_unit u ->
  ~ allclose u (vunit (vsub q (a_pos1 a))) -> ~ allclose (a_pos1 a) q ->
  0 < off_axis (a_pos1 a) u q -> off_axis (a_pos1 a) u q <> 2 * r ->
  r <= tangent_circle_radius (a_pos1 a) u q * (1 - a_min_error a) ->
  exists c, connector bump a = inl c /\ k_method c = MinDistToTarget /\ k_pos_target c = q.
Proof.
  intros bump a u q r OP U NA NC N B L.
  destruct (only_position_method a u q r OP) as (C & SV & RD & Hr & GM).
  specialize (GM U NA).
  assert (P2 : a_pos2 a = Some q) by (unfold only_position in OP; tauto).
  assert (He : 0 <= a_min_error a < 1) by (unfold only_position in OP; tauto).
  destruct (get_distances bump (a_pos1 a) u q) as [q' ds] eqn:G.
  pose proof (get_distances_pos _ _ _ _ _ _ U N G) as ->.
  assert (DS : ds = dist_triple (a_pos1 a) u q).
  { unfold get_distances in G. injection G as G1 G2. rewrite G1 in G2.
    destruct (allclose_dec (a_pos1 a) q); [tauto|]. auto. }
  assert (L' : r <= tangent_circle_radius (a_pos1 a) u q).
  { assert (0 < tangent_circle_radius (a_pos1 a) u q) by nra. nra. }
  destruct (ch_solve _ _ _ _ U Hr N B L') as (len & t & v & S & Et & V & Bt & Hl & W).
  exists (mkConn MinDistToTarget (a_pos1 a) u (a_md1 a) q v (a_md1 a + Rabs (r * t) + len)
           (Some (vsub q (vscale len v))) (Some (a_md1 a + Rabs (r * t))) len t (r * t) (get_rf t)).
  split; [|split; reflexivity].
  unfold connector. rewrite C, GM. cbn -[do_curve_hold]. rewrite P2, RD, SV.
  unfold do_curve_hold. rewrite G. rewrite DS, critical_eq by (auto; lra).
  destruct (Rle_dec r _) as [_|Z]; [|contradiction].
  unfold do_min_dist. rewrite S. cbv zeta. rewrite <- Et. unfold get_curve_hold_data. rewrite V.
  reflexivity.
Qed.

(** a target at twice the radius from the axis, level with the start or ahead *)
Lemma twice_radius : forall bump a c r, 0 <= a_min_error a -> is_unit (start_vec a) ->
  connector bump a = inl c -> k_method c = MinDistToTarget -> radius_design a = Some r ->
  off_axis (a_pos1 a) (start_vec a) (k_pos_target c) = 2 * r ->
  0 <= ahead (a_pos1 a) (start_vec a) (k_pos_target c) ->
  k_dogleg c = 0 /\ k_vec_target c = start_vec a /\
  k_tangent c = ahead (a_pos1 a) (start_vec a) (k_pos_target c) /\
  k_pos2 c = Some (vsub (k_pos_target c) (vscale (k_tangent c) (start_vec a))) /\
  k_md2 c = Some (a_md1 a) /\
  forall pos2, ~ turn_then_straight (a_pos1 a) (start_vec a) r (k_dogleg c) (k_tangent c)
      pos2 (k_pos_target c) (k_vec_target c).
Proof.
  intros bump a c r He U H M R B A.
  destruct (min_dist_facts bump a c He U H M) as (r' & q & q' & R' & Hr & Q & NC & N & L & D & T).
  rewrite R in R'. injection R' as <-. rewrite T in B, A.
  pose proof (frame_sqr (a_pos1 a) (start_vec a) q' U) as F.
  set (p := a_pos1 a) in *. set (u := start_vec a) in *.
  unfold do_min_dist in D. rewrite dist_triple_spec in D by auto. unfold min_dist_to_target in D.
  rewrite F, B in D.
  replace (ahead p u q' ^ 2 + (2 * r) ^ 2 - 2 * r * (2 * r)) with (ahead p u q' * ahead p u q') in D by ring.
  rewrite sqrt_square in D by auto.
  destruct (Rlt_dec (ahead p u q' * ahead p u q') 0); [nra|].
  replace (ahead p u q' - ahead p u q') with 0 in D by ring.
  replace (2 * r - 2 * r) with 0 in D by ring.
  assert (Z : arctan2 0 0 = 0).
  { unfold arctan2. destruct (Rlt_dec 0 0); [lra|]. reflexivity. }
  rewrite Z in D. cbv zeta in D. unfold get_curve_hold_data in D.
  replace (check_dogleg (2 * 0)) with 0 in D
    by (unfold check_dogleg; destruct (Rlt_dec (2 * 0) 0); lra).
  unfold get_vec_target in D. destruct (Req_EM_T (r * 0) 0) as [_|W]; [|exfalso; apply W; ring].
  assert (CC : c = mkConn MinDistToTarget p u (a_md1 a) q' u (a_md1 a + Rabs (r * 0) + ahead p u q')
     (Some (vsub q' (vscale (ahead p u q') u))) (Some (a_md1 a + Rabs (r * 0)))
     (ahead p u q') 0 (r * 0) (get_rf 0)) by congruence.
  rewrite CC. cbn [k_dogleg k_vec_target k_tangent k_pos2 k_md2 k_pos_target].
  repeat split.
  - f_equal. rewrite Rmult_0_r, Rabs_R0. ring.
  - intros pos2 (nn & Nn & O & W & M2 & V & E).
    assert (OA : off_axis p u q' = 0).
    { unfold off_axis. rewrite E, M2, V. unfold arc_point, arc_tangent. rewrite sin_0, cos_0.
      match goal with |- norm ?x = 0 => replace x with vzero by vring end. apply norm_vzero. }
    lra.
Qed.

(** ** single arcs *)
Lemma min_curve_to_branch : forall bump a c, is_unit (start_vec a) -> connector bump a = inl c ->
  k_method c = MinCurveToTarget ->
  exists q q' ds, a_pos2 a = Some q /\
    get_distances bump (a_pos1 a) (start_vec a) q = (q', ds) /\
    (forall r, radius_design a = Some r -> 0 < r /\ get_radius_critical ds (a_min_error a) < r) /\
    do_min_curve_to_target (radius_design a) ds (a_pos1 a) (start_vec a) (a_md1 a) q' = Some c /\
    k_pos_target c = q' /\ a_min_error a < 1.
Proof.
  intros bump a c U H M. destruct (connector_cases bump a c H) as (C & [D|[D|(q & Q & D)]]).
  - rewrite (hold_method a c D) in M. discriminate.
  - rewrite (min_curve_method a c D) in M. discriminate.
  - unfold do_curve_hold in D. destruct (get_distances bump (a_pos1 a) (start_vec a) q) as [q' ds] eqn:E.
    assert (X : do_min_curve_to_target (radius_design a) ds (a_pos1 a) (start_vec a) (a_md1 a) q' = Some c /\
      forall r, radius_design a = Some r -> 0 < r /\ get_radius_critical ds (a_min_error a) < r).
    { destruct (radius_design a) as [r|] eqn:R.
      - destruct (Rle_dec r (get_radius_critical ds (a_min_error a))).
        + rewrite (min_dist_method _ _ _ _ _ _ _ D) in M. discriminate.
        + split; auto. intros r0 Er. injection Er as <-. split; [eapply radius_pos; eauto|lra].
      - split; auto. discriminate. }
    destruct X as [X Y].
    exists q, q', ds. split; [auto|]. split; [auto|]. split; [auto|]. split; [auto|]. split.
    + exact (min_curve_to_pos _ _ _ _ _ _ _ X).
    + apply check_args_error. auto.
Qed.
(** C34 *)
Lemma single_arc_reaches : forall bump a c, is_unit (start_vec a) ->
  connector bump a = inl c -> k_method c = MinCurveToTarget ->
  ~ allclose (a_pos1 a) (k_pos_target c) ->
  0 < off_axis (a_pos1 a) (start_vec a) (k_pos_target c) ->
  ahead (a_pos1 a) (start_vec a) (k_pos_target c) <> 0 ->
  let rc := tangent_circle_radius (a_pos1 a) (start_vec a) (k_pos_target c) in
  (forall r, radius_design a = Some r -> rc <= r) ->
  turn_then_straight (a_pos1 a) (start_vec a) rc (k_dogleg c) 0
    (k_pos_target c) (k_pos_target c) (k_vec_target c) /\
  0 < rc /\ 0 < k_dogleg c < 2 * PI /\ k_tangent c = 0 /\
  k_dist_curve c = rc * k_dogleg c /\ k_md_target c = a_md1 a + rc * k_dogleg c.
Proof.
  intros bump a c U H M NC N A rc L.
  destruct (min_curve_to_branch bump a c U H M) as (q & q' & ds & Q & G & Rr & D & T & _).
  rewrite T in NC, N, A. unfold rc in *. clear rc. rewrite T in L |- *.
  assert (DS : ds = dist_triple (a_pos1 a) (start_vec a) q').
  { unfold get_distances in G. injection G as G1 G2. rewrite G1 in G2.
    destruct (allclose_dec (a_pos1 a) q'); [tauto|]. auto. }
  destruct (arc_solve _ _ _ U N A) as (t & v & S & Et & V & Hr & Bt & W).
  set (rc := tangent_circle_radius (a_pos1 a) (start_vec a) q') in *.
  unfold do_min_curve_to_target in D. rewrite DS, S, Et in D.
  assert (RM : rmin_inf (radius_design a) (Some rc) = Some rc).
  { destruct (radius_design a) as [r|]; [|reflexivity]. cbn. rewrite Rmin_right; auto. }
  rewrite RM in D. cbn [get_curve_hold_data] in D. rewrite V in D. injection D as <-. cbn.
  repeat split; auto; try lra.
Qed.
(** the geometric solution when the target is exactly 2r off the axis *)
Lemma turn_exists : forall p u q r, is_unit u -> 0 < r -> 0 < off_axis p u q ->
  r <= tangent_circle_radius p u q ->
  exists t len m v, 0 <= t /\ 0 <= len /\ turn_then_straight p u r t len m q v.
Proof.
  intros p u q r U Hr N L. destruct (Req_dec (off_axis p u q) (2 * r)) as [B|B].
  - destruct (axis_frame p u q U N) as (n & Nn & O & V). rewrite B in V.
    set (a := ahead p u q) in *.
    assert (X : exists t len, 0 <= t /\ 0 <= len /\ r * sin t + len * cos t = a /\ r * (1 - cos t) + len * sin t = 2 * r).
    { destruct (Rle_dec 0 a).
      - exists (check_dogleg (2 * arctan2 r a)), a.
        assert (D : 0 < r * r + a * a) by nra.
        destruct (double_arctan2 r a ltac:(lra)) as [C S].
        set (t := check_dogleg (2 * arctan2 r a)) in *.
        assert (St : sin t = 2 * r * a / (r * r + a * a)) by (rewrite <- S; field; lra).
        assert (Ct : cos t = (a * a - r * r) / (r * r + a * a)) by (rewrite <- C; field; lra).
        pose proof (arctan2_lt_PI r a ltac:(right; lra) ltac:(lra)) as BB.
        apply check_dogleg_bounds in BB. fold t in BB.
        repeat split; try lra; rewrite St, Ct; field; lra.
      - exists PI, (- a). rewrite sin_PI, cos_PI. pose proof PI_RGT_0. repeat split; lra. }
    destruct X as (t & len & Ht & Hl & E1 & E2).
    exists t, len, (vsub q (vscale len (arc_tangent u n t))), (arc_tangent u n t).
    repeat split; auto. exists n. repeat split; auto.
    + rewrite V, dot_vadd_r, !dot_vscale_r, (dot_comm n u). unfold is_unit, orthogonal in *.
      rewrite Nn, O. lra.
    + apply arc_end with (a := a) (d := 2 * r); auto.
    + vring.
  - destruct (ch_solve p u q r U Hr N B L) as (T & t & v & _ & _ & _ & Bt & HT & W).
    exists t, T, (vsub q (vscale T v)), v. repeat split; auto; lra.
Qed.
Lemma largest_radius : forall p u q r, is_unit u -> 0 < r -> 0 < off_axis p u q ->
  ((exists t len m v, 0 <= t /\ 0 <= len /\ turn_then_straight p u r t len m q v) <->
   r <= tangent_circle_radius p u q).
Proof.
  intros p u q r U Hr N. split.
  - intros (t & len & m & v & Ht & Hl & W). eapply radius_bound; eauto.
  - intro L. apply turn_exists; auto.
Qed.
(** between (1-e)rc and rc the design radius is used with the angle of the
    critical arc *)
Lemma band_miss : forall bump a c r, is_unit (start_vec a) ->
  connector bump a = inl c -> k_method c = MinCurveToTarget ->
  ~ allclose (a_pos1 a) (k_pos_target c) ->
  0 < off_axis (a_pos1 a) (start_vec a) (k_pos_target c) ->
  ahead (a_pos1 a) (start_vec a) (k_pos_target c) <> 0 ->
  let rc := tangent_circle_radius (a_pos1 a) (start_vec a) (k_pos_target c) in
  radius_design a = Some r -> r <= rc ->
  exists n, is_unit n /\ orthogonal (start_vec a) n /\
    k_dist_curve c = r * k_dogleg c /\
    dist (k_pos_target c) (arc_point (a_pos1 a) (start_vec a) n r (k_dogleg c))
      = (1 - r / rc) * dist (k_pos_target c) (a_pos1 a) /\
    (1 - r / rc) < a_min_error a.
Proof.
  intros bump a c r U H M NC N A rc R L.
  destruct (min_curve_to_branch bump a c U H M) as (q & q' & ds & Q & G & Rr & D & T & E1).
  rewrite T in NC, N, A. unfold rc in *. clear rc. rewrite T in L |- *.
  assert (DS : ds = dist_triple (a_pos1 a) (start_vec a) q').
  { unfold get_distances in G. injection G as G1 G2. rewrite G1 in G2.
    destruct (allclose_dec (a_pos1 a) q'); [tauto|]. auto. }
  destruct (Rr r R) as [Hr Lr]. rewrite DS, critical_eq in Lr by (auto; lra).
  destruct (arc_solve _ _ _ U N A) as (t & v & S & Et & V & Hc & Bt & n & Nn & O & Wn & Wq & Wv & _).
  set (rc := tangent_circle_radius (a_pos1 a) (start_vec a) q') in *.
  exists n.
  unfold do_min_curve_to_target in D. rewrite DS, S, Et, R in D. cbn [rmin_inf] in D.
  rewrite Rmin_left in D by auto. cbn [get_curve_hold_data] in D.
  destruct (get_vec_target _ _ _ _ _ _) as [w|]; [|discriminate]. injection D as <-. cbn.
  repeat split; auto.
  - set (x := arc_point (a_pos1 a) (start_vec a) n r t).
    assert (Ex : vsub q' x = vscale (1 - r / rc) (vsub q' (a_pos1 a))).
    { rewrite Wq at 1 2. unfold x, arc_point. 
      replace r with (r / rc * rc) at 1 2 by (field; lra). vring. }
    unfold dist. rewrite Ex, norm_vscale, Rabs_pos_eq; auto.
    assert (r / rc <= 1); [|lra]. apply Rmult_le_reg_r with rc; [lra|].
    replace (r / rc * rc) with r by (field; lra). lra.
  - assert (1 - a_min_error a < r / rc); [|lra].
    apply Rmult_lt_reg_r with rc; [lra|]. replace (r / rc * rc) with r by (field; lra). lra.
Qed.

(** ** a target that numpy calls close to the start *)
Lemma coincident_within_tolerance : forall bump a u q r, only_position a u q r -> is_unit u ->
  ~ allclose u (vunit (vsub q (a_pos1 a))) -> allclose (a_pos1 a) q ->
  exists c, connector bump a = inl c /\ k_pos_target c = q /\ k_vec_target c = u /\
    k_md_target c = a_md1 a /\ k_dist_curve c = 0 /\ k_tangent c = 0.
Proof.
  intros bump a u q r OP U NA C0.
  destruct (only_position_method a u q r OP) as (C & SV & RD & Hr & GM).
  specialize (GM U NA).
  assert (P2 : a_pos2 a = Some q) by (unfold only_position in OP; tauto).
  assert (G : get_distances bump (a_pos1 a) u q = (q, (0, 0, 0))).
  { unfold get_distances. unfold normalised.
    assert (X : (if Req_EM_T (norm (vsub q (a_pos1 a))) 0 then None
                 else Some (vunit (vsub q (a_pos1 a)))) <> Some u).
    { destruct (Req_EM_T (norm (vsub q (a_pos1 a))) 0); [discriminate|].
      intro Z. injection Z as Z. apply NA. rewrite Z.
      unfold allclose, close, rtol, atol. 
      assert (Y : forall x, Rabs (x - x) <= 1 / 100000000 + 1 / 100000 * Rabs x).
      { intro x. replace (x - x) with 0 by ring. rewrite Rabs_R0. pose proof (Rabs_pos x). lra. }
      auto. }
    destruct (Req_EM_T (norm (vsub q (a_pos1 a))) 0).
    - destruct (allclose_dec (a_pos1 a) q); [reflexivity|tauto].
    - destruct (v3_eq_dec u (vunit (vsub q (a_pos1 a)))) as [Z|Z]; [congruence|].
      destruct (allclose_dec (a_pos1 a) q); [reflexivity|tauto]. }
  exists (mkConn MinCurveToTarget (a_pos1 a) u (a_md1 a) q u (r * 0 + 0 + 0 + a_md1 a)
            None None 0 0 (r * 0) (get_rf 0)).
  split; [|cbn; repeat split; ring].
  unfold connector. rewrite C, GM. cbn -[do_curve_hold]. rewrite P2, RD, SV.
  unfold do_curve_hold. rewrite G. unfold get_radius_critical.
  destruct (Req_EM_T 0 0) as [_|Z]; [|exfalso; apply Z; reflexivity].
  destruct (Rle_dec r 0); [lra|].
  unfold do_min_curve_to_target, min_curve_to_target.
  destruct (Req_EM_T 0 0) as [_|Z]; [|exfalso; apply Z; reflexivity].
  replace (check_dogleg 0) with 0 by (unfold check_dogleg; destruct (Rlt_dec 0 0); lra).
  cbn [rmin_inf get_curve_hold_data]. unfold get_vec_target.
  destruct (Req_EM_T (r * 0) 0) as [_|Z]; [reflexivity|exfalso; apply Z; ring].
Qed.
