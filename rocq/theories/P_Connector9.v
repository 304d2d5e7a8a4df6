(** Curve-hold-curve solutions: shape, order of depths, rescue passes. *)
Require Import Reals ZArith Bool String List Sorted Lra Lia Psatz.
Require Import Verif.Base Verif.NumPy Verif.P_Trig Verif.Spec Verif.M_Utils Verif.P_Utils
  Verif.M_Survey Verif.M_Torque Verif.M_Clearance Verif.M_Connector Verif.M_Connector2 Verif.Spec_Connector Verif.Spec_Connector3
  Verif.P_Connector Verif.P_Connector2 Verif.P_Connector6 Verif.P_Connector7.
Import ListNotations.
Open Scope R_scope.

Lemma clipped_angle_spec : forall u v, is_unit u -> is_unit v -> angle_between u v (clipped_angle u v).
Proof.
  intros u v U V. unfold clipped_angle.
  assert (B : -1 <= dot u v <= 1).
  { pose proof (cauchy_sqr u v) as C. unfold is_unit in *. rewrite U, V in C. nra. }
  rewrite Rmin_left, Rmax_right by lra. split.
  - apply acos_bound.
  - apply cos_acos. lra.
Qed.
Lemma vec_target_unit : forall p u q t dc fd v, is_unit u -> get_vec_target p u q t dc fd = Some v -> is_unit v.
Proof.
  intros p u q t dc fd v U H. unfold get_vec_target in H.
  destruct (Req_EM_T dc 0); [injection H as <-; auto|].
  destruct (Req_EM_T _ 0); [discriminate|]. unfold normalised in H.
  destruct (Req_EM_T _ 0) as [|N]; [discriminate|]. injection H as <-. 
  apply vunit_is_unit. intro Z. apply N. rewrite Z. apply norm_vzero.
Qed.
Lemma get_pos_arc : forall p u v d t, is_unit u -> is_unit v -> 0 < t < PI -> cos t = dot u v ->
  circular_arc p u d t (get_pos p u v d (get_rf t)) v.
Proof.
  intros p u v d t U V T C. pose proof (mc_disp_arc p u v d t U V T C) as A.
  replace (get_pos p u v d (get_rf t)) with (vadd p (mc_disp d t u v)); [exact A|].
  reflexivity.
Qed.

(** ** the end of the path *)
Lemma close_path_shape : forall pos2 v3 tg vt dc fd t dc' pos3,
  close_path pos2 v3 tg vt dc fd = (t, dc', pos3) -> 0 <= t /\ pos3 = vadd pos2 (vscale t v3).
Proof.
  intros pos2 v3 tg vt dc fd t dc' pos3 H. unfold close_path in H.
  repeat dm; injection H as <- <- <-; (split; [apply Rmax_l|reflexivity]).
Qed.
Definition hold_length (g : geo) : R := dot (vsub (g_pos3 g) (g_pos2 g)) (g_vec3 g).
Lemma on_ray : forall p v t, is_unit v -> dot (vsub (vadd p (vscale t v)) p) v = t.
Proof.
  intros p v t U. replace (vsub (vadd p (vscale t v)) p) with (vscale t v) by vring.
  rewrite dot_vscale_l. unfold is_unit in U. rewrite U. ring.
Qed.
Lemma happy_path : forall s g, is_unit (p_vec1 (s_prob s)) -> is_unit (s_vtarget s) ->
  happy_finish s = Some g ->
  depths_ordered (p_md1 (s_prob s)) g /\
  forall target, curve_hold_curve_path (p_pos1 (s_prob s)) (p_vec1 (s_prob s)) (p_md1 (s_prob s)) target (s_vtarget s) g
    (rendered_error target (s_vtarget s) g).
Proof.
  intros s g U1 U2 H. unfold happy_finish in H. cbv zeta in H.
  destruct (final_radius (p_rd (s_prob s)) _ _ _) as [r1|]; [|discriminate].
  unfold get_curve_hold_data in H.
  destruct (get_vec_target _ _ _ _ _ _) as [v3|] eqn:V; [|discriminate].
  apply vec_target_unit in V; auto.
  destruct (final_radius (p_rd2 (s_prob s)) _ _ _) as [r2|]; [|discriminate].
  pose proof (clipped_angle_spec _ _ U1 V) as A1. pose proof (clipped_angle_spec _ _ V U2) as A2.
  set (act := clipped_angle (p_vec1 (s_prob s)) v3) in *. set (dl2 := clipped_angle v3 (s_vtarget s)) in *.
  set (dl := if Rlt_dec (1 / 1000000000) (Rabs (act - g_dogleg (s_geo s))) then act else g_dogleg (s_geo s)) in *.
  assert (DL : Rabs (dl - act) <= 1 / 1000000000).
  { unfold dl. destruct (Rlt_dec _ _) as [L|L]; [rewrite Rminus_diag_eq, Rabs_R0 by auto; lra|].
    rewrite Rabs_minus_sym. lra. }
  clearbody dl act dl2.
  set (pos2 := get_pos _ _ v3 (r1 * dl) (get_rf dl)) in *.
  destruct (close_path pos2 v3 _ _ _ _) as [[t dc'] pos3] eqn:CP. apply close_path_shape in CP.
  destruct CP as [T ->]. injection H as <-. cbn.
  assert (RT : 0 <= Rabs (r1 * dl)) by apply Rabs_pos. assert (RT2 : 0 <= Rabs dc') by apply Rabs_pos.
  split; [unfold depths_ordered; cbn; lra|].
  intro target. unfold curve_hold_curve_path. cbn.
  split; [auto|]. split; [auto|]. split; [auto|]. split; [auto|].
  split; [f_equal; f_equal; ring|]. split; [|split].
  - exists act. split; [auto|]. split; [auto|]. intros E B. unfold pos2. rewrite E.
    apply get_pos_arc; auto. apply A1.
  - exact A2.
  - intro B. exists (get_pos (vadd pos2 (vscale t v3)) v3 (s_vtarget s) dc' (get_rf dl2)).
    split; [apply get_pos_arc; auto; apply A2|].
    unfold rendered_error. cbn. rewrite on_ray by auto. rewrite Rmax_right by auto. reflexivity.
Qed.
(** the first rescue never does anything, and the tangent is already projected *)
Lemma delta_noop : forall solve k s g, is_unit (p_vec1 (s_prob s)) -> is_unit (s_vtarget s) ->
  0 <= p_min_error (s_prob s) -> happy_finish s = Some g ->
  project_tangent (delta_pos3_rescue solve k (set_geo s g)) = set_geo s g.
Proof.
  intros solve k s g U1 U2 E H. destruct (happy_path s g U1 U2 H) as [O P].
  destruct (P vzero) as (V & _ & M2 & MT & P3 & _). destruct O as (O1 & O2 & O3).
  assert (D : dot (vsub (g_pos3 g) (g_pos2 g)) (g_vec3 g) = g_md3 g - g_md2 g) by (rewrite P3; apply on_ray; auto).
  unfold delta_pos3_rescue. cbn [s_geo set_geo s_prob]. rewrite D.
  destruct (Rle_dec (- p_min_error (s_prob s)) (g_md3 g - g_md2 g)); [|lra].
  unfold project_tangent. cbn [s_geo set_geo]. rewrite D, Rmax_right by lra.
  unfold set_geo. cbn. f_equal. destruct g; cbn in *. f_equal; lra.
Qed.

(** ** the passes keep the best error *)
Lemma rescue_loop_err : forall solve k l be b s, keeps_inputs solve ->
  be = rendered_error (s_target s) (s_vtarget s) b ->
  error_of (rescue_loop solve k l be b s) <= be.
Proof.
  intros solve k l. revert k. induction l as [|f l IH]; intros k be b s K E; cbn [rescue_loop].
  - unfold error_of, set_geo. cbn. rewrite E. lra.
  - set (r := match rmin_inf _ _ with Some x => Some (x * f) | None => None end). clearbody r.
    destruct (K k r r None (reset_radii s)) as (_ & K2 & K3). cbn in K2, K3.
    set (s1 := solve k r r None (reset_radii s)) in *. clearbody s1.
    destruct (happy_finish s1) as [g|].
    + set (err := error_of (set_geo s1 g)).
      assert (Er : err = rendered_error (s_target s) (s_vtarget s) g).
      { unfold err, error_of. cbn. rewrite K2, K3. reflexivity. }
      destruct (Rlt_dec err be) as [L|L].
      * destruct (Rle_dec err (1 / 1000)).
        -- unfold error_of. cbn. rewrite K2, K3, <- Er. lra.
        -- eapply Rle_trans; [apply IH; auto; cbn; rewrite K2, K3; auto|lra].
      * destruct (Rle_dec be (1 / 1000)).
        -- unfold error_of. cbn. rewrite K2, K3, <- E. lra.
        -- apply IH; auto. cbn. rewrite K2, K3. auto.
    + apply IH; auto. rewrite K2, K3. auto.
Qed.
Lemma endpoint_rescue_err : forall solve k s, keeps_inputs solve ->
  error_of (endpoint_rescue solve k s) <= error_of s.
Proof.
  intros solve k s K. unfold endpoint_rescue. destruct (Rle_dec (error_of s) (1 / 1000)); [lra|].
  apply rescue_loop_err; auto.
Qed.
Lemma planar_loop_err : forall n r1 be b s,
  be = rendered_error (s_target s) (s_vtarget s) (fst b) -> error_of (planar_loop n r1 be b s) <= be.
Proof.
  induction n as [|n IH]; intros r1 be b s E; cbn [planar_loop].
  - unfold error_of. cbn. lra.
  - destruct (planar_direction r1 s) as [v|]; [|unfold error_of; cbn; lra].
    set (s1 := planar_seed r1 v s).
    assert (K2 : s_target s1 = s_target s) by reflexivity. assert (K3 : s_vtarget s1 = s_vtarget s) by reflexivity.
    clearbody s1. destruct (happy_finish s1) as [g|]; [|unfold error_of; cbn; rewrite K2, K3; lra].
    set (err := error_of (set_geo s1 g)).
    assert (Er : err = rendered_error (s_target s) (s_vtarget s) g).
    { unfold err, error_of. cbn. rewrite K2, K3. reflexivity. }
    destruct (Rlt_dec err be) as [L|L].
    + destruct (Rle_dec err (1 / 1000)).
      * unfold error_of. cbn. rewrite K2, K3, <- Er. lra.
      * eapply Rle_trans; [apply IH; auto; cbn; rewrite K2, K3; auto|lra].
    + destruct (Rle_dec be (1 / 1000)).
      * unfold error_of. cbn. rewrite K2, K3, <- E. lra.
      * apply IH; auto. cbn. rewrite K2, K3. auto.
Qed.
Lemma planarity_err : forall s, error_of (enforce_planarity s) <= error_of s.
Proof.
  intro s. unfold enforce_planarity. destruct (Rle_dec (error_of s) (1 / 1000)); [lra|].
  destruct (planar_radius s); [|lra]. apply planar_loop_err; auto.
Qed.

(** ** what every stored solution satisfies *)
Lemma happy_order : forall s g, happy_finish s = Some g -> depths_ordered (p_md1 (s_prob s)) g.
Proof.
  intros s g H. unfold happy_finish in H. cbv zeta in H.
  destruct (final_radius (p_rd (s_prob s)) _ _ _) as [r1|]; [|discriminate].
  unfold get_curve_hold_data in H.
  destruct (get_vec_target _ _ _ _ _ _) as [v3|]; [|discriminate].
  destruct (final_radius (p_rd2 (s_prob s)) _ _ _) as [r2|]; [|discriminate].
  match type of H with context [close_path ?a ?b ?c ?d ?e ?f] => destruct (close_path a b c d e f) as [[t dc'] pos3] eqn:CP end.
  apply close_path_shape in CP. destruct CP as [T _]. injection H as <-. unfold depths_ordered. cbn.
  match goal with |- context [Rabs ?x] => pose proof (Rabs_pos x) end. pose proof (Rabs_pos dc'). lra.
Qed.
Lemma rescue_loop_inv : forall (I : chc -> Prop) (P : geo -> Prop) solve,
  (forall k r1 r2 seed s, I s -> I (solve k r1 r2 seed (reset_radii s))) ->
  (forall s g, I s -> I (set_geo s g)) -> (forall s g, I s -> happy_finish s = Some g -> P g) ->
  forall l k be b s, I s -> P b -> P (s_geo (rescue_loop solve k l be b s)) /\ I (rescue_loop solve k l be b s).
Proof.
  intros I P solve HS HG HP. induction l as [|f l IH]; intros k be b s Is Pb; cbn [rescue_loop]; [split; auto|].
  set (r := match rmin_inf _ _ with Some x => Some (x * f) | None => None end). clearbody r.
  assert (I1 := HS k r r None s Is). set (s1 := solve k r r None (reset_radii s)) in *. clearbody s1.
  destruct (happy_finish s1) as [g|] eqn:H; [|apply IH; auto].
  pose proof (HP s1 g I1 H) as Pg. destruct (Rlt_dec _ be); destruct (Rle_dec _ (1 / 1000)); cbn; auto.
Qed.
Lemma planar_loop_inv : forall (P : geo -> Prop) p tg vt,
  (forall s g, s_prob s = p -> s_target s = tg -> s_vtarget s = vt -> happy_finish s = Some g -> P g) ->
  forall n r1 be b s, s_prob s = p -> s_target s = tg -> s_vtarget s = vt -> P (fst b) ->
    P (s_geo (planar_loop n r1 be b s)) /\ s_prob (planar_loop n r1 be b s) = p /\
    s_target (planar_loop n r1 be b s) = tg /\ s_vtarget (planar_loop n r1 be b s) = vt.
Proof.
  intros P p tg vt HP. induction n as [|n IH]; intros r1 be b s E1 E2 E3 Pb; cbn [planar_loop].
  - cbn. auto.
  - destruct (planar_direction r1 s) as [v|]; [|cbn; auto].
    set (s1 := planar_seed r1 v s).
    assert (K1 : s_prob s1 = p) by (rewrite <- E1; reflexivity). assert (K2 : s_target s1 = tg) by (rewrite <- E2; reflexivity).
    assert (K3 : s_vtarget s1 = vt) by (rewrite <- E3; reflexivity).
    clearbody s1. destruct (happy_finish s1) as [g|] eqn:H; [|cbn; auto].
    pose proof (HP s1 g K1 K2 K3 H) as Pg.
    destruct (Rlt_dec _ be); destruct (Rle_dec _ (1 / 1000)); try (cbn; auto; fail); apply IH; cbn; auto.
Qed.

(** C36 *)
Theorem chc_depths : forall solve k s s', keeps_start_depth solve -> is_unit (p_vec1 (s_prob s)) -> is_unit (s_vtarget s) ->
  0 <= p_min_error (s_prob s) -> finish_curve_hold_curve solve k s = Some s' ->
  depths_ordered (p_md1 (s_prob s)) (s_geo s').
Proof.
  intros solve k s s' K U1 U2 E H. unfold finish_curve_hold_curve in H.
  destruct (happy_finish s) as [g|] eqn:HF; [|discriminate]. injection H as <-.
  rewrite delta_noop by auto. pose proof (happy_order s g HF) as O.
  set (m := p_md1 (s_prob s)) in *.
  assert (R : depths_ordered m (s_geo (endpoint_rescue solve (k + 2) (set_geo s g))) /\
              p_md1 (s_prob (endpoint_rescue solve (k + 2) (set_geo s g))) = m).
  { unfold endpoint_rescue. destruct (Rle_dec _ (1 / 1000)); [split; [exact O|reflexivity]|].
    apply (rescue_loop_inv (fun x => p_md1 (s_prob x) = m) (depths_ordered m)); auto.
    - intros k0 r1 r2 seed x Ix. rewrite K. exact Ix.
    - intros x h Ix Hx. rewrite <- Ix. apply happy_order. auto. }
  destruct R as [R1 R2]. set (t := endpoint_rescue solve (k + 2) (set_geo s g)) in *. clearbody t.
  unfold enforce_planarity. destruct (Rle_dec (error_of t) (1 / 1000)); [auto|].
  destruct (planar_radius t) as [r1|]; [|auto].
  apply (planar_loop_inv (depths_ordered m) (s_prob t) (s_target t) (s_vtarget t)); auto.
  intros x h E1 _ _ Hx. rewrite <- R2, <- E1. apply happy_order. auto.
Qed.
(** C74 *)
Theorem chc_path : forall solve k s s', keeps_inputs solve -> is_unit (p_vec1 (s_prob s)) -> is_unit (s_vtarget s) ->
  0 <= p_min_error (s_prob s) -> finish_curve_hold_curve solve k s = Some s' ->
  s_target s' = s_target s /\
  curve_hold_curve_path (p_pos1 (s_prob s)) (p_vec1 (s_prob s)) (p_md1 (s_prob s)) (s_target s) (s_vtarget s)
    (s_geo s') (error_of s').
Proof.
  intros solve k s s' K U1 U2 E H. unfold finish_curve_hold_curve in H.
  destruct (happy_finish s) as [g|] eqn:HF; [|discriminate]. injection H as <-.
  rewrite delta_noop by auto.
  set (Q := fun h => forall target, curve_hold_curve_path (p_pos1 (s_prob s)) (p_vec1 (s_prob s)) (p_md1 (s_prob s)) target (s_vtarget s) h
    (rendered_error target (s_vtarget s) h)).
  assert (QH : forall x h, s_prob x = s_prob s -> s_vtarget x = s_vtarget s -> happy_finish x = Some h -> Q h).
  { intros x h Px Vx Hx. destruct (happy_path x h) as [_ T]; [rewrite Px; auto|rewrite Vx; auto|auto|].
    rewrite Px, Vx in T. exact T. }
  assert (R : Q (s_geo (endpoint_rescue solve (k + 2) (set_geo s g))) /\
    (s_prob (endpoint_rescue solve (k + 2) (set_geo s g)) = s_prob s /\
     s_target (endpoint_rescue solve (k + 2) (set_geo s g)) = s_target s /\
     s_vtarget (endpoint_rescue solve (k + 2) (set_geo s g)) = s_vtarget s)).
  { unfold endpoint_rescue. destruct (Rle_dec _ (1 / 1000)); [split; [apply (QH s); auto|auto]|].
    apply (rescue_loop_inv (fun x => s_prob x = s_prob s /\ s_target x = s_target s /\ s_vtarget x = s_vtarget s) Q); auto.
    - intros k0 r1 r2 seed x (I1 & I2 & I3). destruct (K k0 r1 r2 seed (reset_radii x)) as (J1 & J2 & J3).
      rewrite J1, J2, J3. auto.
    - intros x h (I1 & I2 & I3) Hx. apply (QH x); auto.
    - apply (QH s); auto. }
  destruct R as (R1 & R2 & R3 & R4). set (t := endpoint_rescue solve (k + 2) (set_geo s g)) in *. clearbody t.
  assert (Z : Q (s_geo (enforce_planarity t)) /\ s_prob (enforce_planarity t) = s_prob s /\
              s_target (enforce_planarity t) = s_target s /\ s_vtarget (enforce_planarity t) = s_vtarget s).
  { unfold enforce_planarity. destruct (Rle_dec (error_of t) (1 / 1000)); [auto|].
    destruct (planar_radius t) as [r1|]; [|auto].
    apply (planar_loop_inv Q (s_prob s) (s_target s) (s_vtarget s)); auto.
    intros x h X1 X2 X3 Hx. apply (QH x); auto. }
  destruct Z as (Z1 & Z2 & Z3 & Z4). split; [auto|]. unfold error_of. rewrite Z3, Z4. apply Z1.
Qed.
(** C37 *)
Theorem chc_error : forall solve k s s' g, keeps_inputs solve -> is_unit (p_vec1 (s_prob s)) -> is_unit (s_vtarget s) ->
  0 <= p_min_error (s_prob s) -> happy_finish s = Some g -> finish_curve_hold_curve solve k s = Some s' ->
  error_of s' <= error_of (set_geo s g).
Proof.
  intros solve k s s' g K U1 U2 E HF H. unfold finish_curve_hold_curve in H. rewrite HF in H. injection H as <-.
  rewrite delta_noop by auto.
  eapply Rle_trans; [apply planarity_err|apply endpoint_rescue_err; auto].
Qed.

(** ** when the end is missed *)
Theorem endpoint_missed : forall s g, is_unit (p_vec1 (s_prob s)) -> is_unit (s_vtarget s) -> happy_finish s = Some g ->
  let miss := vsub (s_target s) (get_pos (g_pos3 g) (g_vec3 g) (s_vtarget s) (g_dist_curve2 g) (g_func2 g)) in
  let delta := vsub (s_target s) (g_pos2 g) in
  let c := dot (g_vec3 g) (s_vtarget s) in
  error_of (set_geo s g) = norm miss /\
  (norm miss <= 1 / 1000 \/
   (dot miss (g_vec3 g) = 0 /\ dot miss (s_vtarget s) = 0) \/
   g_md3 g = g_md2 g \/
   1 - 1 / 1000000 <= c * c \/
   dot delta (s_vtarget s) < c * dot delta (g_vec3 g)).
Proof.
  intros s g U1 U2 H miss delta c.
  destruct (happy_path s g U1 U2 H) as [_ P]. destruct (P (s_target s)) as (V & _ & _ & _ & P3 & _). clear P.
  assert (ME : error_of (set_geo s g) = norm miss).
  { unfold error_of, rendered_error, miss, get_pos. cbn. rewrite P3 at 1. rewrite on_ray by auto.
    destruct (happy_order s g H) as (_ & O & _). rewrite Rmax_right by lra. rewrite P3. reflexivity. }
  split; [exact ME|]. clear ME. unfold miss, delta, c. clear miss delta c.
  unfold happy_finish in H. cbv zeta in H.
  destruct (final_radius (p_rd (s_prob s)) _ _ _) as [r1|]; [|discriminate].
  unfold get_curve_hold_data in H.
  destruct (get_vec_target _ _ _ _ _ _) as [v3|]; [|discriminate].
  destruct (final_radius (p_rd2 (s_prob s)) _ _ _) as [r2|]; [|discriminate].
  set (dl2 := clipped_angle v3 (s_vtarget s)) in *.
  match type of H with context [close_path ?a ?b ?c ?d ?e ?f] =>
    set (pos2 := a) in *; set (dc2 := e) in *; set (fd2 := f) in *;
    destruct (close_path pos2 b c d dc2 fd2) as [[t dc'] pos3] eqn:CP end.
  injection H as <-. cbn [g_pos3 g_vec3 g_dist_curve2 g_func2 g_pos2 g_md3 g_md2] in *. clear P3.
  assert (FD : fd2 < 1 -> 1 - 1 / 1000000 <= dot v3 (s_vtarget s) * dot v3 (s_vtarget s)).
  { intro L. pose proof (clipped_angle_spec v3 (s_vtarget s) V U2) as [B C]. fold dl2 in B, C.
    destruct (Req_dec dl2 PI) as [Ep|Np].
    - rewrite Ep, cos_PI in C. rewrite <- C. lra.
    - pose proof (rf_ge_1 dl2 ltac:(lra)) as G. unfold fd2 in L. lra. }
  clearbody pos2 dc2 fd2. clear dl2. set (w := s_vtarget s) in *. set (tg := s_target s) in *. clearbody w tg.
  unfold close_path in CP. cbv zeta in CP.
  set (bt := get_pos tg (vneg w) (vneg v3) dc2 fd2) in *.
  set (ta := dot (vsub bt pos2) v3) in *.
  assert (FB : (Rmax 0 ta, dc2, vadd pos2 (vscale (Rmax 0 ta) v3)) = (t, dc', pos3) -> 0 <= ta ->
     vsub tg (get_pos pos3 v3 w dc' fd2) = vsub (vsub bt pos2) (vscale ta v3)).
  { intros Q L. rewrite Rmax_right in Q by auto. injection Q as <- <- <-. unfold bt, get_pos. vring. }
  assert (TZ : (Rmax 0 ta, dc2, vadd pos2 (vscale (Rmax 0 ta) v3)) = (t, dc', pos3) -> ta < 0 -> t = 0).
  { intros Q L. rewrite Rmax_left in Q by lra. injection Q as <- _ _. reflexivity. }
  destruct (Rlt_dec (1 / 1000) (norm (vsub (vsub bt pos2) (vscale ta v3)))) as [Big|Small].
  - destruct (Rlt_dec (1 / 1000000) (1 - dot v3 w * dot v3 w)) as [S2|S2]; [|right; right; right; left; lra].
    destruct (Rlt_dec fd2 1) as [F1|F1]; [apply FD in F1; lra|].
    destruct (Rlt_dec (1 / 10000000000) (Rabs fd2)) as [F|F]; [|rewrite Rabs_right in F; lra].
    set (sin2 := 1 - dot v3 w * dot v3 w) in *.
    set (a := (dot (vsub tg pos2) v3 - dot v3 w * dot (vsub tg pos2) w) / sin2) in *.
    set (b := (dot (vsub tg pos2) w - dot v3 w * dot (vsub tg pos2) v3) / sin2) in *.
    destruct (Rle_dec 0 b) as [B|B].
    + destruct (Rle_dec 0 (a - b)) as [T|T].
      * destruct (Rle_dec 0 (2 * b / fd2)) as [DC|DC].
        -- right. left. rewrite (Rmax_right 0 (a - b)), (Rmax_right 0 (2 * b / fd2)) in CP by auto.
           injection CP as <- <- <-.
           assert (M : vsub tg (get_pos (vadd pos2 (vscale (a - b) v3)) v3 w (2 * b / fd2) fd2) =
                       vsub (vsub tg pos2) (vadd (vscale a v3) (vscale b w))).
           { unfold get_pos. replace (2 * b / fd2 * fd2 / 2) with b.
             - vring.
             - field. intro Z. rewrite Z, Rabs_R0 in F. lra. }
           rewrite M. unfold is_unit in *.
           rewrite !dot_vsub_l, !dot_vadd_l, !dot_vscale_l, V, U2, (dot_comm w v3).
           split; unfold a, b; rewrite <- !dot_vsub_l; unfold sin2; field; unfold sin2 in S2; lra.
        -- exfalso. apply DC. apply Rmult_le_pos; [lra|]. left. apply Rinv_0_lt_compat. lra.
      * right. right. left. rewrite Rmax_left in CP by lra. injection CP as <- _ _. ring.
    + right. right. right. right. unfold b in B. apply Rnot_le_lt in B.
      assert (dot (vsub tg pos2) w - dot v3 w * dot (vsub tg pos2) v3 < 0); [|lra].
      apply Rnot_le_lt. intro Q. apply (Rlt_not_le _ _ B). apply Rmult_le_pos; [auto|].
      left. apply Rinv_0_lt_compat. lra.
  - destruct (Rle_dec 0 ta) as [L|L].
    + left. rewrite (FB CP L). lra.
    + right. right. left. rewrite (TZ CP ltac:(lra)). ring.
Qed.
