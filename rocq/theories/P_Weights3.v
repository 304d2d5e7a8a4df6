(** The MWD weights with axial correction. *)
Require Import Reals Lra Psatz List Nsatz.
Require Import Verif.Base Verif.NumPy Verif.M_Utils Verif.M_Error Verif.M_Weights Verif.Spec_Weights.
Require Import Verif.P_Error Verif.P_Weights Verif.P_Weights2.
Import ListNotations.
Local Open Scope R_scope.

Lemma mismatch_rate : forall i tf bx by_ B D z,
  let u := bx * cos tf - by_ * sin tf in
  let w := bx * sin tf + by_ * cos tf in
  let hor := sqrt (u ^ 2 + (w * cos i + z * sin i) ^ 2) in
  0 < u ^ 2 + (w * cos i + z * sin i) ^ 2 ->
  derivable_pt_lim (mismatch i tf bx by_ B D) z
    (2 * (hor - B * cos D) * ((w * cos i + z * sin i) * sin i / hor)
     + 2 * (z * cos i - w * sin i - B * sin D) * cos i).
Proof.
  intros i tf bx by_ B D z u w hor Hp. unfold mismatch. fold u. fold w.
  set (inner := fun x => u * u + (w * cos i + x * sin i) * (w * cos i + x * sin i)).
  assert (Ei : forall x, u ^ 2 + (w * cos i + x * sin i) ^ 2 = inner x) by (intro; unfold inner; ring).
  assert (Eh : hor = sqrt (inner z)) by (unfold hor; rewrite Ei; reflexivity).
  assert (Hq : 0 < sqrt (inner z)). { apply sqrt_lt_R0. rewrite <- Ei. exact Hp. }
  assert (Ds : derivable_pt_lim (fun x => sqrt (inner x)) z (/ (2 * sqrt (inner z)) * (2 * (w * cos i + z * sin i) * sin i))).
  { apply (d_sqrt_c inner).
    - unfold inner. eapply der_conv; [dl|]. ring.
    - rewrite <- Ei. exact Hp. }
  apply (derivable_pt_lim_ext (fun x => (sqrt (inner x) - B * cos D) * (sqrt (inner x) - B * cos D)
     + (x * cos i - w * sin i - B * sin D) * (x * cos i - w * sin i - B * sin D))).
  { intro x. rewrite Ei. ring. }
  eapply der_conv.
  - eapply (d_plus (fun x => (sqrt (inner x) - B * cos D) * (sqrt (inner x) - B * cos D))).
    + eapply (d_prod (fun x => sqrt (inner x) - B * cos D) (fun x => sqrt (inner x) - B * cos D));
      apply (d_minus (fun x => sqrt (inner x)) (fun _ => B * cos D)); first [apply Ds | apply d_const].
    + dl.
  - rewrite Eh. field. lra.
Qed.

Lemma stationary_rate : forall a B D, 0 < at_bh a ->
  derivable_pt_lim (mismatch (at_inc a) (at_tf a) (vx (mag_reading a)) (vy (mag_reading a)) B D)
    (vz (mag_reading a))
    (2 * ((at_bh a - B * cos D) * (cos (at_azi a) * sin (at_inc a)) + (at_bv a - B * sin D) * cos (at_inc a))).
Proof.
  intros a B D Hb.
  pose proof (sin2_cos2 (at_inc a)) as P1. pose proof (sin2_cos2 (at_tf a)) as P2.
  pose proof (sin2_cos2 (at_azi a)) as P3. unfold Rsqr in *.
  set (bx := vx (mag_reading a)) in *. set (by_ := vy (mag_reading a)) in *. set (z := vz (mag_reading a)) in *.
  assert (Eu : bx * cos (at_tf a) - by_ * sin (at_tf a) = at_bh a * sin (at_azi a)).
  { unfold bx, by_. cbn. clear - P2. set (st := sin (at_tf a)) in *. set (ct := cos (at_tf a)) in *.
    clearbody st ct. nsatz. }
  assert (Ew : bx * sin (at_tf a) + by_ * cos (at_tf a)
      = at_bh a * cos (at_azi a) * cos (at_inc a) - at_bv a * sin (at_inc a)).
  { unfold bx, by_. cbn. clear - P2. set (st := sin (at_tf a)) in *. set (ct := cos (at_tf a)) in *.
    clearbody st ct. nsatz. }
  assert (Eh : (bx * sin (at_tf a) + by_ * cos (at_tf a)) * cos (at_inc a) + z * sin (at_inc a)
     = at_bh a * cos (at_azi a)).
  { rewrite Ew. unfold z. cbn. clear - P1. set (si := sin (at_inc a)) in *. set (ci := cos (at_inc a)) in *.
    clearbody si ci. nsatz. }
  assert (Ev : z * cos (at_inc a) - (bx * sin (at_tf a) + by_ * cos (at_tf a)) * sin (at_inc a) = at_bv a).
  { rewrite Ew. unfold z. cbn. clear - P1. set (si := sin (at_inc a)) in *. set (ci := cos (at_inc a)) in *.
    clearbody si ci. nsatz. }
  assert (Es : (bx * cos (at_tf a) - by_ * sin (at_tf a)) ^ 2
     + ((bx * sin (at_tf a) + by_ * cos (at_tf a)) * cos (at_inc a) + z * sin (at_inc a)) ^ 2 = (at_bh a)²).
  { rewrite Eu, Eh. unfold Rsqr. transitivity (at_bh a * at_bh a * (sin (at_azi a) * sin (at_azi a) + cos (at_azi a) * cos (at_azi a))); [ring|rewrite P3; ring]. }
  pose proof (mismatch_rate (at_inc a) (at_tf a) bx by_ B D z) as M. cbv zeta in M.
  rewrite Es, Eh, Ev, sqrt_Rsqr in M by lra.
  assert (Hp : 0 < (at_bh a)²) by (unfold Rsqr; nra).
  specialize (M Hp). eapply der_conv; [exact M|]. field. lra.
Qed.
(** the condition for the nearest field, in terms of the attitude found *)
Lemma stationary_eq : forall a B D, 0 < at_bh a ->
  derivable_pt_lim (mismatch (at_inc a) (at_tf a) (vx (mag_reading a)) (vy (mag_reading a)) B D)
    (vz (mag_reading a)) 0 ->
  (at_bh a - B * cos D) * (cos (at_azi a) * sin (at_inc a)) + (at_bv a - B * sin D) * cos (at_inc a) = 0.
Proof.
  intros a B D Hb Hd. pose proof (stationary_rate a B D Hb) as S.
  pose proof (uniqueness_limite _ _ _ _ S Hd). lra.
Qed.

Lemma stationary_eq' : forall a B D, 0 < at_bh a ->
  (at_bh a - B * cos D) * (cos (at_azi a) * sin (at_inc a)) + (at_bv a - B * sin D) * cos (at_inc a) = 0 ->
  derivable_pt_lim (mismatch (at_inc a) (at_tf a) (vx (mag_reading a)) (vy (mag_reading a)) B D)
    (vz (mag_reading a)) 0.
Proof.
  intros a B D Hb E. pose proof (stationary_rate a B D Hb) as S. rewrite E, Rmult_0_r in S. exact S.
Qed.
Lemma corrected_rates : forall a B D ea ex ey eB eD f, corrected a B D ea ex ey eB eD f ->
  at_bh a = B * cos D -> at_bv a = B * sin D -> 0 < at_bh a ->
  forall I' A' T', derivable_pt_lim (fun t => at_inc (f t)) 0 I' ->
  derivable_pt_lim (fun t => at_azi (f t)) 0 A' ->
  derivable_pt_lim (fun t => at_tf (f t)) 0 T' ->
  let si := sin (at_inc a) in let ci := cos (at_inc a) in
  let sa := sin (at_azi a) in let ca := cos (at_azi a) in
  let st := sin (at_tf a) in let ct := cos (at_tf a) in
  let h := at_bh a in let v := at_bv a in
  (1 - si ^ 2 * sa ^ 2) * h * A' =
    ca * (ct * ex - st * ey) - sa * ci * (st * ex + ct * ey) + (v * si * ca - h * ci) * T'
    - sa * ci * (v * ci + h * ca * si) * I'
    - sa * si * ((eB * cos D - v * eD) * ca * si + (eB * sin D + h * eD) * ci).
Proof.
  intros a B D ea ex ey eB eD f [H0 [Hs Hn]] Hh Hv Hp I' A' T' HI HA HT.
  destruct Hs as [_ [_ [_ [_ [[h' Dh] [v' Dv]]]]]].
  assert (Hx : near_zero (fun t => vx (mag_reading (f t)) = vx (mag_reading a) + t * ex)).
  { eapply near_mono; [|apply Hn]. intros t [_ [E _]]. exact E. }
  assert (Hy : near_zero (fun t => vy (mag_reading (f t)) = vy (mag_reading a) + t * ey)).
  { eapply near_mono; [|apply Hn]. intros t [_ [_ [E _]]]. exact E. }
  destruct (mag_xy_rates a _ _ f H0 Hx Hy _ _ _ _ _ HI HA HT Dh Dv) as [E1 E2].
  assert (Hb : near_zero (fun t => 0 < at_bh (f t))).
  { eapply near_pos; [exact Dh | rewrite H0; exact Hp]. }
  assert (Hz : near_zero (fun t => (at_bh (f t) - (B + t * eB) * cos (D + t * eD)) * (cos (at_azi (f t)) * sin (at_inc (f t)))
     + (at_bv (f t) - (B + t * eB) * sin (D + t * eD)) * cos (at_inc (f t)) = 0)).
  { generalize (near_and _ _ Hb Hn). apply near_mono. intros t [Hpt [_ [_ [_ Ht]]]].
    apply stationary_eq; auto. }
  pose proof (near_rate _ _ _ _ Hz ltac:(dl) (d_const 0 0)) as E3.
  cbv beta in E3. rewrite H0 in E3. rewrite !Rmult_0_l, !Rplus_0_r, <- Hh, <- Hv in E3.
  assert (E4 : (h' - (eB * cos D - at_bv a * eD)) * (cos (at_azi a) * sin (at_inc a))
     + (v' - (eB * sin D + at_bh a * eD)) * cos (at_inc a) = 0).
  { rewrite Hv, Hh. rewrite <- E3. rewrite Hh, Hv. ring. }
  cbv zeta. clear - E1 E2 E4.
  pose proof (sin2_cos2 (at_inc a)) as P1. pose proof (sin2_cos2 (at_azi a)) as P3.
  unfold Rsqr in *.
  set (si := sin (at_inc a)) in *. set (ci := cos (at_inc a)) in *.
  set (sa := sin (at_azi a)) in *. set (ca := cos (at_azi a)) in *.
  set (st := sin (at_tf a)) in *. set (ct := cos (at_tf a)) in *.
  set (h := at_bh a) in *. set (v := at_bv a) in *.
  set (rb := eB * cos D - v * eD) in *. set (rv := eB * sin D + h * eD) in *.
  set (mu := ct * ex - st * ey) in *. set (mw := st * ex + ct * ey) in *.
  clearbody mu mw rb rv si ci sa ca h v. clear st ct ex ey eB eD D a.
  assert (F1 : rb * ca * si + rv * ci = h' * ca * si + v' * ci) by nsatz.
  clear E4. subst mu mw. rewrite F1. clear F1.
  assert (P1' : ci * ci = 1 - si * si) by lra. assert (P3' : ca * ca = 1 - sa * sa) by lra.
  ring [P1' P3'].
Qed.

(** ** Existence of the corrected angles *)

Lemma near_small : forall c d, derivable_pt_lim c 0 d -> forall e, 0 < e ->
  near_zero (fun t => Rabs (c t - c 0) < e).
Proof.
  intros c d Hd e He.
  assert (Hc : continuity_pt c 0) by (apply derivable_continuous_pt; exists d; exact Hd).
  destruct (Hc e He) as [a [Ha H]]. exists a. split; [exact Ha|]. intros t Ht.
  destruct (Req_dec t 0) as [->|Hn].
  - replace (c 0 - c 0) with 0 by ring. rewrite Rabs_R0. exact He.
  - apply H. split.
    + split; [exact I|]. auto.
    + simpl. unfold R_dist. replace (t - 0) with t by ring. exact Ht.
Qed.
Lemma near_quot : forall c d, derivable_pt_lim c 0 d -> c 0 = 0 -> forall e, 0 < e ->
  near_zero (fun t => Rabs (c t - d * t) <= e * Rabs t).
Proof.
  intros c d Hd H0 e He. destruct (Hd e He) as [del H].
  exists del. split; [apply cond_pos|]. intros t Ht.
  destruct (Req_dec t 0) as [->|Hn].
  - rewrite H0. replace (0 - d * 0) with 0 by ring. rewrite !Rabs_R0. lra.
  - specialize (H t Hn Ht). rewrite Rplus_0_l, H0 in H.
    replace (c t - d * t) with (((c t - 0) / t - d) * t) by (field; auto).
    rewrite Rabs_mult. apply Rmult_le_compat_r; [apply Rabs_pos | lra].
Qed.

Lemma root_curve : forall (c0 c1 : R -> R) (rem : R -> R -> R) C m d d1,
  c0 0 = 0 -> derivable_pt_lim c0 0 d -> 0 < m -> c1 0 = m -> derivable_pt_lim c1 0 d1 -> 0 <= C ->
  near_zero (fun t => forall x, Rabs x <= 1 -> Rabs (rem t x) <= C * (x * x)) ->
  (forall t, continuity (fun x => c0 t + c1 t * x + rem t x)) ->
  exists x, x 0 = 0 /\ has_derivative x /\
    near_zero (fun t => c0 t + c1 t * x t + rem t (x t) = 0).
Proof.
  intros c0 c1 rem C m d d1 H0 D0 Hm H1 D1 HC Hr Hcont.
  set (delta := m / (4 * C + 4 + m)).
  assert (Hk : 0 < 4 * C + 4 + m) by lra.
  assert (Hd0 : 0 < delta) by (unfold delta; apply Rdiv_lt_0_compat; lra).
  assert (Hde : delta * (4 * C + 4 + m) = m) by (unfold delta; field; lra).
  assert (Hd1 : delta <= 1) by nra.
  assert (HdC : C * delta <= m / 4) by nra.
  assert (He1 : 0 < m / 4) by lra.
  assert (He0 : 0 < m * delta / 4) by nra.
  pose proof (near_and _ _ Hr (near_and _ _ (near_small c1 d1 D1 (m / 4) He1)
     (near_small c0 d D0 (m * delta / 4) He0))) as [tau [Ht HN]].
  rewrite H1, H0 in HN.
  assert (Root : forall t, Rabs t < tau -> { x : R | Rabs x <= delta /\ c0 t + c1 t * x + rem t x = 0 }).
  { intros t Hlt. destruct (HN t Hlt) as [R [A B]].
    replace (c0 t - 0) with (c0 t) in B by ring.
    apply Rabs_def2 in A. apply Rabs_def2 in B.
    assert (R1 := R delta). rewrite (Rabs_pos_eq delta) in R1 by lra. specialize (R1 Hd1).
    assert (R2 := R (- delta)). rewrite Rabs_Ropp, (Rabs_pos_eq delta) in R2 by lra. specialize (R2 Hd1).
    assert (Q1 : - (C * (delta * delta)) <= rem t delta <= C * (delta * delta)).
    { revert R1. unfold Rabs. destruct (Rcase_abs _); lra. }
    assert (Q2 : - (C * (delta * delta)) <= rem t (- delta) <= C * (delta * delta)).
    { revert R2. unfold Rabs. destruct (Rcase_abs _); intros; nra. }
    assert (W : C * (delta * delta) <= m * delta / 4) by nra.
    destruct (IVT (fun x => c0 t + c1 t * x + rem t x) (- delta) delta) as [x [Hx1 Hx2]].
    - apply Hcont.
    - lra.
    - nra.
    - nra.
    - exists x. split; [|exact Hx2]. apply Rabs_le. lra. }
  set (x := fun t => match Rlt_dec (Rabs t) tau with left H => proj1_sig (Root t H) | right _ => 0 end).
  assert (Hx : forall t, Rabs t < tau -> Rabs (x t) <= delta /\ c0 t + c1 t * x t + rem t (x t) = 0).
  { intros t Hlt. unfold x. destruct (Rlt_dec (Rabs t) tau); [|contradiction].
    destruct (Root t r) as [y Hy]. exact Hy. }
  assert (Hb : forall t, Rabs t < tau -> m / 2 * Rabs (x t) <= Rabs (c0 t)).
  { intros t Hlt. destruct (Hx t Hlt) as [X1 X2]. destruct (HN t Hlt) as [R [A _]].
    apply Rabs_def2 in A. specialize (R (x t) ltac:(lra)).
    replace (c0 t) with (- (c1 t * x t + rem t (x t))) by lra. rewrite Rabs_Ropp.
    assert (T : Rabs (c1 t * x t) <= Rabs (c1 t * x t + rem t (x t)) + Rabs (rem t (x t))).
    { replace (c1 t * x t) with ((c1 t * x t + rem t (x t)) + - rem t (x t)) at 1 by ring.
      eapply Rle_trans; [apply Rabs_triang|]. rewrite Rabs_Ropp. lra. }
    rewrite Rabs_mult in T. rewrite (Rabs_pos_eq (c1 t)) in T by lra.
    assert (S : x t * x t = Rabs (x t) * Rabs (x t)).
    { unfold Rabs. destruct (Rcase_abs (x t)); ring. }
    rewrite S in R. pose proof (Rabs_pos (x t)).
    assert (C * (Rabs (x t) * Rabs (x t)) <= m / 4 * Rabs (x t)).
    { apply (Rle_trans _ (C * delta * Rabs (x t))); [|apply Rmult_le_compat_r; lra].
      rewrite <- Rmult_assoc. apply Rmult_le_compat_r; [lra|]. apply Rmult_le_compat_l; lra. }
    nra. }
  assert (X0 : x 0 = 0).
  { assert (Hz : Rabs 0 < tau) by (rewrite Rabs_R0; exact Ht).
    pose proof (Hb 0 Hz) as B. rewrite H0, Rabs_R0 in B. pose proof (Rabs_pos (x 0)).
    assert (E : Rabs (x 0) = 0) by nra. destruct (Req_dec (x 0) 0) as [|N]; auto.
    apply Rabs_no_R0 in N. contradiction. }
  exists x. split; [exact X0|split].
  2:{ exists tau. split; auto. intros t Hlt. apply Hx; auto. }
  exists (- d / m). intros eps Heps.
  set (K := 2 * (Rabs d + 1) / m).
  assert (HK : 0 < K). { unfold K. pose proof (Rabs_pos d). apply Rdiv_lt_0_compat; lra. }
  set (e1 := eps * m / 4). assert (He1' : 0 < e1) by (unfold e1; nra).
  set (e2 := eps * m / (4 * K)). assert (He2 : 0 < e2) by (unfold e2; apply Rdiv_lt_0_compat; nra).
  set (e3 := eps * m / (4 * (C * K * K) + 1)).
  assert (HCK : 0 <= C * K * K) by (apply Rmult_le_pos; [apply Rmult_le_pos; lra | lra]).
  assert (He3 : 0 < e3) by (unfold e3; apply Rdiv_lt_0_compat; nra).
  destruct (near_and _ _ (near_quot c0 d D0 H0 e1 He1')
     (near_and _ _ (near_quot c0 d D0 H0 1 Rlt_0_1) (near_small c1 d1 D1 e2 He2))) as [t2 [Ht2 HN2]].
  assert (Hm3 : 0 < Rmin tau (Rmin t2 e3)) by (repeat apply Rmin_glb_lt; auto).
  exists (mkposreal _ Hm3). intros h Hh Hl. simpl in Hl.
  assert (L1 : Rabs h < tau) by (eapply Rlt_le_trans; [apply Hl | apply Rmin_l]).
  assert (L2 : Rabs h < t2).
  { eapply Rlt_le_trans; [apply Hl|]. eapply Rle_trans; [apply Rmin_r | apply Rmin_l]. }
  assert (L3 : Rabs h < e3).
  { eapply Rlt_le_trans; [apply Hl|]. eapply Rle_trans; [apply Rmin_r | apply Rmin_r]. }
  destruct (HN2 h L2) as [Q1 [Q2 Q3]]. rewrite H1 in Q3.
  destruct (HN h L1) as [R _]. destruct (Hx h L1) as [X1 X2].
  specialize (R (x h) ltac:(lra)). pose proof (Hb h L1) as B.
  assert (Hp : 0 < Rabs h) by (apply Rabs_pos_lt; auto).
  assert (B0 : Rabs (c0 h) <= (Rabs d + 1) * Rabs h).
  { replace (c0 h) with ((c0 h - d * h) + d * h) by ring.
    eapply Rle_trans; [apply Rabs_triang|]. rewrite Rabs_mult. lra. }
  assert (BK : Rabs (x h) <= K * Rabs h).
  { apply (Rmult_le_reg_l (m / 2)); [lra|]. unfold K.
    replace (m / 2 * (2 * (Rabs d + 1) / m * Rabs h)) with ((Rabs d + 1) * Rabs h) by (field; lra). lra. }
  rewrite Rplus_0_l, X0. replace (x h - 0) with (x h) by ring.
  assert (E : m * x h + d * h = (d * h - c0 h) + (m - c1 h) * x h + - rem h (x h)) by lra.
  replace (x h / h - - d / m) with ((m * x h + d * h) / (m * h)) by (field; split; lra || auto).
  unfold Rdiv. rewrite Rabs_mult, Rabs_inv, Rabs_mult, (Rabs_pos_eq m) by lra.
  apply (Rmult_lt_reg_r (m * Rabs h)); [nra|].
  replace (Rabs (m * x h + d * h) * / (m * Rabs h) * (m * Rabs h)) with (Rabs (m * x h + d * h)) by (field; lra).
  rewrite E.
  eapply Rle_lt_trans; [apply Rabs_triang|]. rewrite Rabs_Ropp.
  eapply Rle_lt_trans; [apply Rplus_le_compat_r, Rabs_triang|].
  rewrite (Rabs_minus_sym (d * h)), Rabs_mult, (Rabs_minus_sym m).
  assert (S : x h * x h = Rabs (x h) * Rabs (x h)).
  { unfold Rabs. destruct (Rcase_abs (x h)); ring. }
  assert (T1 : Rabs (c1 h - m) * Rabs (x h) <= e2 * (K * Rabs h)).
  { apply Rmult_le_compat; try apply Rabs_pos; lra. }
  assert (T1e : e2 * (K * Rabs h) = e1 * Rabs h) by (unfold e1, e2; field; lra).
  assert (T2 : Rabs (rem h (x h)) <= C * K * K * Rabs h * Rabs h).
  { eapply Rle_trans; [apply R|]. rewrite S.
    replace (C * K * K * Rabs h * Rabs h) with (C * ((K * Rabs h) * (K * Rabs h))) by ring.
    apply Rmult_le_compat_l; [lra|]. apply Rmult_le_compat; try apply Rabs_pos; auto. }
  assert (T3 : C * K * K * Rabs h <= e1).
  { assert (F : e3 * (4 * (C * K * K) + 1) = eps * m) by (unfold e3; field; lra). unfold e1. nra. }
  assert (T4 : C * K * K * Rabs h * Rabs h <= e1 * Rabs h) by (apply Rmult_le_compat_r; lra).
  assert (F1 : e1 * 4 = eps * m) by (unfold e1; field).
  nra.
Qed.

Lemma abs_sin_le : forall x, Rabs (sin x) <= Rabs x.
Proof.
  assert (P : forall x, 0 < x -> Rabs (sin x) <= x).
  { intros x Hx. destruct (Rlt_le_dec x 1) as [H1|H1].
    - rewrite Rabs_pos_eq; [left; apply sin_lt_x; auto|].
      apply sin_ge_0; [lra|]. pose proof PI_RGT_0. pose proof PI2_1. unfold Rdiv in *. lra.
    - eapply Rle_trans; [|apply H1]. apply Rabs_le. apply SIN_bound. }
  intro x. destruct (Rtotal_order x 0) as [H|[->|H]].
  - rewrite <- (Rabs_Ropp x), <- (Rabs_Ropp (sin x)), <- sin_neg, (Rabs_pos_eq (- x)) by lra. apply P. lra.
  - rewrite sin_0, Rabs_R0. lra.
  - rewrite (Rabs_pos_eq x) by lra. apply P. auto.
Qed.
Lemma sin_sq_le : forall x, sin x * sin x <= x * x.
Proof. intro x. apply Rsqr_le_abs_1. apply abs_sin_le. Qed.
Lemma cos_1_bound : forall x, 0 <= 1 - cos x <= x * x / 2.
Proof.
  intro x. pose proof (COS_bound x). split; [lra|].
  replace x with (2 * (x / 2)) at 1 by field. rewrite cos_2a_sin.
  pose proof (sin_sq_le (x / 2)). lra.
Qed.
Lemma sin_x_bound : forall x, Rabs x <= 1 -> Rabs (sin x - x) <= x * x / 2.
Proof.
  assert (P : forall x, 0 < x <= 1 -> Rabs (sin x - x) <= x * x / 2).
  { intros x [Hx Hx1].
    destruct (MVT_cor2 (fun y => sin y - y) (fun y => cos y - 1) 0 x Hx) as [c [Hc Hr]].
    { intros c _. apply (d_minus sin (fun y => y)); [apply derivable_pt_lim_sin | apply derivable_pt_lim_id]. }
    rewrite sin_0 in Hc. replace (sin x - x) with ((cos c - 1) * (x - 0)) by lra.
    pose proof (cos_1_bound c). rewrite Rabs_mult, (Rabs_pos_eq (x - 0)) by lra.
    rewrite Rabs_minus_sym, Rabs_pos_eq by lra.
    assert (c * c <= x) by nra. nra. }
  intros x Hx. apply Rabs_def2b in Hx || idtac.
  destruct (Rtotal_order x 0) as [H|[->|H]].
  - rewrite <- (Rabs_Ropp x), (Rabs_pos_eq (- x)) in Hx by lra.
    rewrite <- Rabs_Ropp. replace (- (sin x - x)) with (sin (- x) - - x) by (rewrite sin_neg; ring).
    replace (x * x / 2) with (- x * - x / 2) by field. apply P. lra.
  - rewrite sin_0, Rminus_0_r, Rabs_R0. lra.
  - rewrite (Rabs_pos_eq x) in Hx by lra. apply P. lra.
Qed.

Lemma mul_bound : forall p q a b, Rabs p <= a -> Rabs q <= b -> Rabs (p * q) <= a * b.
Proof. intros. rewrite Rabs_mult. apply Rmult_le_compat; auto using Rabs_pos. Qed.

Lemma azi_curve : forall (K L u : R -> R) k' l' u' A0,
  derivable_pt_lim K 0 k' -> derivable_pt_lim L 0 l' -> derivable_pt_lim u 0 u' ->
  K 0 * sin A0 + L 0 * (sin A0 * cos A0) - u 0 * cos A0 = 0 ->
  0 < K 0 * cos A0 + L 0 * (cos A0 * cos A0 - sin A0 * sin A0) + u 0 * sin A0 ->
  exists A, A 0 = A0 /\ has_derivative A /\
    near_zero (fun t => K t * sin (A t) + L t * (sin (A t) * cos (A t)) - u t * cos (A t) = 0).
Proof.
  intros K L u k' l' u' A0 DK DL Du H0 Hm.
  set (F := fun t x => K t * sin (A0 + x) + L t * (sin (A0 + x) * cos (A0 + x)) - u t * cos (A0 + x)).
  set (c0 := fun t => K t * sin A0 + L t * (sin A0 * cos A0) - u t * cos A0).
  set (c1 := fun t => K t * cos A0 + L t * (cos A0 * cos A0 - sin A0 * sin A0) + u t * sin A0).
  set (rem := fun t x => F t x - c0 t - c1 t * x).
  assert (D0 : exists d, derivable_pt_lim c0 0 d) by (eexists; unfold c0; dl).
  assert (D1 : exists d, derivable_pt_lim c1 0 d) by (eexists; unfold c1; dl).
  destruct D0 as [d0 D0], D1 as [d1 D1].
  destruct (root_curve c0 c1 rem (2 * (Rabs (K 0) + 1) + 4 * (Rabs (L 0) + 1) + 2 * (Rabs (u 0) + 1)) (c1 0) d0 d1)
    as [x [X0 [Dx Nx]]]; auto.
  - pose proof (Rabs_pos (K 0)). pose proof (Rabs_pos (L 0)). pose proof (Rabs_pos (u 0)). lra.
  - generalize (near_and _ _ (near_small K k' DK 1 Rlt_0_1)
      (near_and _ _ (near_small L l' DL 1 Rlt_0_1) (near_small u u' Du 1 Rlt_0_1))).
    apply near_mono. intros t [BK [BL Bu]] x Hx.
    assert (G : forall p q, Rabs (p - q) < 1 -> Rabs p <= Rabs q + 1).
    { intros p q Hpq. replace p with ((p - q) + q) by ring. eapply Rle_trans; [apply Rabs_triang|]. lra. }
    apply G in BK. apply G in BL. apply G in Bu. clear G.
    pose proof (cos_1_bound x) as C1. pose proof (sin_x_bound x Hx) as S1.
    assert (C1' : Rabs (cos x - 1) <= x * x / 2) by (rewrite Rabs_minus_sym, Rabs_pos_eq; lra).
    assert (BS : Rabs (sin A0) <= 1) by (apply Rabs_le, SIN_bound).
    assert (BC : Rabs (cos A0) <= 1) by (apply Rabs_le, COS_bound).
    assert (Bcx : Rabs (cos x) <= 1) by (apply Rabs_le, COS_bound).
    assert (Px : 0 <= x * x) by nra.
    assert (E : rem t x = K t * (sin A0 * (cos x - 1) + cos A0 * (sin x - x))
       + L t * ((sin A0 * cos A0) * (- (2 * (sin x * sin x)))
                + (cos A0 * cos A0 - sin A0 * sin A0) * ((sin x - x) * cos x + x * (cos x - 1)))
       + u t * (sin A0 * (sin x - x) - cos A0 * (cos x - 1))).
    { unfold rem, F, c0, c1. rewrite sin_plus, cos_plus.
      pose proof (sin2_cos2 x) as P. unfold Rsqr in P.
      assert (P' : cos x * cos x = 1 - sin x * sin x) by lra. ring [P']. }
    rewrite E.
    assert (Tri : forall p q a b, Rabs p <= a -> Rabs q <= b -> Rabs (p + q) <= a + b).
    { intros. eapply Rle_trans; [apply Rabs_triang | lra]. }
    assert (Opp : forall p a, Rabs p <= a -> Rabs (- p) <= a) by (intros; rewrite Rabs_Ropp; auto).
    assert (One : forall p q a, Rabs p <= 1 -> Rabs q <= a -> Rabs (p * q) <= a).
    { intros p q a Hp Hq. rewrite <- (Rmult_1_l a). apply mul_bound; auto. }
    assert (T1 : Rabs (sin A0 * (cos x - 1) + cos A0 * (sin x - x)) <= x * x).
    { replace (x * x) with (x * x / 2 + x * x / 2) by field. apply Tri; apply One; auto. }
    assert (T3 : Rabs (sin A0 * (sin x - x) - cos A0 * (cos x - 1)) <= x * x).
    { replace (x * x) with (x * x / 2 + x * x / 2) by field. apply Tri; [|apply Opp]; apply One; auto. }
    assert (T2 : Rabs ((sin A0 * cos A0) * (- (2 * (sin x * sin x)))
                + (cos A0 * cos A0 - sin A0 * sin A0) * ((sin x - x) * cos x + x * (cos x - 1))) <= 3 * (x * x)).
    { replace (3 * (x * x)) with (2 * (x * x) + x * x) by ring. apply Tri; apply One.
      - apply One; auto.
      - apply Opp. rewrite Rabs_pos_eq by nra. pose proof (sin_sq_le x). lra.
      - replace (cos A0 * cos A0 - sin A0 * sin A0) with (cos (2 * A0)) by (rewrite cos_2a; ring).
        apply Rabs_le, COS_bound.
      - replace (x * x) with (x * x / 2 + x * x / 2) by field. apply Tri.
        + rewrite Rmult_comm. apply One; auto.
        + apply One; auto. }
    eapply Rle_trans; [apply Tri; [apply Tri|]; apply mul_bound; eassumption|].
    pose proof (Rabs_pos (K 0)). pose proof (Rabs_pos (L 0)). pose proof (Rabs_pos (u 0)). nra.
  - intro t.
    assert (Q : forall x, c0 t + c1 t * x + rem t x = F t x) by (intro; unfold rem; ring).
    intro x. apply derivable_continuous_pt.
    exists (K t * cos (A0 + x) + L t * (cos (A0 + x) * cos (A0 + x) - sin (A0 + x) * sin (A0 + x)) + u t * sin (A0 + x)).
    apply (derivable_pt_lim_ext (F t)); [intro; symmetry; apply Q|].
    unfold F. eapply der_conv; [dl|]. ring.
  - exists (fun t => A0 + x t). split; [rewrite X0; ring|split].
    + destruct Dx as [x' Dx]. exists (0 + x'). dl.
    + eapply near_mono; [|apply Nx]. intros t Ht. cbv beta in *.
      change (F t (x t) = 0). unfold rem in Ht. lra.
Qed.

Lemma corrected_exists : forall a B D ea ex ey eB eD,
  at_bh a = B * cos D -> at_bv a = B * sin D ->
  0 < at_g a -> 0 < sin (at_inc a) -> 0 < at_bh a ->
  sin (at_inc a) ^ 2 * sin (at_azi a) ^ 2 < 1 ->
  exists f, corrected a B D ea ex ey eB eD f.
Proof.
  intros a B D ea ex ey eB eD Hbh Hbv Hg Hi Hb HD.
  set (gx := fun t => vx (acc_reading a) + t * vx ea).
  set (gy := fun t => vy (acc_reading a) + t * vy ea).
  set (gz := fun t => vz (acc_reading a) + t * vz ea).
  set (bx := fun t => vx (mag_reading a) + t * ex).
  set (by_ := fun t => vy (mag_reading a) + t * ey).
  assert (Dgx : derivable_pt_lim gx 0 (vx ea)). { apply d_affine. }
  assert (Dgy : derivable_pt_lim gy 0 (vy ea)). { apply d_affine. }
  assert (Dgz : derivable_pt_lim gz 0 (vz ea)). { apply d_affine. }
  assert (Dbx : derivable_pt_lim bx 0 ex). { apply d_affine. }
  assert (Dby : derivable_pt_lim by_ 0 ey). { apply d_affine. }
  destruct (polar_lift (fun t => - gy t) (fun t => - gx t) (- vy ea) (- vx ea)
              (at_g a * sin (at_inc a)) (at_tf a)) as [rho [tf [R0 [T0 [[rho' Drho] [[tf' Dtf] N1]]]]]].
  { apply d_opp, Dgy. } { apply d_opp, Dgx. } { nra. }
  { unfold gy. cbn. ring. } { unfold gx. cbn. ring. }
  destruct (polar_lift gz rho (vz ea) rho' (at_g a) (at_inc a))
    as [g [ic [G0 [I0 [[g' Dg] [[ic' Dic] N2]]]]]]; auto.
  { unfold gz. cbn. ring. }
  set (w := fun t => bx t * sin (tf t) + by_ t * cos (tf t)).
  set (u := fun t => bx t * cos (tf t) - by_ t * sin (tf t)).
  set (rh := fun t => (B + t * eB) * cos (D + t * eD)).
  set (rv := fun t => (B + t * eB) * sin (D + t * eD)).
  set (K := fun t => (w t + rv t * sin (ic t)) * cos (ic t)).
  set (L := fun t => rh t * (sin (ic t) * sin (ic t))).
  assert (Drh : exists d, derivable_pt_lim rh 0 d). { eexists. unfold rh. dl. }
  assert (Drv : exists d, derivable_pt_lim rv 0 d). { eexists. unfold rv. dl. }
  assert (Du : exists d, derivable_pt_lim u 0 d). { eexists. unfold u. dl. }
  assert (Dw : exists d, derivable_pt_lim w 0 d). { eexists. unfold w. dl. }
  destruct Du as [u' Du], Dw as [w' Dw], Drh as [rh' Drh], Drv as [rv' Drv].
  assert (DK : exists d, derivable_pt_lim K 0 d). { eexists. unfold K. dl. }
  assert (DL : exists d, derivable_pt_lim L 0 d). { eexists. unfold L. dl. }
  destruct DK as [k' DK], DL as [l' DL].
  pose proof (sin2_cos2 (at_inc a)) as P1. pose proof (sin2_cos2 (at_tf a)) as P2.
  pose proof (sin2_cos2 (at_azi a)) as P3. unfold Rsqr in *.
  assert (rh0 : rh 0 = at_bh a). { unfold rh. rewrite !Rmult_0_l, !Rplus_0_r. auto. }
  assert (rv0 : rv 0 = at_bv a). { unfold rv. rewrite !Rmult_0_l, !Rplus_0_r. auto. }
  assert (u0 : u 0 = at_bh a * sin (at_azi a)).
  { unfold u, bx, by_. rewrite T0. cbn. clear - P2.
    set (st := sin (at_tf a)) in *. set (ct := cos (at_tf a)) in *. clearbody st ct. nsatz. }
  assert (w0 : w 0 = at_bh a * cos (at_azi a) * cos (at_inc a) - at_bv a * sin (at_inc a)).
  { unfold w, bx, by_. rewrite T0. cbn. clear - P2.
    set (st := sin (at_tf a)) in *. set (ct := cos (at_tf a)) in *. clearbody st ct. nsatz. }
  assert (Pi : cos (at_inc a) * cos (at_inc a) = 1 - sin (at_inc a) * sin (at_inc a)) by lra.
  assert (Pa : cos (at_azi a) * cos (at_azi a) = 1 - sin (at_azi a) * sin (at_azi a)) by lra.
  destruct (azi_curve K L u k' l' u' (at_azi a) DK DL Du) as [az [A0 [[az' Daz] N3]]].
  { unfold K, L. rewrite w0, u0, rh0, rv0, I0. ring [Pi Pa]. }
  { unfold K, L. rewrite w0, u0, rh0, rv0, I0.
    match goal with |- 0 < ?e => replace e with (at_bh a * (1 - sin (at_inc a) ^ 2 * sin (at_azi a) ^ 2)) by ring [Pi Pa] end.
    nra. }
  set (z := fun t => rv t * cos (ic t) + rh t * sin (ic t) * cos (az t)).
  set (p := fun t => w t * cos (ic t) + z t * sin (ic t)).
  set (bh := fun t => u t * sin (az t) + p t * cos (az t)).
  set (bv := fun t => z t * cos (ic t) - w t * sin (ic t)).
  assert (Dz : exists d, derivable_pt_lim z 0 d). { eexists. unfold z. dl. }
  destruct Dz as [z' Dz].
  assert (Dp : exists d, derivable_pt_lim p 0 d). { eexists. unfold p. dl. }
  destruct Dp as [p' Dp].
  assert (Dbh : exists d, derivable_pt_lim bh 0 d). { eexists. unfold bh. dl. }
  assert (Dbv : exists d, derivable_pt_lim bv 0 d). { eexists. unfold bv. dl. }
  assert (bh0 : bh 0 = at_bh a).
  { unfold bh, p, z. rewrite w0, u0, rh0, rv0, I0, A0. ring [Pi Pa]. }
  assert (bv0 : bv 0 = at_bv a).
  { unfold bv, z. rewrite w0, rh0, rv0, I0, A0. ring [Pi Pa]. }
  exists (fun t => mkAtt (ic t) (az t) (tf t) (g t) (bh t) (bv t)).
  split; [|split].
  - rewrite I0, A0, T0, G0, bh0, bv0. destruct a; reflexivity.
  - destruct Dbh, Dbv. repeat (apply conj); cbn; unfold has_derivative; eauto.
  - assert (N4 : near_zero (fun t => 0 < bh t)).
    { destruct Dbh as [? Dbh]. eapply near_pos; [exact Dbh | rewrite bh0; exact Hb]. }
    generalize (near_and _ _ N1 (near_and _ _ N2 (near_and _ _ N3 N4))). apply near_mono.
    intros t [[X1 [Y1 _]] [[X2 [Y2 _]] [E3 Hbt]]].
    pose proof (sin2_cos2 (ic t)) as Q1. pose proof (sin2_cos2 (tf t)) as Q2.
    pose proof (sin2_cos2 (az t)) as Q3. unfold Rsqr in *.
    assert (Q1' : cos (ic t) * cos (ic t) = 1 - sin (ic t) * sin (ic t)) by lra.
    assert (Q3' : cos (az t) * cos (az t) = 1 - sin (az t) * sin (az t)) by lra.
    assert (Q2' : cos (tf t) * cos (tf t) = 1 - sin (tf t) * sin (tf t)) by lra.
    (* p sin = u cos *)
    assert (Ep : p t * sin (az t) = u t * cos (az t)).
    { unfold p, z. unfold K, L in E3. lra. }
    assert (Eu : u t = bh t * sin (az t)).
    { unfold bh. replace ((u t * sin (az t) + p t * cos (az t)) * sin (az t))
        with (u t * (sin (az t) * sin (az t)) + (p t * sin (az t)) * cos (az t)) by ring.
      rewrite Ep. ring [Q3']. }
    assert (Epp : p t = bh t * cos (az t)).
    { unfold bh. replace ((u t * sin (az t) + p t * cos (az t)) * cos (az t))
        with (sin (az t) * (u t * cos (az t)) + p t * (cos (az t) * cos (az t))) by ring.
      rewrite <- Ep. ring [Q3']. }
    set (b := mkAtt (ic t) (az t) (tf t) (g t) (bh t) (bv t)).
    assert (Ew : bh t * cos (az t) * cos (ic t) - bv t * sin (ic t) = w t).
    { rewrite <- Epp. unfold p, bv. ring [Q1']. }
    assert (Ez : bh t * cos (az t) * sin (ic t) + bv t * cos (ic t) = z t).
    { rewrite <- Epp. unfold p, bv. ring [Q1']. }
    assert (Ebx : vx (mag_reading b) = bx t).
    { unfold b. cbn. transitivity (sin (tf t) * (bh t * cos (az t) * cos (ic t) - bv t * sin (ic t))
        + cos (tf t) * (bh t * sin (az t))); [ring|]. rewrite Ew, <- Eu. unfold u, w. ring [Q2']. }
    assert (Eby : vy (mag_reading b) = by_ t).
    { unfold b. cbn. transitivity (cos (tf t) * (bh t * cos (az t) * cos (ic t) - bv t * sin (ic t))
        - sin (tf t) * (bh t * sin (az t))); [ring|]. rewrite Ew, <- Eu. unfold u, w. ring [Q2']. }
    split; [|split; [exact Ebx|split; [exact Eby|]]].
    + change (vadd (acc_reading a) (vscale t ea)) with (mkV (gx t) (gy t) (gz t)).
      unfold acc_reading, b. cbn [at_inc at_azi at_tf at_g at_bh at_bv].
      assert (V : forall p q r p' q' r', p = p' -> q = q' -> r = r' -> mkV p q r = mkV p' q' r').
      { intros; subst; reflexivity. }
      apply V.
      * replace (gx t) with (- - gx t) by ring. rewrite Y1, Y2. ring.
      * replace (gy t) with (- - gy t) by ring. rewrite X1, Y2. ring.
      * rewrite X2. ring.
    + apply stationary_eq'; [exact Hbt|].
      unfold b. cbn [at_inc at_azi at_tf at_g at_bh at_bv]. fold (rh t). fold (rv t).
      transitivity (z t - (rh t * sin (ic t) * cos (az t) + rv t * cos (ic t))).
      { rewrite <- Ez. ring. }
      unfold z. ring.
Qed.

Lemma corrected_intro : forall a B D ea ex ey eB eD w,
  at_bh a = B * cos D -> at_bv a = B * sin D ->
  0 < at_g a -> 0 < sin (at_inc a) -> 0 < at_bh a ->
  sin (at_inc a) ^ 2 * sin (at_azi a) ^ 2 < 1 ->
  vx w = 0 ->
  at_g a * vy w = - cos (at_inc a) * (sin (at_tf a) * vx ea + cos (at_tf a) * vy ea)
                  - sin (at_inc a) * vz ea ->
  (1 - sin (at_inc a) ^ 2 * sin (at_azi a) ^ 2) * at_bh a * vz w =
    cos (at_azi a) * (cos (at_tf a) * ex - sin (at_tf a) * ey)
    - sin (at_azi a) * cos (at_inc a) * (sin (at_tf a) * ex + cos (at_tf a) * ey)
    + (at_bv a * sin (at_inc a) * cos (at_azi a) - at_bh a * cos (at_inc a))
      * (- (cos (at_tf a) * vx ea - sin (at_tf a) * vy ea) / (at_g a * sin (at_inc a)))
    - sin (at_azi a) * cos (at_inc a) * (at_bv a * cos (at_inc a) + at_bh a * cos (at_azi a) * sin (at_inc a)) * vy w
    - sin (at_azi a) * sin (at_inc a) * ((eB * cos D - at_bv a * eD) * cos (at_azi a) * sin (at_inc a)
        + (eB * sin D + at_bh a * eD) * cos (at_inc a)) ->
  corrected_response a B D ea ex ey eB eD w.
Proof.
  intros a B D ea ex ey eB eD w Hh Hv Hg Hi Hb HD H0 HI HA.
  split; [apply corrected_exists; auto|split; auto].
  intros f Hf. destruct Hf as [F0 [Hs Hn]] eqn:Ef.
  destruct Hs as [[I' DI] [[A' DA] [[T' DT] [Hg' [Hb' Hv']]]]] eqn:Es.
  assert (Hn1 : near_zero (fun t => acc_reading (f t) = vadd (acc_reading a) (vscale t ea))).
  { eapply near_mono; [|apply Hn]. intros t [E _]; exact E. }
  destruct (acc_rates a ea f F0 (conj (ex_intro _ I' DI) (conj (ex_intro _ A' DA) (conj (ex_intro _ T' DT)
     (conj Hg' (conj Hb' Hv'))))) Hn1 I' T' DI DT) as [E1 E2].
  pose proof (corrected_rates a B D ea ex ey eB eD f Hf Hh Hv Hb I' A' T' DI DA DT) as E3. cbv zeta in E3.
  assert (EI : I' = vy w). { apply (Rmult_eq_reg_l (at_g a)); [|lra]. rewrite E1, HI. reflexivity. }
  assert (ET : T' = - (cos (at_tf a) * vx ea - sin (at_tf a) * vy ea) / (at_g a * sin (at_inc a))).
  { rewrite <- E2. field. split; lra. }
  assert (EA : A' = vz w).
  { apply (Rmult_eq_reg_l ((1 - sin (at_inc a) ^ 2 * sin (at_azi a) ^ 2) * at_bh a)); [|nra].
    rewrite E3, HA, ET, EI. reflexivity. }
  rewrite <- EI, <- EA. auto.
Qed.
