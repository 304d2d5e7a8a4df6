(** The MWD weights without axial correction are rates of the surveyed angles. *)
Require Import Reals Lra Psatz List Nsatz.
Require Import Verif.Base Verif.NumPy Verif.M_Utils Verif.M_Error Verif.M_Weights Verif.Spec_Weights.
Require Import Verif.P_Error Verif.P_Weights.
Import ListNotations.
Local Open Scope R_scope.

Lemma response_intro : forall a ea em w, 0 < at_g a -> 0 < sin (at_inc a) -> 0 < at_bh a ->
  vx w = 0 ->
  at_g a * vy w = - cos (at_inc a) * (sin (at_tf a) * vx ea + cos (at_tf a) * vy ea)
                  - sin (at_inc a) * vz ea ->
  at_bh a * vz w =
    cos (at_azi a) * (cos (at_tf a) * vx em - sin (at_tf a) * vy em)
    - sin (at_azi a) * (cos (at_inc a) * (sin (at_tf a) * vx em + cos (at_tf a) * vy em)
                        + sin (at_inc a) * vz em)
    + (at_bv a * sin (at_inc a) * cos (at_azi a) - at_bh a * cos (at_inc a))
      * (- (cos (at_tf a) * vx ea - sin (at_tf a) * vy ea) / (at_g a * sin (at_inc a)))
    - sin (at_azi a) * at_bv a * vy w ->
  response a ea em w.
Proof.
  intros a ea em w Hg Hi Hb H0 HI HA. split; [apply surveyed_exists; auto|split; auto].
  intros f Hf. destruct Hf as [F0 [Hs Hn]] eqn:Ef.
  destruct Hs as [[I' DI] [[A' DA] [[T' DT] [Hg' [Hb' Hv']]]]] eqn:Es.
  assert (Hn1 : near_zero (fun t => acc_reading (f t) = vadd (acc_reading a) (vscale t ea))).
  { eapply near_mono; [|apply Hn]. intros t [E _]; exact E. }
  destruct (acc_rates a ea f F0 (conj (ex_intro _ I' DI) (conj (ex_intro _ A' DA) (conj (ex_intro _ T' DT)
     (conj Hg' (conj Hb' Hv'))))) Hn1 I' T' DI DT) as [E1 E2].
  pose proof (response_rates a ea em f Hf I' A' T' DI DA DT) as E3.
  assert (EI : I' = vy w). { apply (Rmult_eq_reg_l (at_g a)); [|lra]. rewrite E1, HI. reflexivity. }
  assert (ET : T' = - (cos (at_tf a) * vx ea - sin (at_tf a) * vy ea) / (at_g a * sin (at_inc a))).
  { rewrite <- E2. field. split; lra. }
  assert (EA : A' = vz w).
  { apply (Rmult_eq_reg_l (at_bh a)); [|lra]. rewrite E3, HA, ET, EI. reflexivity. }
  rewrite <- EI, <- EA. auto.
Qed.

Lemma fdiv_ne : forall a b, b <> 0 -> fdiv a b = Some (a / b).
Proof. intros. unfold fdiv. destruct (Req_EM_T b 0); [contradiction|reflexivity]. Qed.
Lemma fdiv_0 : forall a, fdiv a 0 = None.
Proof. intros. unfold fdiv. destruct (Req_EM_T 0 0); [reflexivity|contradiction]. Qed.
Lemma tan_ne : forall x, cos x <> 0 -> tan_ x = Some (sin x / cos x).
Proof. intros. apply fdiv_ne. auto. Qed.

Ltac fdivs := repeat (first [rewrite tan_ne by lra | rewrite fdiv_ne by (first [lra | nra])]; cbn [bind nan0]).

Lemma sensible_b : forall h, sensible h -> 0 < h_btotal h * cos (h_dip h).
Proof. intros h [_ [H1 H2]]. nra. Qed.

Ltac wstart :=
  match goal with H : sensible ?h |- _ =>
    pose proof (sensible_b h H); destruct H as [HG [HB HC]] end.
Ltac wfin := apply response_intro;
  cbn [tool_at at_inc at_azi at_tf at_g at_bh at_bv vx vy vz ex_ ey_ ez_ vzero vscale vadd vneg
       only_x only_y only_z acc_reading mag_reading dipterm];
  try assumption; try ring.

Lemma abz_rate : forall h s tf, sensible h -> 0 < sin (w_inc s) ->
  exists w, w_ABZ h s = Some w /\ response (tool_at h s tf) ez_ vzero w.
Proof.
  intros. wstart. unfold w_ABZ. fdivs. eexists. split; [reflexivity|].
  wfin; field; repeat split; lra.
Qed.
Lemma asz_rate : forall h s tf, sensible h -> 0 < sin (w_inc s) ->
  exists w, w_ASZ h s = Some w /\
    response (tool_at h s tf) (only_z (acc_reading (tool_at h s tf))) vzero w.
Proof.
  intros. wstart. unfold w_ASZ. fdivs. eexists. split; [reflexivity|].
  wfin; field; repeat split; lra.
Qed.
Lemma mbz_rate : forall h s tf, sensible h -> 0 < sin (w_inc s) ->
  exists w, w_MBZ h s = Some w /\ w_AMIL h s = Some w /\ response (tool_at h s tf) vzero ez_ w.
Proof.
  intros. wstart. unfold w_MBZ, w_AMIL. fdivs. eexists. split; [reflexivity|split;[reflexivity|]].
  wfin; field; repeat split; lra.
Qed.
Lemma msz_rate : forall h s tf, sensible h -> 0 < sin (w_inc s) ->
  exists w, w_MSZ h s = Some w /\
    response (tool_at h s tf) vzero (only_z (mag_reading (tool_at h s tf))) w.
Proof.
  intros. wstart. unfold w_MSZ. fdivs. eexists. split; [reflexivity|].
  wfin; field; repeat split; lra.
Qed.
Lemma abxy_rate : forall h s tf, sensible h -> 0 < sin (w_inc s) ->
  exists w1 w2, w_ABXY_TI1 h s = Some w1 /\ w_ABXY_TI2 h s = Some w2 /\
    response (tool_at h s tf) ex_ vzero (vadd (vscale (sin tf) w1) (vscale (cos tf) w2)) /\
    response (tool_at h s tf) ey_ vzero (vsub (vscale (cos tf) w1) (vscale (sin tf) w2)).
Proof.
  intros. wstart. unfold w_ABXY_TI1, w_ABXY_TI2. fdivs. eexists. eexists.
  split; [reflexivity|split; [reflexivity|]].
  split; unfold vsub; wfin; field; repeat split; lra.
Qed.
Lemma mbxy_rate : forall h s tf, sensible h -> 0 < sin (w_inc s) ->
  exists w1 w2, w_MBXY_TI1 h s = Some w1 /\ w_MBXY_TI2 h s = Some w2 /\
    response (tool_at h s tf) vzero ex_ (vadd (vscale (sin tf) w1) (vscale (cos tf) w2)) /\
    response (tool_at h s tf) vzero ey_ (vsub (vscale (cos tf) w1) (vscale (sin tf) w2)).
Proof.
  intros. wstart. unfold w_MBXY_TI1, w_MBXY_TI2. fdivs. eexists. eexists.
  split; [reflexivity|split; [reflexivity|]].
  split; unfold vsub; wfin; field; repeat split; lra.
Qed.

(** the rates per unit of reading error are unique *)
Lemma response_unique : forall a ea em w w', response a ea em w -> response a ea em w' -> w = w'.
Proof.
  intros a ea em w w' [[f Hf] [X H]] [_ [X' H']].
  destruct (H f Hf) as [A B], (H' f Hf) as [A' B'].
  destruct w as [x y z], w' as [x' y' z']. cbn in *. subst.
  rewrite (uniqueness_limite _ _ _ _ A A'), (uniqueness_limite _ _ _ _ B B'). reflexivity.
Qed.

Lemma quartic_mean : forall a b e f,
  (forall x, f x = a * (sin x ^ 4 + cos x ^ 4) + b * (2 * sin x ^ 2 * cos x ^ 2)
                   + e * (sin x ^ 3 * cos x - cos x ^ 3 * sin x)) ->
  turn_mean f (3 / 4 * a + 1 / 4 * b).
Proof.
  intros a b e f Hf.
  exists (fun x => (3 / 4 * a + 1 / 4 * b) * x
     + ((a - b) * (1 / 4)) * (sin x * cos x * (cos x * cos x - sin x * sin x))
     + (e * (1 / 16)) * (1 - 8 * (sin x * sin x * (cos x * cos x)))).
  split.
  - intro x. rewrite Hf. eapply der_conv; [dl|].
    pose proof (sin2_cos2 x) as P. unfold Rsqr in P.
    set (s := sin x) in *. set (c := cos x) in *. clearbody s c.
    assert (E : c * c = 1 - s * s) by lra.
    replace (c ^ 4) with ((c * c) * (c * c)) by ring.
    replace (c ^ 3) with ((c * c) * c) by ring.
    replace (c ^ 2) with (c * c) by ring.
    ring_simplify. 
    replace (c ^ 4) with ((c * c) * (c * c)) by ring.
    replace (c ^ 3) with ((c * c) * c) by ring.
    replace (c ^ 2) with (c * c) by ring. rewrite E. field.
  - rewrite sin_2PI, cos_2PI, sin_0, cos_0. ring.
Qed.

(** biases: at every toolface the two cross-axial sensors together have the same
    covariance as the two toolface-independent terms *)
Lemma cross_cov : forall w1 w2 tf,
  madd (cov_from_vec (vadd (vscale (sin tf) w1) (vscale (cos tf) w2)))
       (cov_from_vec (vsub (vscale (cos tf) w1) (vscale (sin tf) w2)))
  = madd (cov_from_vec w1) (cov_from_vec w2).
Proof.
  intros [x1 y1 z1] [x2 y2 z2] tf. pose proof (sin2_cos2 tf) as P. unfold Rsqr in P.
  set (s := sin tf) in *. set (c := cos tf) in *. clearbody s c.
  unfold cov_from_vec, madd, vadd, vsub, vscale, vneg. cbn.
  assert (E : forall a b a' b', (s * a + c * a') * (s * b + c * b') + (c * a + - (s * a')) * (c * b + - (s * b'))
     = a * b + a' * b') by (intros; nsatz).
  assert (E2 : forall a b a' b', (s * a + c * a') * (s * b + c * b') + (c * a - s * a') * (c * b - s * b')
     = a * b + a' * b') by (intros; nsatz).
  rewrite ?E, ?E2. reflexivity.
Qed.
Lemma abxy_cov : forall h s tf wx wy, sensible h -> 0 < sin (w_inc s) ->
  response (tool_at h s tf) ex_ vzero wx -> response (tool_at h s tf) ey_ vzero wy ->
  exists w1 w2, w_ABXY_TI1 h s = Some w1 /\ w_ABXY_TI2 h s = Some w2 /\
    madd (cov_from_vec wx) (cov_from_vec wy) = madd (cov_from_vec w1) (cov_from_vec w2).
Proof.
  intros h s tf wx wy Hh Hi Hx Hy.
  destruct (abxy_rate h s tf Hh Hi) as [w1 [w2 [E1 [E2 [R1 R2]]]]].
  exists w1, w2. split; [auto|split; [auto|]].
  rewrite (response_unique _ _ _ _ _ Hx R1), (response_unique _ _ _ _ _ Hy R2). apply cross_cov.
Qed.
Lemma mbxy_cov : forall h s tf wx wy, sensible h -> 0 < sin (w_inc s) ->
  response (tool_at h s tf) vzero ex_ wx -> response (tool_at h s tf) vzero ey_ wy ->
  exists w1 w2, w_MBXY_TI1 h s = Some w1 /\ w_MBXY_TI2 h s = Some w2 /\
    madd (cov_from_vec wx) (cov_from_vec wy) = madd (cov_from_vec w1) (cov_from_vec w2).
Proof.
  intros h s tf wx wy Hh Hi Hx Hy.
  destruct (mbxy_rate h s tf Hh Hi) as [w1 [w2 [E1 [E2 [R1 R2]]]]].
  exists w1, w2. split; [auto|split; [auto|]].
  rewrite (response_unique _ _ _ _ _ Hx R1), (response_unique _ _ _ _ _ Hy R2). apply cross_cov.
Qed.

(** scale factors *)
Lemma response_scale : forall a ea em w k, response a ea em w -> 0 < at_g a ->
  0 < sin (at_inc a) -> 0 < at_bh a -> response a (vscale k ea) (vscale k em) (vscale k w).
Proof.
  intros a ea em w k [[f Hf] [X H]] Hg Hi Hb.
  destruct (H f Hf) as [HI HA].
  assert (Hf' := Hf). destruct Hf' as [F0 [Hs Hn]].
  assert (HT : exists T', derivable_pt_lim (fun t => at_tf (f t)) 0 T').
  { destruct Hs as [_ [_ [T _]]]. exact T. }
  destruct HT as [T' DT].
  assert (Hn1 : near_zero (fun t => acc_reading (f t) = vadd (acc_reading a) (vscale t ea))).
  { eapply near_mono; [|apply Hn]. intros t [E _]; exact E. }
  destruct (acc_rates a ea f F0 Hs Hn1 _ _ HI DT) as [E1 E2].
  pose proof (response_rates a ea em f Hf _ _ _ HI HA DT) as E3.
  assert (ET : T' = - (cos (at_tf a) * vx ea - sin (at_tf a) * vy ea) / (at_g a * sin (at_inc a))).
  { rewrite <- E2. field. split; lra. }
  rewrite ET in E3.
  apply response_intro; auto; unfold vscale; cbn [vx vy vz].
  - rewrite X; ring.
  - transitivity (k * (at_g a * vy w)); [ring|]. rewrite E1. ring.
  - transitivity (k * (at_bh a * vz w)); [ring|]. rewrite E3. field. split; lra.
Qed.

Lemma sqrt2_sq : forall x, (x / sqrt 2) ^ 2 = x ^ 2 / 2.
Proof.
  intro x. assert (H : sqrt 2 * sqrt 2 = 2) by (apply sqrt_sqrt; lra).
  assert (sqrt 2 <> 0) by (intro K; rewrite K in H; lra).
  transitivity (x ^ 2 / (sqrt 2 * sqrt 2)); [field; auto | rewrite H; reflexivity].
Qed.

Lemma asxy_mean : forall h s wx wy c, sensible h -> 0 < sin (w_inc s) ->
  (forall tf, response (tool_at h s tf) (only_x (acc_reading (tool_at h s tf))) vzero (wx tf)) ->
  (forall tf, response (tool_at h s tf) (only_y (acc_reading (tool_at h s tf))) vzero (wy tf)) ->
  exists w1 w2 w3, w_ASXY_TI1 h s = Some w1 /\ w_ASXY_TI2 h s = Some w2 /\ w_ASXY_TI3 h s = Some w3 /\
    turn_mean (fun tf => (dot c (wx tf)) ^ 2 + (dot c (wy tf)) ^ 2)
      ((dot c w1) ^ 2 + (dot c w2) ^ 2 + (dot c w3) ^ 2).
Proof.
  intros h s wx wy c Hh Hi Hx Hy.
  assert (HB := sensible_b h Hh). assert (Hh' := Hh). destruct Hh' as [HG [_ HC]].
  destruct (abxy_rate h s 0 Hh Hi) as [v1 [v2 [E1 [E2 _]]]].
  set (k := - h_G h * sin (w_inc s)).
  assert (Fx : forall tf, wx tf = vscale (k * sin tf) (vadd (vscale (sin tf) v1) (vscale (cos tf) v2))).
  { intro tf. destruct (abxy_rate h s tf Hh Hi) as [v1' [v2' [E1' [E2' [R1 R2]]]]].
    rewrite E1 in E1'. injection E1' as <-. rewrite E2 in E2'. injection E2' as <-.
    apply (response_unique _ _ _ _ _ (Hx tf)).
    replace (only_x (acc_reading (tool_at h s tf))) with (vscale (k * sin tf) ex_).
    replace vzero with (vscale (k * sin tf) vzero).
    - apply response_scale; auto.
    - unfold vscale, vzero; cbn; f_equal; ring.
    - unfold vscale, ex_, only_x, acc_reading, tool_at, k; cbn; f_equal; ring. }
  assert (Fy : forall tf, wy tf = vscale (k * cos tf) (vsub (vscale (cos tf) v1) (vscale (sin tf) v2))).
  { intro tf. destruct (abxy_rate h s tf Hh Hi) as [v1' [v2' [E1' [E2' [R1 R2]]]]].
    rewrite E1 in E1'. injection E1' as <-. rewrite E2 in E2'. injection E2' as <-.
    apply (response_unique _ _ _ _ _ (Hy tf)).
    replace (only_y (acc_reading (tool_at h s tf))) with (vscale (k * cos tf) ey_).
    replace vzero with (vscale (k * cos tf) vzero).
    - apply response_scale; auto.
    - unfold vscale, vzero; cbn; f_equal; ring.
    - unfold vscale, ey_, only_y, acc_reading, tool_at, k; cbn; f_equal; ring. }
  unfold w_ASXY_TI1, w_ASXY_TI2, w_ASXY_TI3. rewrite tan_ne by lra. cbn [bind].
  do 3 eexists. split; [reflexivity|split; [reflexivity|split; [reflexivity|]]].
  set (p := dot c (vscale k v1)). set (q := dot c (vscale k v2)).
  assert (EE : 3 / 4 * p ^ 2 + 1 / 4 * q ^ 2 =
    dot c (mkV 0 (sin (w_inc s) * cos (w_inc s) / sqrt 2)
       (sin (w_inc s) * - (sin (h_dip h) / cos (h_dip h)) * cos (w_inc s) * sin (w_azm s) / sqrt 2)) ^ 2
    + dot c (mkV 0 (sin (w_inc s) * cos (w_inc s) / 2)
       (sin (w_inc s) * - (sin (h_dip h) / cos (h_dip h)) * cos (w_inc s) * sin (w_azm s) / 2)) ^ 2
    + dot c (mkV 0 0 ((sin (w_inc s) * (sin (h_dip h) / cos (h_dip h)) * cos (w_azm s) - cos (w_inc s)) / 2)) ^ 2).
  { unfold w_ABXY_TI1 in E1. unfold w_ABXY_TI2 in E2.
    rewrite tan_ne in E1, E2 by lra. cbn [bind] in E1, E2.
    rewrite !fdiv_ne in E1 by lra. cbn [bind] in E1. rewrite !fdiv_ne in E2 by lra.
    cbn [bind nan0] in E2. rewrite fdiv_ne in E2 by lra. cbn [nan0] in E2.
    injection E1 as <-. injection E2 as <-.
    replace (dot c (mkV 0 (sin (w_inc s) * cos (w_inc s) / sqrt 2)
       (sin (w_inc s) * - (sin (h_dip h) / cos (h_dip h)) * cos (w_inc s) * sin (w_azm s) / sqrt 2)))
      with (p / sqrt 2).
    2:{ unfold p, k, dot, vscale; cbn [vx vy vz]. field. repeat split; try lra.
        pose proof (sqrt_lt_R0 2 ltac:(lra)); lra. }
    rewrite sqrt2_sq.
    replace (dot c (mkV 0 (sin (w_inc s) * cos (w_inc s) / 2)
       (sin (w_inc s) * - (sin (h_dip h) / cos (h_dip h)) * cos (w_inc s) * sin (w_azm s) / 2))) with (p / 2).
    2:{ unfold p, k, dot, vscale; cbn [vx vy vz]. field. repeat split; lra. }
    replace (dot c (mkV 0 0 ((sin (w_inc s) * (sin (h_dip h) / cos (h_dip h)) * cos (w_azm s) - cos (w_inc s)) / 2)))
      with (q / 2).
    2:{ unfold q, k, dot, vscale; cbn [vx vy vz]. field. repeat split; lra. }
    field. }
  rewrite <- EE.
  apply (quartic_mean (p ^ 2) (q ^ 2) (2 * p * q)).
  intro tf. rewrite Fx, Fy.
  replace (dot c (vscale (k * sin tf) (vadd (vscale (sin tf) v1) (vscale (cos tf) v2))))
    with (sin tf * (sin tf * p + cos tf * q)).
  2:{ unfold p, q, dot, vscale, vadd; cbn [vx vy vz]; ring. }
  replace (dot c (vscale (k * cos tf) (vsub (vscale (cos tf) v1) (vscale (sin tf) v2))))
    with (cos tf * (cos tf * p - sin tf * q)).
  2:{ unfold p, q, dot, vscale, vsub, vadd, vneg; cbn [vx vy vz]; ring. }
  ring.
Qed.

Lemma msxy_mean : forall h s wx wy c, sensible h -> 0 < sin (w_inc s) ->
  (forall tf, response (tool_at h s tf) vzero (only_x (mag_reading (tool_at h s tf))) (wx tf)) ->
  (forall tf, response (tool_at h s tf) vzero (only_y (mag_reading (tool_at h s tf))) (wy tf)) ->
  exists w1 w2 w3, w_MSXY_TI1 h s = Some w1 /\ w_MSXY_TI2 h s = Some w2 /\ w_MSXY_TI3 h s = Some w3 /\
    turn_mean (fun tf => (dot c (wx tf)) ^ 2 + (dot c (wy tf)) ^ 2)
      ((dot c w1) ^ 2 + (dot c w2) ^ 2 + (dot c w3) ^ 2).
Proof.
  intros h s wx wy c Hh Hi Hx Hy.
  assert (HB := sensible_b h Hh). assert (Hh' := Hh). destruct Hh' as [HG [HBt HC]].
  set (bh := h_btotal h * cos (h_dip h)) in *. set (bv := h_btotal h * sin (h_dip h)).
  set (P := bh * (cos (w_azm s) * cos (w_inc s)) - bv * sin (w_inc s)).
  set (Q := bh * sin (w_azm s)).
  set (r := - cos (w_inc s) * sin (w_azm s) / bh). set (t := cos (w_azm s) / bh).
  assert (Bx : forall tf, vx (mag_reading (tool_at h s tf)) = P * sin tf + Q * cos tf).
  { intro. unfold P, Q, bv, bh. cbn. ring. }
  assert (By : forall tf, vy (mag_reading (tool_at h s tf)) = P * cos tf - Q * sin tf).
  { intro. unfold P, Q, bv, bh. cbn. ring. }
  assert (RR : forall tf,
    response (tool_at h s tf) vzero ex_ (mkV 0 0 (sin tf * r + cos tf * t)) /\
    response (tool_at h s tf) vzero ey_ (mkV 0 0 (cos tf * r - sin tf * t))).
  { intro tf. destruct (mbxy_rate h s tf Hh Hi) as [v1 [v2 [E1 [E2 [R1 R2]]]]].
    unfold w_MBXY_TI1 in E1. unfold w_MBXY_TI2 in E2. fold bh in E1, E2.
    rewrite fdiv_ne in E1, E2 by lra. injection E1 as <-. injection E2 as <-.
    unfold vadd, vsub, vscale in R1, R2. cbn [vx vy vz] in R1, R2.
    fold r in R1, R2. fold t in R1, R2.
    rewrite !Rmult_0_r, Rplus_0_r in R1. rewrite !Rmult_0_r, Rminus_0_r in R2. auto. }
  assert (Fx : forall tf, wx tf = mkV 0 0 ((P * sin tf + Q * cos tf) * (sin tf * r + cos tf * t))).
  { intro tf. destruct (RR tf) as [R1 _]. apply (response_unique _ _ _ _ _ (Hx tf)).
    replace (only_x (mag_reading (tool_at h s tf))) with (vscale (P * sin tf + Q * cos tf) ex_).
    2:{ unfold only_x. rewrite Bx. unfold vscale, ex_; cbn; f_equal; ring. }
    replace vzero with (vscale (P * sin tf + Q * cos tf) vzero) by (unfold vscale, vzero; cbn; f_equal; ring).
    replace (mkV 0 0 ((P * sin tf + Q * cos tf) * (sin tf * r + cos tf * t)))
      with (vscale (P * sin tf + Q * cos tf) (mkV 0 0 (sin tf * r + cos tf * t)))
      by (unfold vscale; cbn; f_equal; ring).
    apply response_scale; auto. }
  assert (Fy : forall tf, wy tf = mkV 0 0 ((P * cos tf - Q * sin tf) * (cos tf * r - sin tf * t))).
  { intro tf. destruct (RR tf) as [_ R1]. apply (response_unique _ _ _ _ _ (Hy tf)).
    replace (only_y (mag_reading (tool_at h s tf))) with (vscale (P * cos tf - Q * sin tf) ey_).
    2:{ unfold only_y. rewrite By. unfold vscale, ey_; cbn; f_equal; ring. }
    replace vzero with (vscale (P * cos tf - Q * sin tf) vzero) by (unfold vscale, vzero; cbn; f_equal; ring).
    replace (mkV 0 0 ((P * cos tf - Q * sin tf) * (cos tf * r - sin tf * t)))
      with (vscale (P * cos tf - Q * sin tf) (mkV 0 0 (cos tf * r - sin tf * t)))
      by (unfold vscale; cbn; f_equal; ring).
    apply response_scale; auto. }
  unfold w_MSXY_TI1, w_MSXY_TI2, w_MSXY_TI3. rewrite tan_ne by lra. cbn [bind].
  do 3 eexists. split; [reflexivity|split; [reflexivity|split; [reflexivity|]]].
  unfold dot. cbn [vx vy vz].
  pose proof (sin2_cos2 (w_inc s)) as S1. pose proof (sin2_cos2 (w_azm s)) as S2. unfold Rsqr in *.
  assert (K1 : sin (w_inc s) * sin (w_azm s) * dipterm (sin (h_dip h) / cos (h_dip h)) s = P * r + Q * t).
  { unfold P, Q, r, t, dipterm, bv, bh.
    transitivity (sin (w_azm s) * (sin (w_inc s) * cos (w_inc s) * (sin (h_dip h) / cos (h_dip h))
       + (1 - cos (w_inc s) * cos (w_inc s)) * cos (w_azm s))).
    - rewrite <- S1. ring.
    - field. split; lra. }
  assert (K2 : sin (w_azm s) * (sin (h_dip h) / cos (h_dip h) * sin (w_inc s) * cos (w_inc s)
                  - cos (w_inc s) * cos (w_inc s) * cos (w_azm s) - cos (w_azm s)) = P * r - Q * t).
  { unfold P, Q, r, t, bv, bh. field. split; lra. }
  assert (K3 : cos (w_inc s) * cos (w_azm s) * cos (w_azm s)
                  - cos (w_inc s) * sin (w_azm s) * sin (w_azm s)
                  - sin (h_dip h) / cos (h_dip h) * sin (w_inc s) * cos (w_azm s) = P * t + Q * r).
  { unfold P, Q, r, t, bv, bh. field. split; lra. }
  rewrite K1, K2, K3.
  replace ((vx c * 0 + vy c * 0 + vz c * ((P * r + Q * t) / sqrt 2)) ^ 2) with (vz c ^ 2 * ((P * r + Q * t) / sqrt 2) ^ 2) by ring.
  rewrite sqrt2_sq.
  match goal with |- turn_mean ?f ?m =>
    replace m with (3 / 4 * (vz c ^ 2 * ((P * r) ^ 2 + (Q * t) ^ 2))
                    + 1 / 4 * (vz c ^ 2 * ((P * t + Q * r) ^ 2 + 2 * (P * r) * (Q * t)))) by field end.
  apply (quartic_mean _ _ (vz c ^ 2 * (2 * (P * r) * (P * t + Q * r) - 2 * (P * t + Q * r) * (Q * t)))).
  intro tf. rewrite Fx, Fy. cbn [vx vy vz]. ring.
Qed.

(** the scale factor rates exist *)
Lemma asxy_rate : forall h s tf, sensible h -> 0 < sin (w_inc s) ->
  (exists w, response (tool_at h s tf) (only_x (acc_reading (tool_at h s tf))) vzero w) /\
  (exists w, response (tool_at h s tf) (only_y (acc_reading (tool_at h s tf))) vzero w) /\
  (exists w, response (tool_at h s tf) vzero (only_x (mag_reading (tool_at h s tf))) w) /\
  (exists w, response (tool_at h s tf) vzero (only_y (mag_reading (tool_at h s tf))) w).
Proof.
  intros h s tf Hh Hi.
  assert (HB := sensible_b h Hh). assert (Hh' := Hh). destruct Hh' as [HG [HBt HC]].
  destruct (abxy_rate h s tf Hh Hi) as [? [? [_ [_ [R1 R2]]]]].
  destruct (mbxy_rate h s tf Hh Hi) as [? [? [_ [_ [R3 R4]]]]].
  assert (Z : forall k, vscale k vzero = vzero) by (intro; unfold vscale, vzero; cbn; f_equal; ring).
  assert (X : forall v, only_x v = vscale (vx v) ex_) by (intros [? ? ?]; unfold only_x, vscale, ex_; cbn; f_equal; ring).
  assert (Y : forall v, only_y v = vscale (vy v) ey_) by (intros [? ? ?]; unfold only_y, vscale, ey_; cbn; f_equal; ring).
  split; [|split; [|split]]; eexists; rewrite ?X, ?Y.
  - rewrite <- (Z (vx (acc_reading (tool_at h s tf)))). apply response_scale; [exact R1 | auto..].
  - rewrite <- (Z (vy (acc_reading (tool_at h s tf)))). apply response_scale; [exact R2 | auto..].
  - rewrite <- (Z (vx (mag_reading (tool_at h s tf)))). apply response_scale; [exact R3 | auto..].
  - rewrite <- (Z (vy (mag_reading (tool_at h s tf)))). apply response_scale; [exact R4 | auto..].
Qed.
