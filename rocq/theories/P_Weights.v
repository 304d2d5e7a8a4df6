(** Derivatives of the angles computed from sensor readings. *)
Require Import Reals Lra Psatz List Nsatz.
Require Import Verif.Base Verif.NumPy Verif.M_Utils Verif.M_Error Verif.M_Weights Verif.Spec_Weights.
Require Import Verif.P_Error.
Import ListNotations.
Local Open Scope R_scope.

Lemma near_and : forall P Q, near_zero P -> near_zero Q -> near_zero (fun t => P t /\ Q t).
Proof.
  intros P Q [d [Hd HP]] [e [He HQ]]. exists (Rmin d e). split.
  - apply Rmin_glb_lt; auto.
  - intros t Ht. split; [apply HP | apply HQ].
    + eapply Rlt_le_trans; [apply Ht | apply Rmin_l].
    + eapply Rlt_le_trans; [apply Ht | apply Rmin_r].
Qed.
Lemma near_mono : forall (P Q : R -> Prop), (forall t, P t -> Q t) -> near_zero P -> near_zero Q.
Proof. intros P Q H [d [Hd HP]]. exists d. split; auto. Qed.

Lemma near_lim : forall f g d, near_zero (fun t => f t = g t) ->
  derivable_pt_lim f 0 d -> derivable_pt_lim g 0 d.
Proof.
  intros f g d [del [Hdel He]] Hf eps Heps.
  destruct (Hf eps Heps) as [d0 H0].
  assert (Hm : 0 < Rmin del d0) by (apply Rmin_glb_lt; [auto | apply cond_pos]).
  exists (mkposreal _ Hm). intros h Hh Hl. simpl in Hl.
  rewrite <- (He (0 + h)), <- (He 0).
  - apply H0; auto. eapply Rlt_le_trans; [apply Hl | apply Rmin_r].
  - rewrite Rabs_R0. auto.
  - rewrite Rplus_0_l. eapply Rlt_le_trans; [apply Hl | apply Rmin_l].
Qed.
Lemma near_rate : forall f g a b, near_zero (fun t => f t = g t) ->
  derivable_pt_lim f 0 a -> derivable_pt_lim g 0 b -> a = b.
Proof.
  intros f g a b H Hf Hg. apply (uniqueness_limite g 0); auto. eapply near_lim; eauto.
Qed.

Lemma d_sin_c : forall f x a, derivable_pt_lim f x a ->
  derivable_pt_lim (fun t => sin (f t)) x (cos (f x) * a).
Proof. intros. apply (derivable_pt_lim_comp f sin); auto. apply derivable_pt_lim_sin. Qed.
Lemma d_cos_c : forall f x a, derivable_pt_lim f x a ->
  derivable_pt_lim (fun t => cos (f t)) x (- sin (f x) * a).
Proof. intros. apply (derivable_pt_lim_comp f cos); auto. apply derivable_pt_lim_cos. Qed.
Lemma d_opp : forall f x a, derivable_pt_lim f x a -> derivable_pt_lim (fun t => - f t) x (- a).
Proof. intros. apply (derivable_pt_lim_opp f); auto. Qed.

Ltac dl := match goal with
  | H : derivable_pt_lim ?f 0 _ |- derivable_pt_lim ?f 0 _ => apply H
  | |- derivable_pt_lim (fun t => @?f t + @?g t) _ _ => eapply (d_plus f g); dl
  | |- derivable_pt_lim (fun t => @?f t - @?g t) _ _ => eapply (d_minus f g); dl
  | |- derivable_pt_lim (fun t => @?f t * @?g t) _ _ => eapply (d_prod f g); dl
  | |- derivable_pt_lim (fun t => - @?f t) _ _ => eapply (d_opp f); dl
  | |- derivable_pt_lim (fun t => sin (@?f t)) _ _ => eapply (d_sin_c f); dl
  | |- derivable_pt_lim (fun t => cos (@?f t)) _ _ => eapply (d_cos_c f); dl
  | |- derivable_pt_lim (fun t => t) _ _ => apply derivable_pt_lim_id
  | |- derivable_pt_lim (fun _ => ?c) _ _ => apply d_const
  | |- derivable_pt_lim _ _ _ => eassumption
  end.

(** the rates of inclination and toolface from the accelerometers *)
Lemma acc_rates : forall a ea f, f 0 = a -> smooth f ->
  near_zero (fun t => acc_reading (f t) = vadd (acc_reading a) (vscale t ea)) ->
  forall I' T', derivable_pt_lim (fun t => at_inc (f t)) 0 I' ->
  derivable_pt_lim (fun t => at_tf (f t)) 0 T' ->
  at_g a * I' = - cos (at_inc a) * (sin (at_tf a) * vx ea + cos (at_tf a) * vy ea)
                - sin (at_inc a) * vz ea /\
  at_g a * sin (at_inc a) * T' = - (cos (at_tf a) * vx ea - sin (at_tf a) * vy ea).
Proof.
  intros a ea f H0 Hs Hn I' T' HI HT.
  destruct Hs as [_ [_ [_ [[g' Hg] _]]]].
  assert (Hx : near_zero (fun t => - at_g (f t) * sin (at_inc (f t)) * sin (at_tf (f t))
            = vx (acc_reading a) + t * vx ea)).
  { eapply near_mono; [|apply Hn]. intros t E. apply (f_equal vx) in E. exact E. }
  assert (Hy : near_zero (fun t => - at_g (f t) * sin (at_inc (f t)) * cos (at_tf (f t))
            = vy (acc_reading a) + t * vy ea)).
  { eapply near_mono; [|apply Hn]. intros t E. apply (f_equal vy) in E. exact E. }
  assert (Hz : near_zero (fun t => at_g (f t) * cos (at_inc (f t))
            = vz (acc_reading a) + t * vz ea)).
  { eapply near_mono; [|apply Hn]. intros t E. apply (f_equal vz) in E. exact E. }
  eapply near_rate in Hx; [|dl|dl]. eapply near_rate in Hy; [|dl|dl].
  eapply near_rate in Hz; [|dl|dl]. cbv beta in *. rewrite H0 in *. clear - Hx Hy Hz.
  pose proof (sin2_cos2 (at_inc a)) as P1. pose proof (sin2_cos2 (at_tf a)) as P2.
  unfold Rsqr in *.
  set (si := sin (at_inc a)) in *. set (ci := cos (at_inc a)) in *.
  set (st := sin (at_tf a)) in *. set (ct := cos (at_tf a)) in *.
  set (g := at_g a) in *. set (ex := vx ea) in *. set (ey := vy ea) in *. set (ez := vz ea) in *.
  clearbody si ci st ct g ex ey ez. clear a ea.
  assert (K1 : - (g * ci * I' + si * g') = st * ex + ct * ey) by nsatz.
  split; nsatz.
Qed.

(** the cross-axial magnetometer equations, turned back by the toolface *)
Lemma mag_xy_rates : forall a ex ey f, f 0 = a ->
  near_zero (fun t => vx (mag_reading (f t)) = vx (mag_reading a) + t * ex) ->
  near_zero (fun t => vy (mag_reading (f t)) = vy (mag_reading a) + t * ey) ->
  forall I' A' T' h' v', derivable_pt_lim (fun t => at_inc (f t)) 0 I' ->
  derivable_pt_lim (fun t => at_azi (f t)) 0 A' ->
  derivable_pt_lim (fun t => at_tf (f t)) 0 T' ->
  derivable_pt_lim (fun t => at_bh (f t)) 0 h' ->
  derivable_pt_lim (fun t => at_bv (f t)) 0 v' ->
  let si := sin (at_inc a) in let ci := cos (at_inc a) in
  let sa := sin (at_azi a) in let ca := cos (at_azi a) in
  let st := sin (at_tf a) in let ct := cos (at_tf a) in
  let h := at_bh a in let v := at_bv a in
  h' * sa + h * ca * A' + (h * ca * ci - v * si) * T' = ct * ex - st * ey /\
  (h' * ca - h * sa * A') * ci - h * ca * si * I' - v' * si - v * ci * I' - h * sa * T'
    = st * ex + ct * ey.
Proof.
  intros a ex ey f H0 Hx Hy I' A' T' h' v' HI HA HT Hh Hv.
  unfold mag_reading in Hx, Hy. cbn [vx vy] in Hx, Hy.
  eapply near_rate in Hx; [|dl|dl]. eapply near_rate in Hy; [|dl|dl].
  cbv beta in *. rewrite H0 in *. clear - Hx Hy. cbv zeta.
  pose proof (sin2_cos2 (at_tf a)) as P2. unfold Rsqr in *.
  set (si := sin (at_inc a)) in *. set (ci := cos (at_inc a)) in *.
  set (sa := sin (at_azi a)) in *. set (ca := cos (at_azi a)) in *.
  set (st := sin (at_tf a)) in *. set (ct := cos (at_tf a)) in *.
  set (h := at_bh a) in *. set (v := at_bv a) in *.
  clearbody si ci sa ca st ct h v. clear a.
  split; nsatz.
Qed.

Lemma response_rates : forall a ea em f, surveyed a ea em f ->
  forall I' A' T', derivable_pt_lim (fun t => at_inc (f t)) 0 I' ->
  derivable_pt_lim (fun t => at_azi (f t)) 0 A' ->
  derivable_pt_lim (fun t => at_tf (f t)) 0 T' ->
  at_bh a * A' =
    cos (at_azi a) * (cos (at_tf a) * vx em - sin (at_tf a) * vy em)
    - sin (at_azi a) * (cos (at_inc a) * (sin (at_tf a) * vx em + cos (at_tf a) * vy em)
                        + sin (at_inc a) * vz em)
    + (at_bv a * sin (at_inc a) * cos (at_azi a) - at_bh a * cos (at_inc a)) * T'
    - sin (at_azi a) * at_bv a * I'.
Proof.
  intros a ea em f [H0 [Hs Hn]] I' A' T' HI HA HT.
  destruct Hs as [_ [_ [_ [_ [[h' Hh] [v' Hv]]]]]].
  assert (Hx : near_zero (fun t => vx (mag_reading (f t)) = vx (mag_reading a) + t * vx em)).
  { eapply near_mono; [|apply Hn]. intros t [_ E]. rewrite E. reflexivity. }
  assert (Hy : near_zero (fun t => vy (mag_reading (f t)) = vy (mag_reading a) + t * vy em)).
  { eapply near_mono; [|apply Hn]. intros t [_ E]. rewrite E. reflexivity. }
  assert (Hz : near_zero (fun t => vz (mag_reading (f t)) = vz (mag_reading a) + t * vz em)).
  { eapply near_mono; [|apply Hn]. intros t [_ E]. rewrite E. reflexivity. }
  destruct (mag_xy_rates a _ _ f H0 Hx Hy _ _ _ _ _ HI HA HT Hh Hv) as [E1 E2].
  unfold mag_reading in Hz. cbn [vz] in Hz.
  eapply near_rate in Hz; [|dl|dl]. cbv beta in Hz. rewrite H0 in Hz.
  clear - E1 E2 Hz.
  pose proof (sin2_cos2 (at_inc a)) as P1. pose proof (sin2_cos2 (at_azi a)) as P3.
  unfold Rsqr in *.
  set (si := sin (at_inc a)) in *. set (ci := cos (at_inc a)) in *.
  set (sa := sin (at_azi a)) in *. set (ca := cos (at_azi a)) in *.
  set (st := sin (at_tf a)) in *. set (ct := cos (at_tf a)) in *.
  set (h := at_bh a) in *. set (v := at_bv a) in *.
  set (ex := vx em) in *. set (ey := vy em) in *. set (ez := vz em) in *.
  set (mu := ct * ex - st * ey) in *. set (mw := st * ex + ct * ey) in *.
  clearbody si ci sa ca h v ez mu mw. clear ex ey st ct a em.
  nsatz.
Qed.

(** ** Existence: the angles follow the readings smoothly *)
Lemma d_inv : forall f x a, derivable_pt_lim f x a -> f x <> 0 ->
  derivable_pt_lim (fun t => / f t) x (- a / (f x) ^ 2).
Proof.
  intros f x a H Hn.
  assert (K := derivable_pt_lim_div (fun _ => 1) f x 0 a (derivable_pt_lim_const 1 x) H Hn).
  apply (derivable_pt_lim_ext (div_fct (fun _ => 1) f)).
  - intro t. unfold div_fct. unfold Rdiv. ring.
  - replace (- a / f x ^ 2) with ((0 * f x - a * 1) / (f x)²); [exact K|]. unfold Rsqr. field. auto.
Qed.

Lemma lim_cont : forall f d, derivable_pt_lim f 0 d -> continuity_pt f 0.
Proof. intros f d H. apply derivable_continuous_pt. exists d. exact H. Qed.
Lemma near_pos : forall f d, derivable_pt_lim f 0 d -> 0 < f 0 -> near_zero (fun t => 0 < f t).
Proof.
  intros f d H Hp. apply lim_cont in H.
  destruct (H (f 0) Hp) as [al [Ha Hc]]. exists al. split; auto.
  intros t Ht. destruct (Req_dec t 0) as [->|Hn]; auto.
  assert (Hd : Rabs (f t - f 0) < f 0).
  { apply (Hc t). split.
    - split; [exact I | auto].
    - simpl. unfold R_dist. rewrite Rminus_0_r. exact Ht. }
  apply Rabs_def2 in Hd. lra.
Qed.

Lemma d_sqrt_c : forall f x a, derivable_pt_lim f x a -> 0 < f x ->
  derivable_pt_lim (fun t => sqrt (f t)) x (/ (2 * sqrt (f x)) * a).
Proof. intros. apply (derivable_pt_lim_comp f sqrt); auto. apply derivable_pt_lim_sqrt; auto. Qed.
Lemma d_atan_c : forall f x a, derivable_pt_lim f x a ->
  derivable_pt_lim (fun t => atan (f t)) x (/ (1 + (f x) ^ 2) * a).
Proof. intros. apply (derivable_pt_lim_comp f atan); auto. apply derivable_pt_lim_atan. Qed.

Lemma polar_lift : forall x y x' y' r th, derivable_pt_lim x 0 x' -> derivable_pt_lim y 0 y' ->
  0 < r -> x 0 = r * cos th -> y 0 = r * sin th ->
  exists rf tf, rf 0 = r /\ tf 0 = th /\ has_derivative rf /\ has_derivative tf /\
    near_zero (fun t => x t = rf t * cos (tf t) /\ y t = rf t * sin (tf t) /\ 0 < rf t).
Proof.
  intros x y x' y' r th Hx Hy Hr X0 Y0.
  set (p := fun t => x t * cos th + y t * sin th).
  set (q := fun t => y t * cos th - x t * sin th).
  pose proof (sin2_cos2 th) as P. unfold Rsqr in P.
  assert (p0 : p 0 = r).
  { unfold p. rewrite X0, Y0. transitivity (r * (sin th * sin th + cos th * cos th)); [ring|rewrite P; ring]. }
  assert (q0 : q 0 = 0). { unfold q. rewrite X0, Y0. ring. }
  assert (Dp : exists p', derivable_pt_lim p 0 p'). { eexists. unfold p. dl. }
  assert (Dq : exists q', derivable_pt_lim q 0 q'). { eexists. unfold q. dl. }
  destruct Dp as [p' Dp], Dq as [q' Dq].
  exists (fun t => sqrt (p t * p t + q t * q t)), (fun t => th + atan (q t * / p t)).
  split; [|split; [|split; [|split]]].
  - rewrite p0, q0. replace (r * r + 0 * 0) with (Rsqr r) by (unfold Rsqr; ring).
    apply sqrt_Rsqr. lra.
  - rewrite q0, Rmult_0_l, atan_0. ring.
  - eexists. apply (d_sqrt_c (fun t => p t * p t + q t * q t)).
    + dl.
    + rewrite p0, q0. nra.
  - eexists. apply (d_plus (fun _ => th) (fun t => atan (q t * / p t))).
    + apply d_const.
    + apply (d_atan_c (fun t => q t * / p t)). apply (d_prod q (fun t => / p t)).
      * exact Dq.
      * apply d_inv; [exact Dp | rewrite p0; lra].
  - eapply near_mono; [|eapply near_pos; [exact Dp | rewrite p0; exact Hr]].
    intros t Hp. cbv beta in *.
    set (z := q t * / p t).
    assert (Hs : sqrt (p t * p t + q t * q t) = p t * sqrt (1 + z²)).
    { replace (p t * p t + q t * q t) with ((p t)² * (1 + z²))
        by (unfold z, Rsqr; field; lra).
      rewrite sqrt_mult_alt; [|apply Rle_0_sqr]. rewrite sqrt_Rsqr; [reflexivity|lra]. }
    assert (Hq : 0 < sqrt (1 + z²)). { apply sqrt_lt_R0. pose proof (Rle_0_sqr z). lra. }
    assert (Hz : p t * z = q t). { unfold z. field. lra. }
    assert (EE : forall X Y s c, s * s + c * c = 1 ->
      X = (X * c + Y * s) * c - (Y * c - X * s) * s /\
      Y = (X * c + Y * s) * s + (Y * c - X * s) * c) by (intros; split; nsatz).
    destruct (EE (x t) (y t) _ _ P) as [Ex Ey]. fold (p t) in Ex, Ey. fold (q t) in Ex, Ey.
    rewrite Hs, cos_plus, sin_plus, cos_atan, sin_atan.
    split; [|split].
    + rewrite Ex, <- Hz. field. lra.
    + rewrite Ey, <- Hz. field. lra.
    + nra.
Qed.

Lemma surveyed_exists : forall a ea em, 0 < at_g a -> 0 < sin (at_inc a) -> 0 < at_bh a ->
  exists f, surveyed a ea em f.
Proof.
  intros a ea em Hg Hi Hb.
  set (gx := fun t => vx (acc_reading a) + t * vx ea).
  set (gy := fun t => vy (acc_reading a) + t * vy ea).
  set (gz := fun t => vz (acc_reading a) + t * vz ea).
  set (bx := fun t => vx (mag_reading a) + t * vx em).
  set (by_ := fun t => vy (mag_reading a) + t * vy em).
  set (bz := fun t => vz (mag_reading a) + t * vz em).
  assert (Dgx : derivable_pt_lim gx 0 (vx ea)). { apply d_affine. }
  assert (Dgy : derivable_pt_lim gy 0 (vy ea)). { apply d_affine. }
  assert (Dgz : derivable_pt_lim gz 0 (vz ea)). { apply d_affine. }
  assert (Dbx : derivable_pt_lim bx 0 (vx em)). { apply d_affine. }
  assert (Dby : derivable_pt_lim by_ 0 (vy em)). { apply d_affine. }
  assert (Dbz : derivable_pt_lim bz 0 (vz em)). { apply d_affine. }
  destruct (polar_lift (fun t => - gy t) (fun t => - gx t) (- vy ea) (- vx ea)
              (at_g a * sin (at_inc a)) (at_tf a)) as [rho [tf [R0 [T0 [[rho' Drho] [[tf' Dtf] N1]]]]]].
  { apply d_opp, Dgy. } { apply d_opp, Dgx. } { nra. }
  { unfold gy. cbn. ring. } { unfold gx. cbn. ring. }
  destruct (polar_lift gz rho (vz ea) rho' (at_g a) (at_inc a))
    as [g [ic [G0 [I0 [[g' Dg] [[ic' Dic] N2]]]]]]; auto.
  { unfold gz. cbn. ring. }
  set (w := fun t => bx t * sin (tf t) + by_ t * cos (tf t)).
  set (u := fun t => bx t * cos (tf t) - by_ t * sin (tf t)).
  set (hh := fun t => w t * cos (ic t) + bz t * sin (ic t)).
  set (bv := fun t => bz t * cos (ic t) - w t * sin (ic t)).
  assert (Du : exists d, derivable_pt_lim u 0 d). { eexists. unfold u. dl. }
  assert (Dw : exists d, derivable_pt_lim w 0 d). { eexists. unfold w. dl. }
  destruct Du as [u' Du], Dw as [w' Dw].
  assert (Dh : exists d, derivable_pt_lim hh 0 d). { eexists. unfold hh. dl. }
  assert (Dv : exists d, derivable_pt_lim bv 0 d). { eexists. unfold bv. dl. }
  destruct Dh as [h' Dh].
  pose proof (sin2_cos2 (at_inc a)) as P1. pose proof (sin2_cos2 (at_tf a)) as P2. unfold Rsqr in *.
  destruct (polar_lift hh u h' u' (at_bh a) (at_azi a))
    as [bh [az [B0 [A0 [[bh' Dbh] [[az' Daz] N3]]]]]]; auto.
  { unfold hh, w, bx, by_, bz. rewrite I0, T0. cbn. clear - P1 P2.
    set (si := sin (at_inc a)) in *. set (ci := cos (at_inc a)) in *.
    set (st := sin (at_tf a)) in *. set (ct := cos (at_tf a)) in *.
    clearbody si ci st ct. nsatz. }
  { unfold u, bx, by_. rewrite T0. cbn. clear - P1 P2.
    set (si := sin (at_inc a)) in *. set (ci := cos (at_inc a)) in *.
    set (st := sin (at_tf a)) in *. set (ct := cos (at_tf a)) in *.
    clearbody si ci st ct. nsatz. }
  exists (fun t => mkAtt (ic t) (az t) (tf t) (g t) (bh t) (bv t)).
  split; [|split].
  - rewrite I0, A0, T0, G0, B0.
    assert (V0 : bv 0 = at_bv a).
    { unfold bv, w, bx, by_, bz. rewrite I0, T0. cbn. clear - P1 P2.
      set (si := sin (at_inc a)) in *. set (ci := cos (at_inc a)) in *.
      set (st := sin (at_tf a)) in *. set (ct := cos (at_tf a)) in *.
      clearbody si ci st ct. nsatz. }
    rewrite V0. destruct a; reflexivity.
  - repeat (apply conj); cbn; unfold has_derivative; eauto.
  - generalize (near_and _ _ N1 (near_and _ _ N2 N3)). apply near_mono.
    intros t [[X1 [Y1 _]] [[X2 [Y2 _]] [X3 [Y3 _]]]].
    pose proof (sin2_cos2 (ic t)) as Q1. pose proof (sin2_cos2 (tf t)) as Q2.
    pose proof (sin2_cos2 (az t)) as Q3. unfold Rsqr in *.
    change (vadd (acc_reading a) (vscale t ea)) with (mkV (gx t) (gy t) (gz t)).
    change (vadd (mag_reading a) (vscale t em)) with (mkV (bx t) (by_ t) (bz t)).
    unfold acc_reading, mag_reading. cbn [at_inc at_azi at_tf at_g at_bh at_bv].
    unfold hh, bv, u, w in *.
    set (si := sin (ic t)) in *. set (ci := cos (ic t)) in *.
    set (st := sin (tf t)) in *. set (ct := cos (tf t)) in *.
    set (sa := sin (az t)) in *. set (ca := cos (az t)) in *.
    set (b1 := bx t) in *. set (b2 := by_ t) in *. set (b3 := bz t) in *.
    set (g1 := gx t) in *. set (g2 := gy t) in *. set (g3 := gz t) in *.
    set (gg := g t) in *. set (hb := bh t) in *. set (rr := rho t) in *.
    clear - X1 Y1 X2 Y2 X3 Y3 Q1 Q2 Q3.
    clearbody si ci st ct sa ca b1 b2 b3 g1 g2 g3 gg hb rr.
    assert (E1 : forall p q r p' q' r', p = p' -> q = q' -> r = r' -> mkV p q r = mkV p' q' r').
    { intros; subst; reflexivity. }
    split; apply E1; nsatz.
Qed.
