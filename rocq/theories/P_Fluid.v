Require Import Reals Bool String List Lra Lia Psatz.
Require Import Verif.Base Verif.NumPy Verif.M_Fluid Verif.Spec_Torque.
Import ListNotations.
Open Scope R_scope.

Lemma weighting_pos : forall m d, weighting_density m = Some d -> 0 < d.
Proof. intros m d. unfold weighting_density. destruct (_ =? _)%string; [intro H; injection H; lra|].
  destruct (_ =? _)%string; [intro H; injection H; lra|discriminate]. Qed.
Lemma base_A : forall T P, density_base T P coeff_A = oil_density T P.
Proof. intros. unfold density_base, coeff_A, oil_density. cbn [vx vy vz]. lra. Qed.
Lemma base_B : forall T P, density_base T P coeff_B = water_density T P.
Proof. intros. unfold density_base, coeff_B, water_density. cbn [vx vy vz]. lra. Qed.

Lemma fluid_made : forall rho T P ratio material f, make_fluid rho T P ratio material = inl f ->
  exists rho_wm, weighting_density material = Some rho_wm /\
    let s := 1 + (rho - base_density ratio T P) / rho_wm in
    s <> 0 /\ f_rho f = rho /\ f_temp f = T /\ f_water f = ratio / s /\ f_oil f = (1 - ratio) / s /\
    f_wm f = (s - 1) / s.
Proof.
  intros rho T P ratio material f H. unfold make_fluid in H.
  destruct (weighting_density material) as [d|] eqn:E; [|discriminate].
  rewrite base_A, base_B in H. fold (base_density ratio T P) in H.
  destruct (Req_EM_T _ 0) as [|N]; [discriminate|]. injection H; intro; subst f. exists d. split; auto.
  cbv zeta. simpl. repeat split; auto. f_equal. ring.
Qed.
Lemma fractions : forall rho T P ratio material f, make_fluid rho T P ratio material = inl f ->
  f_water f + f_oil f + f_wm f = 1.
Proof.
  intros. destruct (fluid_made _ _ _ _ _ _ H) as (d & _ & N & _ & _ & -> & -> & ->).
  revert N. generalize (1 + (rho - base_density ratio T P) / d). intros s N. field. auto.
Qed.
Lemma fractions_pos : forall rho T P ratio material f, make_fluid rho T P ratio material = inl f ->
  base_density ratio T P <= rho -> 0 <= ratio <= 1 ->
  0 <= f_water f /\ 0 <= f_oil f /\ 0 <= f_wm f.
Proof.
  intros rho T P ratio material f H Hb Hr. destruct (fluid_made _ _ _ _ _ _ H) as (d & Ed & N & _ & _ & -> & -> & ->).
  apply weighting_pos in Ed. revert N. set (x := (rho - base_density ratio T P) / d). intro N.
  assert (0 <= x) by (unfold x, Rdiv; apply Rmult_le_pos; [lra|left; apply Rinv_0_lt_compat; auto]).
  assert (0 < / (1 + x)) by (apply Rinv_0_lt_compat; lra).
  unfold Rdiv. repeat split; apply Rmult_le_pos; lra.
Qed.
Lemma recombined : forall rho T P ratio material f d, make_fluid rho T P ratio material = inl f ->
  weighting_density material = Some d -> 0 < rho -> base_density ratio T P <= rho ->
  let mix := f_water f * water_density T P + f_oil f * oil_density T P + f_wm f * d in
  mix = rho / (1 + (rho - base_density ratio T P) / d) /\
  (mix = rho <-> rho = base_density ratio T P) /\
  (base_density ratio T P < rho -> mix < rho).
Proof.
  intros rho T P ratio material f d H Ed Hr Hb mix. destruct (fluid_made _ _ _ _ _ _ H) as (d' & Ed' & N & _ & _ & E1 & E2 & E3).
  rewrite Ed in Ed'. injection Ed'; intro; subst d'. apply weighting_pos in Ed.
  assert (M : mix = rho / (1 + (rho - base_density ratio T P) / d)).
  { unfold mix. rewrite E1, E2, E3. unfold base_density in *. field. split; [lra|].
    intro Q. apply N. apply (Rmult_eq_reg_r d); [|lra]. rewrite Rmult_0_l, <- Q. field. lra. }
  split; auto. rewrite M. set (x := (rho - base_density ratio T P) / d) in *.
  assert (X : rho - base_density ratio T P = x * d) by (unfold x; field; lra).
  assert (0 <= x) by (unfold x, Rdiv; apply Rmult_le_pos; [lra|left; apply Rinv_0_lt_compat; auto]).
  assert (Q : rho / (1 + x) * (1 + x) = rho) by (field; lra).
  split; [split; intro K|].
  - rewrite K in Q. assert (x = 0) by nra. rewrite H1 in X. lra.
  - assert (x = 0) by nra. rewrite H1. field.
  - intro L. assert (0 < x) by nra. assert (0 < rho / (1 + x)) by (apply Rdiv_lt_0_compat; lra). nra.
Qed.
Lemma fluid_fails : forall rho T P ratio material,
  (make_fluid rho T P ratio material = inr BadMaterial <-> weighting_density material = None) /\
  (make_fluid rho T P ratio material = inr ZeroDivision <->
   exists d, weighting_density material = Some d /\ rho = base_density ratio T P - d).
Proof.
  intros. unfold make_fluid. rewrite base_A, base_B. fold (base_density ratio T P).
  destruct (weighting_density material) as [d|] eqn:E.
  - apply weighting_pos in E. destruct (Req_EM_T _ 0) as [Z|N].
    + split; split; try discriminate; auto. intros _. exists d. split; auto.
      apply (Rmult_eq_compat_r d) in Z. replace ((1 + (rho - base_density ratio T P) / d) * d) with (d + (rho - base_density ratio T P)) in Z by (field; lra). lra.
    + split; split; try discriminate. intros (d' & D & R). injection D; intro; subst d'. exfalso. apply N. rewrite R. field. lra.
  - split; split; auto; try discriminate. intros (d & D & _). discriminate.
Qed.

(** The residual vanishes exactly at the densities that conserve mass *)
Lemma ln_part : forall a1 a2 z, 0 < a1 -> a2 <> 0 -> 0 < a1 + a2 * z ->
  derivable_pt_lim (fun z => a1 / a2 * ln ((a1 + a2 * z) / a1)) z (a1 / (a1 + a2 * z)).
Proof.
  intros a1 a2 z H1 H2 Hz.
  replace (a1 / (a1 + a2 * z)) with (a1 / a2 * (/ ((a1 + a2 * z) / a1) * (a2 / a1))) by (field; lra).
  apply (derivable_pt_lim_scal (fun z => ln ((a1 + a2 * z) / a1))).
  apply (derivable_pt_lim_comp (fun z => (a1 + a2 * z) / a1) ln).
  - replace (a2 / a1) with ((0 + a2 * 1) * / a1) by (field; lra).
    unfold Rdiv.
    assert (D : derivable_pt_lim (fun z => a1 + a2 * z) z (0 + a2 * 1)).
    { apply (derivable_pt_lim_plus (fun _ => a1) (fun z => a2 * z)). apply derivable_pt_lim_const.
      apply (derivable_pt_lim_scal (fun z => z)). apply derivable_pt_lim_id. }
    pose proof (derivable_pt_lim_mult (fun z => a1 + a2 * z) (fun _ => / a1) z _ _ D (derivable_pt_lim_const (/ a1) z)) as M.
    cbv beta in M. rewrite Rmult_0_r, Rplus_0_r in M. exact M.
  - apply derivable_pt_lim_ln. apply Rdiv_lt_0_compat; lra.
Qed.

Lemma column_deriv : forall vw vo T P gradient rho D,
  let a1 := oil_density T P in let a2 := - 0.00284383 * gradient + 0.052 * 0.000027566 * rho in
  let b1 := water_density T P in let b2 := - 0.00331977 * gradient + 0.052 * 0.000023717 * rho in
  0 < a1 -> 0 < b1 -> a2 <> 0 -> b2 <> 0 -> 0 < a1 + a2 * D -> 0 < b1 + b2 * D ->
  forall z, 0 <= z <= D ->
  derivable_pt_lim (fun z => z * (1 - vw - vo) + vo * (a1 / a2 * ln ((a1 + a2 * z) / a1)) + vw * (b1 / b2 * ln ((b1 + b2 * z) / b1)))
    z (expanded vw vo T P gradient rho z).
Proof.
  intros vw vo T P gradient rho D a1 a2 b1 b2 A1 B1 A2 B2 AD BD z Hz.
    assert (Az : 0 < a1 + a2 * z) by (destruct (Rle_dec 0 a2); nra).
    assert (Bz : 0 < b1 + b2 * z) by (destruct (Rle_dec 0 b2); nra).
    replace (expanded vw vo T P gradient rho z) with ((1 * (1 - vw - vo)) + vo * (a1 / (a1 + a2 * z)) + vw * (b1 / (b1 + b2 * z))).
    - 
      apply (derivable_pt_lim_plus (fun z => z * (1 - vw - vo) + vo * (a1 / a2 * ln ((a1 + a2 * z) / a1))) (fun z => vw * (b1 / b2 * ln ((b1 + b2 * z) / b1)))).
      + apply (derivable_pt_lim_plus (fun z => z * (1 - vw - vo)) (fun z => vo * (a1 / a2 * ln ((a1 + a2 * z) / a1)))).
        * pose proof (derivable_pt_lim_mult (fun z => z) (fun _ => 1 - vw - vo) z _ _ (derivable_pt_lim_id z) (derivable_pt_lim_const (1 - vw - vo) z)) as M.
          cbv beta in M. rewrite Rmult_0_r, Rplus_0_r in M. exact M.
        * apply (derivable_pt_lim_scal (fun z => a1 / a2 * ln ((a1 + a2 * z) / a1))). apply ln_part; auto.
      + apply (derivable_pt_lim_scal (fun z => b1 / b2 * ln ((b1 + b2 * z) / b1))). apply ln_part; auto.
    - unfold expanded.
      replace (a1 + a2 * z) with (oil_density (T + gradient * z) (P + 0.052 * rho * z)) by (unfold a1, a2, oil_density; lra).
      replace (b1 + b2 * z) with (water_density (T + gradient * z) (P + 0.052 * rho * z)) by (unfold b1, b2, water_density; lra).
      fold a1. fold b1. ring.
Qed.
Lemma column_volume : forall vw vo T P gradient rho D,
  let a1 := oil_density T P in let a2 := - 0.00284383 * gradient + 0.052 * 0.000027566 * rho in
  let b1 := water_density T P in let b2 := - 0.00331977 * gradient + 0.052 * 0.000023717 * rho in
  0 < D -> 0 < a1 -> 0 < b1 -> a2 <> 0 -> b2 <> 0 -> 0 < a1 + a2 * D -> 0 < b1 + b2 * D ->
  forall V, V 0 = 0 -> (forall z, 0 <= z <= D -> derivable_pt_lim V z (expanded vw vo T P gradient rho z)) ->
  V D = D * (1 - vw - vo) + vo * (a1 / a2 * ln ((a1 + a2 * D) / a1)) + vw * (b1 / b2 * ln ((b1 + b2 * D) / b1)).
Proof.
  intros vw vo T P gradient rho D a1 a2 b1 b2 HD A1 B1 A2 B2 AD BD V V0 HV.
  set (W := fun z => z * (1 - vw - vo) + vo * (a1 / a2 * ln ((a1 + a2 * z) / a1)) + vw * (b1 / b2 * ln ((b1 + b2 * z) / b1))).
  change (V D = W D).
  assert (HW : forall z, 0 <= z <= D -> derivable_pt_lim W z (expanded vw vo T P gradient rho z)) by (apply column_deriv; auto).
  assert (W0 : W 0 = 0).
  { unfold W. replace ((a1 + a2 * 0) / a1) with 1 by (field; lra). replace ((b1 + b2 * 0) / b1) with 1 by (field; lra). rewrite ln_1. ring. }
  destruct (MVT_cor2 (fun z => V z - W z) (fun _ => 0) 0 D HD) as (c & E & _).
  { intros c Hc. pose proof (derivable_pt_lim_minus V W c _ _ (HV c Hc) (HW c Hc)) as M. rewrite Rminus_diag_eq in M by auto. exact M. }
  lra.
Qed.
Lemma profile_zero : forall f P depth gradient rho,
  let T := f_temp f in
  let a1 := oil_density T P in let a2 := - 0.00284383 * gradient + 0.052 * 0.000027566 * rho in
  let b1 := water_density T P in let b2 := - 0.00331977 * gradient + 0.052 * 0.000023717 * rho in
  f_water f + f_oil f <> 1 ->
  0 < depth -> 0 < a1 -> 0 < b1 -> a2 <> 0 -> b2 <> 0 -> 0 < a1 + a2 * depth -> 0 < b1 + b2 * depth ->
  forall V, V 0 = 0 -> (forall z, 0 <= z <= depth -> derivable_pt_lim V z (expanded (f_water f) (f_oil f) T P gradient rho z)) ->
  (profile_objective f P depth gradient rho = 0 <-> rho * V depth = f_rho f * depth).
Proof.
  intros f P depth gradient rho T a1 a2 b1 b2 HS HD A1 B1 A2 B2 AD BD V V0 HV.
  pose proof (column_volume _ _ _ _ _ _ _ HD A1 B1 A2 B2 AD BD V V0 HV) as EV. fold a1 a2 b1 b2 in EV.
  unfold profile_objective, objective, get_coefficients.
  replace (vx coeff_A + vy coeff_A * f_temp f + vz coeff_A * P) with a1 by (unfold a1, T, oil_density, coeff_A; cbn [vx vy vz]; lra).
  replace (vx coeff_B + vy coeff_B * f_temp f + vz coeff_B * P) with b1 by (unfold b1, T, water_density, coeff_B; cbn [vx vy vz]; lra).
  replace (vy coeff_A * gradient + grav * vz coeff_A * rho) with a2 by (unfold a2, grav, coeff_A; cbn [vx vy vz]; lra).
  replace (vy coeff_B * gradient + grav * vz coeff_B * rho) with b2 by (unfold b2, grav, coeff_B; cbn [vx vy vz]; lra).
  unfold column_func. destruct (Req_EM_T depth 0); [lra|].
  rewrite EV. clear EV HV. set (L1 := ln _). set (L2 := ln _).
  assert (Q : rho - ((f_rho f * depth - f_oil f * a1 * rho / a2 * L1) / (depth * (1 - f_water f - f_oil f)) -
        f_water f * b1 * rho / b2 * L2 / (depth * (1 - f_water f - f_oil f))) =
     (rho * (depth * (1 - f_water f - f_oil f) + f_oil f * (a1 / a2 * L1) + f_water f * (b1 / b2 * L2)) - f_rho f * depth)
       / (depth * (1 - f_water f - f_oil f))).
  { clearbody a1 a2 b1 b2 L1 L2. field. repeat split; auto; lra. }
  rewrite Q. split; intro K.
  - destruct (Req_dec ((rho * (depth * (1 - f_water f - f_oil f) + f_oil f * (a1 / a2 * L1) + f_water f * (b1 / b2 * L2)) - f_rho f * depth)) 0) as [Z|Z]; [lra|].
    exfalso. revert K. apply Rabs_no_R0. unfold Rdiv. apply Rmult_integral_contrapositive. split; auto.
    apply Rinv_neq_0_compat. apply Rmult_integral_contrapositive. split; lra.
  - rewrite K, Rminus_diag_eq by auto. unfold Rdiv. rewrite Rmult_0_l. apply Rabs_R0.
Qed.
Lemma profile_surface : forall f P gradient rho, profile_objective f P 0 gradient rho = 0 <-> rho = f_rho f.
Proof.
  intros. unfold profile_objective, objective, get_coefficients, column_func.
  destruct (Req_EM_T 0 0) as [_|N]; [|elim N; auto]. split; intro H.
  - destruct (Req_dec (rho - f_rho f) 0) as [Z|Z]; [lra|]. elim (Rabs_no_R0 _ Z H).
  - rewrite H, Rminus_diag_eq by auto. apply Rabs_R0.
Qed.

Lemma weighting_table : forall m d, weighting_density m = Some d <->
  (lower m = "barite"%string /\ d = 35) \/ (lower m = "spe_11118"%string /\ d = 24).
Proof.
  intros m d. unfold weighting_density. destruct (String.eqb_spec (lower m) "barite") as [E|E].
  - rewrite E. split; [intro H; injection H; auto|]. intros [[_ ->]|[H _]]; [auto|discriminate].
  - destruct (String.eqb_spec (lower m) "spe_11118") as [E'|E'].
    + split; [intro H; injection H; auto|]. intros [[H _]|[_ ->]]; [congruence|auto].
    + split; [discriminate|]. intros [[H _]|[H _]]; congruence.
Qed.
