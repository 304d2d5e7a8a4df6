(** extend_to_tvd: the connections drawn for every answer of the optimisers. *)
Require Import Reals ZArith Bool String List Lra Lia Psatz.
Require Import Verif.Base Verif.NumPy Verif.Spec Verif.Spec_Rates Verif.M_Utils Verif.M_Connector Verif.M_Extend Verif.Spec_Extend.
Require Import Verif.P_Trig Verif.P_Utils Verif.P_Utils2 Verif.P_Survey Verif.P_Connector Verif.P_Connector3 Verif.P_Connector4 Verif.P_MaxCurve Verif.P_Rates3 Verif.P_Rates4 Verif.P_Extend Verif.P_Extend2 Verif.P_Extend3.
Import ListNotations.
Open Scope R_scope.

Lemma forced_radius : forall p u m d q w, 0 < d -> radius_design (forced_args p u m (Some d) q w) = Some (dls_radius d).
Proof.
  intros. unfold radius_design, forced_args. cbn [a_dls a_meters option_map]. f_equal. unfold radians, dls_radius.
  pose proof PI_RGT_0. field. lra.
Qed.

Lemma forced_curve : forall bump p u m d q v t p2, is_unit u -> 0 < d -> 0 < t < PI ->
  circular_arc p u (dls_radius d * t) t p2 v ->
  exists c, connector bump (forced_args p (Some u) m (Some d) q (Some v)) = inl c /\
    k_pos1 c = p /\ k_vec1 c = u /\ k_md1 c = m /\
    k_method c = MinCurve /\ k_pos_target c = p2 /\ k_vec_target c = v /\ k_md_target c = m + dls_radius d * t.
Proof.
  intros bump p u m d q v t p2 U HD Ht CA.
  set (a := forced_args p (Some u) m (Some d) q (Some v)).
  pose proof (circular_arc_tangent_unit _ _ _ _ _ _ U CA) as UV.
  assert (AB : angle_between u v t).
  { split; [lra|]. destruct CA as (n & r & N1 & N2 & _ & _ & ->). symmetry. apply tangent_dot; auto. }
  assert (NE : v <> u).
  { intros ->. destruct AB as [_ C]. unfold is_unit in U. rewrite U in C.
    assert (t = 0) by (apply cos_inj_0_PI; try lra; rewrite cos_0; auto). lra. }
  assert (NO : v <> vneg u).
  { intros ->. destruct AB as [_ C]. replace (dot u (vneg u)) with (- dot u u) in C by (unf; ring). unfold is_unit in U. rewrite U in C.
    assert (t = PI) by (apply cos_inj_0_PI; try lra; rewrite cos_PI; auto). lra. }
  assert (SV : start_vec a = u) by reflexivity.
  assert (TV : target_vec a = v).
  { unfold target_vec. change (target_vec0 a) with v. rewrite SV. destruct (v3_eq_dec v (vneg u)); tauto. }
  assert (CK : check_args a = None).
  { apply forced_check. intros x E. injection E as <-. auto. }
  assert (GM : get_method a = inl "min_curve"%string).
  { unfold get_method. change (initial_method a) with (Some "min_curve_or_hold"%string).
    cbn [String.eqb Ascii.eqb Bool.eqb orb]. change (ends_or_hold "min_curve_or_hold") with true. cbv iota.
    rewrite TV, SV. destruct (v3_eq_dec v u); [tauto|]. reflexivity. }
  assert (EX : exists c, connector bump a = inl c /\ k_method c = MinCurve /\ k_pos1 c = p /\ k_vec1 c = u /\ k_md1 c = m).
  { unfold connector. rewrite CK, GM. cbn [String.eqb Ascii.eqb Bool.eqb]. unfold do_min_curve.
    destruct (start_angles a) as [i1 z1], (target_angles' a) as [i2 z2]. change (a_md2 a) with (@None R). cbv iota.
    unfold a at 1. rewrite forced_radius by auto. cbv zeta. unfold get_curve_hold_data.
    eexists. split; [reflexivity|]. cbn. auto. }
  destruct EX as (c & EC & MC & C1 & C2 & C3). exists c. do 4 (split; auto).
  destruct (min_curve_connection bump a c t) as (r & pos2 & len & _ & _ & _ & KV & CA2 & KP & KM & _ & _ & Z);
    rewrite ?SV, ?TV; auto.
  destruct (Z eq_refl) as [-> RD]. unfold a in RD. rewrite forced_radius in RD by auto. injection RD as <-.
  rewrite SV, TV in *. change (a_pos1 a) with p in *. change (a_md1 a) with m in *.
  split; auto. split; [|split; [auto|rewrite KM; ring]].
  apply circular_arc_disp in CA; auto; try lra. apply circular_arc_disp in CA2; auto; try lra.
  rewrite KP. rewrite vscale_0, vadd_0_r. congruence.
Qed.

Lemma forced_still : forall bump p u m d, is_unit u -> 0 < d -> forall w, w = None \/ w = Some u ->
  exists c, connector bump (forced_args p (Some u) m (Some d) p w) = inl c /\
    k_pos1 c = p /\ k_vec1 c = u /\ k_md1 c = m /\
    k_method c = MinCurve /\ k_pos_target c = p /\ k_vec_target c = u /\ k_md_target c = m.
Proof.
  intros bump p u m d U HD w W.
  set (a := forced_args p (Some u) m (Some d) p w).
  assert (SV : start_vec a = u) by reflexivity.
  assert (TV : target_vec a = u).
  { unfold target_vec. assert (E : target_vec0 a = u) by (destruct W as [-> | ->]; reflexivity). rewrite E, SV.
    destruct (v3_eq_dec u (vneg u)) as [Z|_]; auto. destruct (unit_not_opposite u U Z). }
  assert (CK : check_args a = None).
  { apply forced_check. intros x E. injection E as <-. auto. }
  assert (GM : get_method a = inl "min_curve"%string).
  { unfold get_method. change (initial_method a) with (Some "min_curve_or_hold"%string).
    cbn [String.eqb Ascii.eqb Bool.eqb orb]. change (ends_or_hold "min_curve_or_hold") with true. cbv iota.
    rewrite TV, SV. destruct (v3_eq_dec u u); [|tauto]. change (a_pos2 a) with (Some p). change (a_pos1 a) with p. cbv iota.
    replace (normalised (vsub p p)) with (@None V3); [reflexivity|].
    unfold normalised. replace (norm (vsub p p)) with 0; [destruct (Req_EM_T 0 0); [auto|lra]|].
    unfold norm. replace (dot (vsub p p) (vsub p p)) with 0 by (unf; ring). symmetry; apply sqrt_0. }
  unfold connector. rewrite CK, GM. cbn [String.eqb Ascii.eqb Bool.eqb]. unfold do_min_curve.
  assert (TA : target_angles' a = start_angles a).
  { unfold target_angles'. assert (E : target_vec0 a = u) by (destruct W as [-> | ->]; reflexivity). rewrite E, SV.
    destruct (v3_eq_dec u (vneg u)) as [Z|_]; [destruct (unit_not_opposite u U Z)|].
    destruct W as [-> | ->]; unfold target_angles, start_angles, a, forced_args; cbn; auto; destruct (get_angles true u); auto. }
  rewrite TA. pose proof (start_angles_dir a CK) as SD. rewrite SV in SD. specialize (SD U).
  destruct (start_angles a) as [i1 z1]. cbn [fst snd] in SD. change (a_md2 a) with (@None R). cbv iota.
  unfold a at 1. rewrite forced_radius by auto.
  assert (DG : check_dogleg (get_dogleg i1 z1 i1 z1) = 0).
  { pose proof (dogleg_angle i1 z1 i1 z1) as DA. rewrite SD in DA.
    assert (Z : angle_between u u 0). { split; [pose proof PI_RGT_0; lra|]. rewrite cos_0. symmetry. exact U. }
    rewrite <- (angle_between_unique _ _ _ _ Z DA). unfold check_dogleg. destruct (Rlt_dec 0 0); lra. }
  rewrite DG. cbv zeta. unfold get_curve_hold_data. eexists. split; [reflexivity|]. cbn [k_pos1 k_vec1 k_md1 k_method k_pos_target k_vec_target k_md_target].
  rewrite TV. change (a_pos1 a) with p. change (a_md1 a) with m. change (start_vec a) with u. do 4 (split; auto).
  rewrite !Rmult_0_r. rewrite Rabs_R0. split; [|split; auto; ring].
  unfold get_pos. destruct p, u. unf. apply V3_eq; simpl; unfold Rdiv; ring.
Qed.
