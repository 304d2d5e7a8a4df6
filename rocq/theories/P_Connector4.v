(** Outcomes of the constructor; hold and minimum-curvature connections. *)
Require Import Reals ZArith Bool String List Lra Lia Psatz.
Require Import Verif.Base Verif.NumPy Verif.P_Trig Verif.Spec Verif.M_Utils Verif.P_Utils
  Verif.M_Survey Verif.M_Torque Verif.M_Connector Verif.Spec_Connector Verif.Spec_Connector2 Verif.P_Connector
  Verif.P_Connector2 Verif.P_Connector3.
Import ListNotations.
Open Scope R_scope.

Lemma never_hold_dec : forall a, never_hold a \/ ~ never_hold a.
Proof.
  intro a. unfold never_hold.
  destruct (a_force a), (a_pos2 a), (a_azi2 a), (a_inc2 a);
    first [left; repeat split; congruence | right; intros (? & ? & ? & ?); congruence].
Qed.
Lemma straight_dec : forall a, straight a \/ ~ straight a.
Proof.
  intro a. destruct (straight_test a "x") as [[_ H]|[_ H]]; auto.
Qed.
Lemma method_cases : forall a, check_args a = None -> is_unit (start_vec a) ->
  (straight a /\ ~ never_hold a /\ get_method a = inl "hold"%string) \/
  ((~ straight a \/ never_hold a) /\ get_method a = inl (base_method a)).
Proof.
  intros a C U. destruct (dispatch a C U) as [D1 D2].
  destruct (straight_dec a), (never_hold_dec a); auto.
Qed.
Lemma min_curve_errors : forall a e, do_min_curve a = inr e ->
  (e = ValueError_dls /\ a_md2 a = None /\ a_dls a = None) \/
  (e = NaNResult /\ a_md2 a <> None /\ a_dls a = None).
Proof.
  intros a e H. unfold do_min_curve in H. cbv zeta in H.
  destruct (start_angles a) as [i1 z1], (target_angles' a) as [i2 z2].
  set (dl := check_dogleg (get_dogleg i1 z1 i2 z2)) in *. clearbody dl.
  assert (RD : radius_design a = None -> a_dls a = None).
  { unfold radius_design. destruct (a_dls a); [discriminate|auto]. }
  destruct (a_md2 a) as [m|].
  - right. destruct (radius_design a) as [r|].
    + exfalso. destruct (Req_EM_T dl 0).
      * cbn in H. discriminate.
      * destruct (Rlt_dec r (Rabs ((m - a_md1 a) / dl))); cbn in H; [discriminate|].
        destruct (Z.eqb (around 5 dl) (around 5 PI)); discriminate.
    + destruct (Req_EM_T dl 0).
      * cbn in H. split; [|split; [discriminate|auto]].
        destruct (Z.eqb (around 5 dl) (around 5 PI)); congruence.
      * cbn in H. destruct (Z.eqb (around 5 dl) (around 5 PI)); discriminate.
  - left. destruct (radius_design a) as [r|]; [discriminate|].
    injection H as <-. auto.
Qed.
Lemma hold_errors : forall a e, do_hold a = inr e ->
  e = TypeError_hold /\ a_pos2 a = None /\ a_md2 a = None.
Proof.
  intros a e H. unfold do_hold in H. destruct (a_pos2 a), (a_md2 a); try discriminate.
  injection H as <-. auto.
Qed.
Lemma outcomes : forall bump a, check_args a = None -> is_unit (start_vec a) ->
  (connector bump a = inr TypeError_hold <->
     straight a /\ a_pos2 a = None /\ a_md2 a = None) /\
  (connector bump a = inr ValueError_dls <->
     ~ straight a /\ base_method a = "min_curve"%string /\ a_md2 a = None /\ a_dls a = None) /\
  (forall e, connector bump a = inr e ->
     e = TypeError_hold \/ e = ValueError_dls \/
     (e = SolverOutcome /\ base_method a = "curve_hold_curve"%string) \/ e = NaNResult).
Proof.
  intros bump a C U. unfold connector. rewrite C.
  destruct (method_cases a C U) as [(S & NH & M)|(S & M)]; rewrite M.
  - cbn -[do_hold]. split; [split|split; [split|]].
    + intro H. apply hold_errors in H. tauto.
    + intros (_ & P & Q). unfold do_hold. rewrite P, Q. reflexivity.
    + intro H. apply hold_errors in H. destruct H; discriminate.
    + intros (H & _). tauto.
    + intros e H. apply hold_errors in H. tauto.
  - assert (BM : base_method a = "min_curve"%string \/ (base_method a = "curve_hold_curve"%string /\ a_pos2 a <> None)
        \/ (base_method a = "curve_hold"%string /\ a_pos2 a <> None)).
    { unfold base_method. destruct (a_force a); auto. destruct (a_pos2 a); cbn; auto.
      destruct (_ || _)%bool; auto; right; [left|right]; split; congruence. }
    assert (NS : base_method a = "min_curve"%string -> ~ straight a).
    { intros B. destruct S as [S|(F & P & Z & I)]; auto.
      unfold base_method in B. rewrite F in B. destruct (a_pos2 a); [|congruence].
      cbn in B. destruct (_ || _)%bool; discriminate. }
    destruct BM as [B|[[B P]|[B P]]]; rewrite B; cbn -[do_min_curve do_curve_hold].
    + split; [split|split; [split|]].
      * intro H. apply min_curve_errors in H. destruct H as [[? _]|[? _]]; discriminate.
      * intros (S' & _). exfalso. apply (NS B); auto.
      * intro H. apply min_curve_errors in H. destruct H as [[_ [? ?]]|[? _]]; [auto|discriminate].
      * intros (_ & _ & Q & D). unfold do_min_curve. cbv zeta.
        destruct (start_angles a), (target_angles' a). rewrite Q. unfold radius_design. rewrite D. reflexivity.
      * intros e H. apply min_curve_errors in H. tauto.
    + split; [split|split; [split|]].
      * discriminate.
      * intros (_ & Q & _). congruence.
      * discriminate.
      * intros (_ & Q & _). discriminate.
      * intros e H. injection H as <-. auto.
    + destruct (a_pos2 a) as [q|]; [|congruence].
      destruct (do_curve_hold _ _ _ _ _ _ q); (split; [split|split; [split|]]);
        try discriminate; try (intros (_ & Q & _); discriminate).
      intros e H. injection H as <-. auto.
Qed.

(** ** a hold *)
Lemma unit_component : forall w, is_unit w -> Rabs (vx w) <= 1 /\ Rabs (vy w) <= 1 /\ Rabs (vz w) <= 1.
Proof.
  intros [x y z] U. unfold is_unit, dot in U. cbn in *.
  repeat split; apply Rabs_le; nra.
Qed.
Lemma hold_position : forall bump a c, is_unit (start_vec a) -> connector bump a = inl c ->
  k_method c = Hold ->
  k_vec_target c = start_vec a /\
  (forall m, a_md2 a = Some m -> k_md_target c = m /\
     k_pos_target c = vadd (a_pos1 a) (vscale (m - a_md1 a) (start_vec a))) /\
  (forall q, a_pos2 a = Some q ->
     k_pos_target c = q /\ k_md_target c = a_md1 a + dist q (a_pos1 a) /\
     let e := vsub (vadd (a_pos1 a) (vscale (dist q (a_pos1 a)) (start_vec a))) q in
     let tol := (1 / 100000 + 1 / 100000000) * dist q (a_pos1 a) in
     Rabs (vx e) <= tol /\ Rabs (vy e) <= tol /\ Rabs (vz e) <= tol).
Proof.
  intros bump a c U H M. destruct (connector_cases bump a c H) as (C & D).
  assert (HM : get_method a = inl "hold"%string /\ straight a /\ do_hold a = inl c).
  { destruct (method_cases a C U) as [(S & NH & E)|(S & E)].
    - split; [auto|]. split; [auto|].
      unfold connector in H. rewrite C, E in H. cbn -[do_hold] in H. exact H.
    - exfalso. unfold connector in H. rewrite C, E in H. unfold base_method in H.
      destruct (a_force a).
      { cbn -[do_min_curve] in H. apply min_curve_method in H. congruence. }
      destruct (a_pos2 a) as [q|] eqn:P; cbn -[do_min_curve do_curve_hold] in H.
      + destruct (given (a_vec2 a) || given (a_inc2 a) && given (a_azi2 a))%bool;
          cbn -[do_curve_hold] in H; [discriminate|].
        destruct (do_curve_hold _ _ _ _ _ _ q) eqn:X; [|discriminate]. injection H as <-.
        unfold do_curve_hold in X. destruct (get_distances _ _ _ _) as [q' ds].
        destruct (radius_design a).
        * destruct (Rle_dec _ _); [apply min_dist_method in X|apply min_curve_to_method in X]; congruence.
        * apply min_curve_to_method in X. congruence.
      + apply min_curve_method in H. congruence. }
  destruct HM as (_ & S & D'). apply acceptance in C. destruct C as (_ & _ & _ & MP & _).
  destruct S as [SE SP]. unfold do_hold in D'.
  destruct (a_pos2 a) as [q|] eqn:P, (a_md2 a) as [m|] eqn:Q; try discriminate;
    [exfalso; destruct MP; congruence| |].
  - injection D' as <-. cbn [k_vec_target k_md_target k_pos_target].
    split; [auto|]. split; [discriminate|].
    intros q' E. injection E as <-. destruct (SP q eq_refl) as [NQ AC].
    split; [reflexivity|]. split; [unfold dist; ring|].
    cbv zeta. unfold dist. set (d := norm (vsub q (a_pos1 a))).
    assert (d0 : 0 < d). { unfold d. apply norm_pos. intro Z. apply NQ. rewrite <- (vadd_vsub (a_pos1 a) q), Z. apply vadd_0_r. }
    set (w := vunit (vsub q (a_pos1 a))) in *.
    assert (W : vsub q (a_pos1 a) = vscale d w).
    { unfold w, vunit. rewrite vscale_vscale. fold d. rewrite Rinv_r, vscale_1 by lra. reflexivity. }
    assert (Uw : is_unit w).
    { unfold w. apply vunit_is_unit. intro Z. unfold d in d0. rewrite Z, norm_vzero in d0. lra. }
    replace (vsub (vadd (a_pos1 a) (vscale d (start_vec a))) q)
      with (vscale d (vsub (start_vec a) w)).
    2: { replace q with (vadd (a_pos1 a) (vsub q (a_pos1 a))) by vring. rewrite W. vring. }
    destruct (unit_component w Uw) as (X & Y & Z).
    destruct AC as (AX & AY & AZ). unfold close, rtol, atol in *.
    assert (G : forall s t, Rabs t <= 1 -> Rabs (s - t) <= 1 / 100000000 + 1 / 100000 * Rabs t ->
       Rabs (d * (s - t)) <= (1 / 100000 + 1 / 100000000) * d).
    { intros s t T1 T2. rewrite Rabs_mult, (Rabs_pos_eq d) by lra. nra. }
    destruct w as [w1 w2 w3], (start_vec a) as [s1 s2 s3]. cbn in *. auto.
  - injection D' as <-. cbn [k_vec_target k_md_target k_pos_target].
    split; [auto|]. split; [|discriminate].
    intros m' E. injection E as <-. auto.
Qed.

(** ** minimum curvature *)
Lemma start_angles_dir : forall a, check_args a = None -> is_unit (start_vec a) ->
  direction_nev (fst (start_angles a)) (snd (start_angles a)) = start_vec a.
Proof.
  intros a C U. unfold start_angles.
  assert (X : a_vec1 a <> None -> a_inc1 a = None /\ a_azi1 a = None).
  { apply acceptance in C. destruct C as ([(A & B & D)|(A & B & D)] & _); tauto. }
  destruct (a_inc1 a) as [i|] eqn:I, (a_azi1 a) as [z|] eqn:Z.
  - unfold start_vec. rewrite I, Z, get_vec_spec by lra. reflexivity.
  - pose proof (get_angles_direction (start_vec a) (unit_nonzero _ U)) as G.
    destruct (get_angles true (start_vec a)). rewrite vunit_unit in G; auto.
  - pose proof (get_angles_direction (start_vec a) (unit_nonzero _ U)) as G.
    destruct (get_angles true (start_vec a)). rewrite vunit_unit in G; auto.
  - pose proof (get_angles_direction (start_vec a) (unit_nonzero _ U)) as G.
    destruct (get_angles true (start_vec a)). rewrite vunit_unit in G; auto.
Qed.
Lemma target_angles_dir : forall a, check_args a = None -> is_unit (start_vec a) ->
  is_unit (target_vec a) ->
  direction_nev (fst (target_angles' a)) (snd (target_angles' a)) = target_vec a.
Proof.
  intros a C U UT. unfold target_angles'.
  destruct (v3_eq_dec (target_vec0 a) (vneg (start_vec a))) as [E|E].
  - pose proof (get_angles_direction (target_vec a) (unit_nonzero _ UT)) as G.
    destruct (get_angles true (target_vec a)). rewrite vunit_unit in G; auto.
  - assert (T : target_vec a = target_vec0 a).
    { unfold target_vec. destruct (v3_eq_dec (target_vec0 a) (vneg (start_vec a))); [tauto|reflexivity]. }
    rewrite T in *. unfold target_vec0, target_angles in *.
    destruct (a_vec2 a) as [v|].
    + pose proof (get_angles_direction v (unit_nonzero _ UT)) as G.
      destruct (get_angles true v). rewrite vunit_unit in G; auto.
    + destruct (a_inc2 a) as [i|], (a_azi2 a) as [z|]; try (rewrite get_vec_spec by lra; reflexivity).
      apply start_angles_dir; auto.
Qed.
(** C71 *)
Lemma min_curve_connection : forall bump a c t, is_unit (start_vec a) -> is_unit (target_vec a) ->
  connector bump a = inl c -> k_method c = MinCurve ->
  angle_between (start_vec a) (target_vec a) t -> 0 < t < PI ->
  exists r pos2 len, 0 <= r /\ 0 <= len /\ k_dogleg c = t /\
    k_vec_target c = target_vec a /\
    circular_arc (a_pos1 a) (start_vec a) (r * t) t pos2 (target_vec a) /\
    k_pos_target c = vadd pos2 (vscale len (target_vec a)) /\
    k_md_target c = a_md1 a + r * t + len /\
    (forall m, a_md2 a = Some m -> k_md_target c = m) /\
    (forall rd, radius_design a = Some rd -> r <= rd) /\
    (a_md2 a = None -> len = 0 /\ radius_design a = Some r).
Proof.
  intros bump a c t U UT H M A Ht. destruct (connector_cases bump a c H) as (C & [D|[D|(q & Q & D)]]).
  - rewrite (hold_method a c D) in M. discriminate.
  - clear H M. unfold do_min_curve in D. cbv zeta in D.
    pose proof (start_angles_dir a C U) as SD. pose proof (target_angles_dir a C U UT) as TD.
    destruct (start_angles a) as [i1 z1], (target_angles' a) as [i2 z2]. cbn [fst snd] in SD, TD.
    assert (E : check_dogleg (get_dogleg i1 z1 i2 z2) = t).
    { pose proof (dogleg_angle i1 z1 i2 z2) as DA. rewrite SD, TD in DA.
      pose proof (angle_between_unique _ _ _ _ A DA) as E. rewrite <- E.
      unfold check_dogleg. destruct (Rlt_dec t 0); lra. }
    rewrite E in D. clear E SD TD i1 z1 i2 z2.
    assert (Arc : forall r, circular_arc (a_pos1 a) (start_vec a) (r * t) t
               (get_pos (a_pos1 a) (start_vec a) (target_vec a) (r * t) (get_rf t)) (target_vec a)).
    { intro r. apply mc_disp_arc; auto. apply A. }
    assert (RP : forall rd, radius_design a = Some rd -> 0 < rd) by (intros rd; apply radius_pos; auto).
    pose proof (proj1 (acceptance a) C) as (_ & _ & _ & _ & ML & _).
    destruct (a_md2 a) as [m|].
    + specialize (ML m eq_refl). destruct (Req_EM_T t 0); [lra|].
      assert (RC : Rabs ((m - a_md1 a) / t) = (m - a_md1 a) / t).
      { apply Rabs_pos_eq. apply Rmult_le_pos; [lra|]. left. apply Rinv_0_lt_compat. lra. }
      rewrite RC in D. set (rc := (m - a_md1 a) / t) in *.
      assert (RCt : rc * t = m - a_md1 a) by (unfold rc; field; lra).
      assert (rc0 : 0 <= rc) by (rewrite <- RC; apply Rabs_pos).
      destruct ((match radius_design a with
                 | Some r => if Rlt_dec r rc then true else false
                 | None => false
                 end || Z.eqb (around 5 t) (around 5 PI))%bool) eqn:SP.
      * destruct (radius_design a) as [rd|].
        -- cbn [rmin_inf get_curve_hold_data] in D. injection D as <-.
           cbn [k_dogleg k_vec_target k_pos_target k_md_target].
           pose proof (RP rd eq_refl). pose proof (Rmin_l rd rc). pose proof (Rmin_r rd rc).
           assert (0 <= Rmin rd rc) by (apply Rmin_glb; lra).
           exists (Rmin rd rc), (get_pos (a_pos1 a) (start_vec a) (target_vec a) (Rmin rd rc * t) (get_rf t)),
             (m - (a_md1 a + Rmin rd rc * t)).
           repeat split; auto; try nra; try discriminate; try (intros ? X; injection X as <-; auto).
        -- cbn [rmin_inf get_curve_hold_data] in D. injection D as <-.
           cbn [k_dogleg k_vec_target k_pos_target k_md_target].
           exists rc, (get_pos (a_pos1 a) (start_vec a) (target_vec a) (rc * t) (get_rf t)),
             (m - (a_md1 a + rc * t)).
           repeat split; auto; try nra; try discriminate; try (intros ? X; injection X as <-; auto).
      * injection D as <-. cbn [k_dogleg k_vec_target k_pos_target k_md_target].
        exists rc, (get_pos (a_pos1 a) (start_vec a) (target_vec a) (rc * t) (get_rf t)), 0.
        repeat split; auto; try nra; try discriminate; try (intros ? X; injection X as <-; auto).
        -- rewrite vscale_0, vadd_0_r. reflexivity.
        -- intros rd X. rewrite X in SP. apply orb_false_iff in SP. destruct SP as [SP _].
           destruct (Rlt_dec rd rc); [discriminate|lra].
    + destruct (radius_design a) as [rd|]; [|discriminate].
      cbn [get_curve_hold_data] in D. injection D as <-.
      cbn [k_dogleg k_vec_target k_pos_target k_md_target].
      pose proof (RP rd eq_refl).
      exists rd, (get_pos (a_pos1 a) (start_vec a) (target_vec a) (rd * t) (get_rf t)), 0.
      repeat split; auto; try lra; try discriminate; try (intros ? X; injection X as <-; lra).
      * rewrite vscale_0, vadd_0_r. reflexivity.
      * rewrite Rabs_pos_eq by nra. ring.
  - exfalso. unfold do_curve_hold in D. destruct (get_distances _ _ _ _) as [q' ds].
    destruct (radius_design a).
    + destruct (Rle_dec _ _); [apply min_dist_method in D|apply min_curve_to_method in D]; congruence.
    + apply min_curve_to_method in D. congruence.
Qed.
