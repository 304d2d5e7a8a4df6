(** Depths of whole connections. *)
Require Import Reals ZArith Bool String List Sorted Lra Lia Psatz.
Require Import Verif.Base Verif.NumPy Verif.P_Trig Verif.Spec Verif.Spec_Lists Verif.M_Utils Verif.P_Utils
  Verif.M_Survey Verif.P_Survey3 Verif.M_Torque Verif.P_Torque Verif.M_Clearance Verif.P_Clearance
  Verif.M_Connector Verif.Spec_Connector Verif.Spec_Connector2 Verif.P_Connector
  Verif.P_Connector2 Verif.P_Connector3 Verif.P_Connector4 Verif.P_Connector6.
Import ListNotations.
Open Scope R_scope.

Definition wf_conn (c : conn) : Prop :=
  match k_method c, k_md2 c with
  | Hold, _ => k_md1 c <= k_md_target c
  | MinCurveToTarget, _ | MinCurve, None => 0 <= k_dist_curve c /\ k_md_target c = k_md1 c + k_dist_curve c
  | MinDistToTarget, Some m | MinCurve, Some m =>
      0 <= k_dist_curve c /\ m = k_md1 c + k_dist_curve c /\ m <= k_md_target c
  | _, _ => False
  end.
Definition marks (c : conn) : list R :=
  match k_method c, k_md2 c with
  | MinDistToTarget, Some m | MinCurve, Some m => [k_md1 c; m; k_md_target c]
  | _, _ => [k_md1 c; k_md_target c]
  end.
Lemma check_ge0 : forall y x, 0 <= check_dogleg (2 * arctan2 y x).
Proof.
  intros. pose proof (arctan2_bounds y x). unfold check_dogleg. destruct (Rlt_dec _ 0); lra.
Qed.
Lemma dogleg_ge0 : forall a b c d, 0 <= check_dogleg (get_dogleg a b c d).
Proof.
  intros. pose proof (dogleg_angle a b c d) as [B _]. unfold check_dogleg. destruct (Rlt_dec _ 0); lra.
Qed.
Lemma wf_min_dist : forall r ds p u m q c, 0 < r -> do_min_dist r ds p u m q = Some c -> wf_conn c.
Proof.
  intros r [[d x] n] p u m q c Hr H. unfold do_min_dist, min_dist_to_target in H. cbv zeta in H.
  destruct (Rlt_dec _ 0); [discriminate|]. cbn [get_curve_hold_data] in H.
  set (t := sqrt _) in *. pose proof (check_ge0 (x - t) (2 * r - n)) as C.
  set (dl := check_dogleg _) in *. clearbody dl.
  assert (T : 0 <= t) by apply sqrt_pos. clearbody t.
  destruct (get_vec_target _ _ _ _ _ _); [|discriminate]. injection H as <-.
  unfold wf_conn. cbn. assert (0 <= r * dl) by nra. rewrite Rabs_pos_eq by auto.
  split; [auto|]. split; [auto|lra].
Qed.
Lemma wf_min_curve_to : forall rd ds p u m q c, (forall r, rd = Some r -> 0 < r) ->
  (forall d x n, ds = (d, x, n) -> 0 <= n) ->
  do_min_curve_to_target rd ds p u m q = Some c -> wf_conn c.
Proof.
  intros rd [[d x] n] p u m q c Hr Hn H. specialize (Hn _ _ _ eq_refl).
  unfold do_min_curve_to_target in H. destruct (min_curve_to_target (d, x, n)) as [[t rc] dl] eqn:E.
  assert (t = 0 /\ 0 <= check_dogleg dl /\ forall r, rc = Some r -> 0 <= r) as (-> & D0 & R0).
  { unfold min_curve_to_target in E. destruct (Req_EM_T d 0).
    - injection E as <- <- <-. split; auto. split; [|discriminate].
      unfold check_dogleg. destruct (Rlt_dec 0 0); lra.
    - injection E as <- <- <-. split; auto. split; [apply check_ge0|].
      intros r Er. destruct (Req_EM_T n 0); [discriminate|]. injection Er as <-.
      apply Rmult_le_pos; [apply pow2_ge_0|]. left. apply Rinv_0_lt_compat. lra. }
  destruct (rmin_inf rd rc) as [r|] eqn:M; [|discriminate].
  assert (0 <= r).
  { unfold rmin_inf in M. destruct rd as [r1|], rc as [r2|]; try discriminate; injection M as <-.
    - apply Rmin_glb; [specialize (Hr _ eq_refl); lra|auto].
    - specialize (Hr _ eq_refl). lra.
    - auto. }
  cbn [get_curve_hold_data] in H. destruct (get_vec_target _ _ _ _ _ _); [|discriminate].
  injection H as <-. unfold wf_conn. cbn. split; [nra|ring].
Qed.
Lemma wf_min_curve : forall a c, check_args a = None -> do_min_curve a = inl c -> wf_conn c.
Proof.
  intros a c C H. unfold do_min_curve in H. cbv zeta in H.
  destruct (start_angles a) as [i1 z1], (target_angles' a) as [i2 z2].
  pose proof (dogleg_ge0 i1 z1 i2 z2) as T. set (t := check_dogleg _) in *. clearbody t.
  assert (RP : forall rd, radius_design a = Some rd -> 0 < rd) by (intros rd; apply radius_pos; auto).
  pose proof (proj1 (acceptance a) C) as (_ & _ & _ & _ & ML & _).
  destruct (a_md2 a) as [m|].
  - specialize (ML m eq_refl). destruct (Req_EM_T t 0) as [->|N].
    + destruct (radius_design a) as [r|]; cbn in H.
      * injection H as <-. unfold wf_conn. cbn. split; [lra|]. split; [ring|lra].
      * destruct (Z.eqb (around 5 0) (around 5 PI)); discriminate.
    + set (rc := Rabs ((m - a_md1 a) / t)) in *.
      assert (RCt : rc * t = m - a_md1 a).
      { unfold rc. rewrite Rabs_pos_eq; [field; lra|]. apply Rmult_le_pos; [lra|]. left. apply Rinv_0_lt_compat. lra. }
      assert (rc0 : 0 <= rc) by apply Rabs_pos. clearbody rc.
      destruct (_ || _)%bool.
      * destruct (rmin_inf (radius_design a) (Some rc)) as [r|] eqn:M; [|discriminate].
        assert (0 <= r <= rc).
        { destruct (radius_design a) as [r1|]; injection M as <-; [|lra]. pose proof (RP _ eq_refl).
          pose proof (Rmin_r r1 rc). split; auto. apply Rmin_glb; lra. }
        cbn [get_curve_hold_data] in H. injection H as <-. unfold wf_conn. cbn.
        split; [nra|]. split; [ring|]. nra.
      * cbn [get_curve_hold_data] in H. injection H as <-. unfold wf_conn. cbn. split; [nra|lra].
  - destruct (radius_design a) as [r|]; [|discriminate]. specialize (RP _ eq_refl).
    cbn [get_curve_hold_data] in H. injection H as <-. unfold wf_conn. cbn.
    assert (0 <= r * t) by nra. rewrite Rabs_pos_eq by auto. auto.
Qed.
Lemma wf_hold : forall a c, check_args a = None -> do_hold a = inl c -> wf_conn c.
Proof.
  intros a c C H. pose proof (proj1 (acceptance a) C) as (_ & _ & _ & _ & ML & _).
  unfold do_hold in H. destruct (a_pos2 a) as [p|], (a_md2 a) as [m|]; try discriminate; injection H as <-;
    unfold wf_conn; cbn; try (apply ML; reflexivity).
  pose proof (norm_ge0 (vsub p (a_pos1 a))). lra.
Qed.
Lemma connector_wf : forall bump a c, is_unit (start_vec a) -> connector bump a = inl c -> wf_conn c.
Proof.
  intros bump a c U H. destruct (connector_cases bump a c H) as (C & [D|[D|(q & Q & D)]]).
  - eapply wf_hold; eauto.
  - eapply wf_min_curve; eauto.
  - unfold do_curve_hold in D. destruct (get_distances bump (a_pos1 a) (start_vec a) q) as [q' ds] eqn:G.
    assert (RP : forall rd, radius_design a = Some rd -> 0 < rd) by (intros rd; apply radius_pos; auto).
    assert (N : forall d x n, ds = (d, x, n) -> 0 <= n).
    { intros d x n ->. unfold get_distances in G. injection G as _ G.
      destruct (allclose_dec _ _); [injection G as _ _ <-; lra|].
      rewrite dist_triple_spec in G by auto. injection G as _ _ <-. apply off_axis_ge0. }
    destruct (radius_design a) as [r|] eqn:R.
    + destruct (Rle_dec _ _).
      * eapply wf_min_dist; eauto.
      * eapply wf_min_curve_to; eauto.
    + eapply wf_min_curve_to; eauto.
Qed.
Lemma curve_weak : forall md1 v1 v2 dc dl s (e : bool), 0 < s -> 0 <= dc ->
  wgrid s md1 (md1 + dc) (if e then [md1; md1 + dc] else [md1]) (map fst (interpolate_curve md1 v1 v2 dc dl (Some s) e)).
Proof.
  intros md1 v1 v2 dc dl s e Hs [Hd|<-].
  - rewrite curve_depths by lra. rewrite Rabs_pos_eq by lra. apply offsets_weak; lra.
  - unfold interpolate_curve. destruct (Req_EM_T 0 0); [|congruence]. rewrite Rplus_0_r. split.
    + cbn. apply ss_singleton.
    + intro x. destruct e; cbn; split; intros; intuition lra.
Qed.
Lemma hold_weak : forall md1 v1 md2 s (e : bool), 0 < s -> md1 <= md2 ->
  wgrid s md1 md2 (if e then [md1; md2] else [md1]) (map fst (interpolate_hold md1 v1 md2 (Some s) e)).
Proof.
  intros md1 v1 md2 s e Hs H. rewrite hold_depths.
  pose proof (offsets_weak md1 (md2 - md1) s e Hs ltac:(lra)) as W.
  replace (md1 + (md2 - md1)) with md2 in W by ring. exact W.
Qed.
Lemma section_weak : forall c s, 0 < s -> wf_conn c ->
  k_md1 c <= k_md_target c /\
  (forall x, In x (marks c) -> k_md1 c <= x <= k_md_target c) /\
  wgrid s (k_md1 c) (k_md_target c) (marks c) (map fst (interpolate_section c (Some s))).
Proof.
  intros c s Hs W.
  assert (SP : forall m, 0 <= k_dist_curve c -> m = k_md1 c + k_dist_curve c -> m <= k_md_target c ->
    k_md1 c <= k_md_target c /\
    (forall x, In x [k_md1 c; m; k_md_target c] -> k_md1 c <= x <= k_md_target c) /\
    wgrid s (k_md1 c) (k_md_target c) [k_md1 c; m; k_md_target c]
      (map fst (interpolate_curve (k_md1 c) (k_vec1 c) (k_vec_target c) (k_dist_curve c) (k_dogleg c) (Some s) false
      ++ interpolate_hold m (k_vec_target c) (k_md_target c) (Some s) true))).
  { intros m D M L. split; [lra|]. split. { intros x [<-|[<-|[<-|[]]]]; lra. }
    rewrite map_app. apply (wgrid_app s _ m _ [k_md1 c] [m; k_md_target c]); [lra| | | | |].
    - rewrite M. apply (curve_weak _ _ _ _ _ s false); auto.
    - apply (hold_weak _ _ _ s true); auto.
    - right; left; auto.
    - intros x [<-|[]]. lra.
    - intros x [<-|[<-|[]]]; lra. }
  assert (SC : 0 <= k_dist_curve c /\ k_md_target c = k_md1 c + k_dist_curve c ->
    k_md1 c <= k_md_target c /\
    (forall x, In x [k_md1 c; k_md_target c] -> k_md1 c <= x <= k_md_target c) /\
    wgrid s (k_md1 c) (k_md_target c) [k_md1 c; k_md_target c]
      (map fst (interpolate_curve (k_md1 c) (k_vec1 c) (k_vec_target c) (k_dist_curve c) (k_dogleg c) (Some s) true))).
  { intros (D & E). split; [lra|]. split. { intros x [<-|[<-|[]]]; lra. }
    rewrite E. apply (curve_weak _ _ _ _ _ s true); auto. }
  unfold wf_conn in W. unfold interpolate_section, marks.
  destruct (k_method c), (k_md2 c); try (destruct W; fail); try (apply SC; exact W);
    try (destruct W as (W1 & W2 & W3); apply SP; auto; fail).
  - split; [auto|]. split. { intros x [<-|[<-|[]]]; lra. } apply (hold_weak _ _ _ s true); auto.
  - split; [auto|]. split. { intros x [<-|[<-|[]]]; lra. } apply (hold_weak _ _ _ s true); auto.
Qed.
(** C35 for a whole connection *)
Lemma connection_depths : forall bump a c s, is_unit (start_vec a) -> connector bump a = inl c -> 0 < s ->
  let l := map fst (interpolate_section c (Some s)) in
  exists m, k_md1 c <= m <= k_md_target c /\
    (forall x, In x l <-> x = k_md1 c \/ x = m \/ x = k_md_target c \/
                          (k_md1 c < x < k_md_target c /\ multiple s x)) /\
    StronglySorted Rle l /\ no_gap_over s (k_md_target c) l /\
    (forall m2, k_md2 c = Some m2 -> m = m2).
Proof.
  intros bump a c s U H Hs l. pose proof (connector_wf bump a c U H) as W.
  destruct (section_weak c s Hs W) as (B & L & S & M). fold l in S, M.
  set (m := match k_md2 c with Some m => m | None => k_md_target c end).
  assert (MM : forall x, In x (marks c) <-> x = k_md1 c \/ x = m \/ x = k_md_target c).
  { assert (K2 : k_method c = Hold \/ k_method c = MinCurveToTarget -> k_md2 c = None).
    { destruct (connector_cases bump a c H) as (C & [D|[D|(q & Q & D)]]); intro K.
      - clear -D. unfold do_hold in D. repeat dm; injection D as <-; reflexivity.
      - rewrite (min_curve_method a c D) in K. destruct K; discriminate.
      - unfold do_curve_hold in D. destruct (get_distances _ _ _ _) as [q' ds].
        assert (Y : forall rd ds, do_min_curve_to_target rd ds (a_pos1 a) (start_vec a) (a_md1 a) q' = Some c -> k_md2 c = None).
        { clear. intros rd ds D. unfold do_min_curve_to_target in D. repeat dm. injection D as <-. reflexivity. }
        destruct (radius_design a); [destruct (Rle_dec _ _)|]; eauto.
        rewrite (min_dist_method _ _ _ _ _ _ _ D) in K. destruct K; discriminate. }
    intro x. unfold marks, m, wf_conn in *.
    destruct (k_method c), (k_md2 c); try (destruct W; fail); cbn; intuition congruence. }
  exists m. split; [|split; [|split; [auto|split]]].
  - apply L. apply MM. auto.
  - intro x. rewrite M, MM. tauto.
  - intros x I Lx. destruct (next_multiple s x Hs) as (K & Bn).
    assert (k_md1 c <= x). { apply M in I. destruct I as [I|I]; [apply L in I; lra|lra]. }
    set (y := x + (s - rmod x s)) in *.
    destruct (Rlt_dec y (k_md_target c)) as [Y|Y].
    + exists y. split; [|lra]. apply M. right. split; [lra|auto].
    + exists (k_md_target c). split; [|lra]. apply M. left. apply MM. auto.
  - intros m2 E. unfold m. rewrite E. reflexivity.
Qed.
