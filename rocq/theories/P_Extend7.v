(** extend_to_tvd with a target inclination: the target depth is reached. *)
Require Import Reals ZArith Bool String List Lra Lia Psatz.
Require Import Verif.Base Verif.NumPy Verif.Spec Verif.Spec_Rates Verif.M_Utils Verif.M_Connector Verif.M_Extend Verif.Spec_Extend.
Require Import Verif.P_Trig Verif.P_Utils Verif.P_Utils2 Verif.P_Survey Verif.P_Connector Verif.P_Connector3 Verif.P_Connector4 Verif.P_MaxCurve Verif.P_Rates3 Verif.P_Rates4 Verif.P_Weights3 Verif.P_Extend Verif.P_Extend2 Verif.P_Extend3 Verif.P_Extend4 Verif.P_Extend5 Verif.P_Extend6.
Import ListNotations.
Open Scope R_scope.

(** what extend_to_tvd draws once the outer optimiser has answered [L] *)
Lemma extend_run : forall bump mini2 mini1 target k delta ti d L p u m inc azi, finds_least mini2 -> 0 < d -> 0 <= L -> 0 <= ti < 90 ->
  n_pos_nev k = Some p -> n_vec_nev k = Some u -> m = or_default (n_md k) 0 -> bears u inc azi -> 0 <= inc < PI / 2 ->
  mini1 (extend_drop_misfit mini2 ti target d (with_md k)) (or_default delta (1 / 100000000))
    (Rmin (target - vz p) (or_default delta (1 / 100000000))) = Some L ->
  let r := dls_radius d in let s := turn_to d L inc (radians ti) in
  exists cs c, extend_to_tvd bump mini2 mini1 target (Some k) delta (Some ti) (Some d) = ExtOk cs /\
    last (map Some cs) None = Some c /\ (length cs <= 2)%nat /\
    vz (k_pos_target c) = depth_after d (vz p) inc (radians ti) L /\
    is_unit (k_vec_target c) /\ vz (k_vec_target c) = cos (inc + s) /\
    k_md_target c = m + (if Rlt_dec (1 / 100000) (L - Rabs s * r) then L else Rabs s * r).
Proof.
  intros bump mini2 mini1 target k delta ti d L p u m inc azi FL DP HL HT HP HU HM B HI A r s.
  assert (ST : starts (Some (with_md k)) p u m).
  { unfold starts. cbn [with_md n_pos_nev n_vec_nev n_md]. rewrite HP, HU. cbn. split; auto. split; auto. subst m. destruct (n_md k); auto. }
  assert (U : is_unit u) by (destruct B as (-> & _); apply direction_unit).
  pose proof PI_RGT_0 as PP.
  assert (HTR : 0 <= radians ti < PI / 2).
  { split; [apply (radians_range ti); lra|]. unfold radians. nra. }
  destruct (turn_between d L inc (radians ti) DP HL HI HTR) as (TB & TR & _). fold s in TB, TR. fold r in TR.
  destruct (run_drop mini2 ti d L (Some (with_md k)) p u m inc azi FL DP HL HT ST B HI)
    as (p2 & v & n2 & CA & CV & UV & (P2 & V2 & M2) & Z & C). fold s r in CA, CV, M2, Z, C.
  assert (TP : Rabs s < PI) by (apply Rabs_def1; lra).
  unfold extend_to_tvd. cbv zeta. cbn [with_md n_pos_nev n_vec_nev]. rewrite HP, HU.
  change (mkNode (n_pos_nev k) (n_pos_xyz k) (n_vec_nev k) (n_vec_xyz k) (n_inc_rad k) (n_azi_rad k) (match n_md k with Some m0 => Some m0 | None => Some 0 end))
    with (with_md k).
  change (match delta with Some d0 => d0 | None => 1 / 100000000 end) with (or_default delta (1 / 100000000)). rewrite A.
  assert (MD : md_of (with_md k) = m) by (subst m; unfold md_of; cbn; destruct (n_md k); auto). rewrite MD.
  assert (C1 : exists c, connector bump (forced_args p (Some u) m (Some d) p2 (Some v)) = inl c /\
    k_pos1 c = p /\ k_vec1 c = u /\ k_md1 c = m /\
    k_method c = MinCurve /\ k_pos_target c = p2 /\ k_vec_target c = v /\ k_md_target c = m + r * Rabs s).
  { destruct (Req_dec (Rabs s) 0) as [Q|Q].
    - assert (E2 : p2 = p /\ v = u).
      { destruct CA as (n & r' & _ & _ & _ & -> & ->). rewrite Q. unfold arc_point, arc_tangent. rewrite sin_0, cos_0.
        destruct p, u, n. unf. split; apply V3_eq; simpl; ring. }
      destruct E2 as [-> ->]. destruct (forced_still bump p u m d U DP (Some u)) as (c & F); auto. exists c.
      rewrite Q, Rmult_0_r, Rplus_0_r. exact F.
    - apply forced_curve; auto. pose proof (Rabs_pos s). lra. }
  destruct C1 as (c & EC & F1 & F2 & F3 & F4 & F5 & F6 & F7).
  assert (NP : node_pos n2 = p2) by (unfold node_pos; rewrite P2; auto).
  unfold depth_after. fold s r.
  destruct C as [(ED & LT)|(n3 & GT & ED & (P3 & V3 & M3))]; rewrite ED, V2, NP, EC.
  - exists [c], c. do 2 (split; [reflexivity|]). split; [simpl; lia|]. rewrite F5, F6, F7.
    destruct (Rlt_dec _ _); [lra|]. do 3 (split; auto; try lra).
  - rewrite F6, (normalised_unit v UV), F5, F7. unfold node_pos. rewrite P3.
    rewrite forced_ahead by (auto; try lra; intros x Q; injection Q as <-; auto).
    eexists _, _. do 2 (split; [reflexivity|]). split; [simpl; lia|]. cbn [k_pos_target k_vec_target k_md_target].
    destruct (Rlt_dec _ _); [|lra]. split; [|split; [auto|split; auto]].
    + unf. cbn [vz]. rewrite Z, CV. ring.
    + lra.
Qed.

Lemma gain_mono : forall inc a b, 0 <= inc < PI / 2 -> 0 <= a < PI / 2 -> 0 <= b < PI / 2 -> (inc <= a <= b \/ b <= a <= inc) ->
  Rabs (sin a - sin inc) <= Rabs (sin b - sin inc).
Proof.
  intros inc a b HI HA HB H.
  assert (MS : forall x y, 0 <= x <= y -> y < PI / 2 -> sin x <= sin y).
  { intros x y X Y. destruct (Req_dec x y) as [->|N]; [lra|]. left. apply sin_increasing_1; lra. }
  destruct H.
  - assert (sin inc <= sin a) by (apply MS; lra). assert (sin a <= sin b) by (apply MS; lra). rewrite !Rabs_right; lra.
  - assert (sin b <= sin a) by (apply MS; lra). assert (sin a <= sin inc) by (apply MS; lra). rewrite !Rabs_left1; lra.
Qed.

(** every smaller gain is met on the way *)
Lemma gain_attained : forall inc tau g, 0 <= inc < PI / 2 -> 0 <= tau < PI / 2 -> 0 <= g <= Rabs (sin tau - sin inc) ->
  exists a, 0 <= a < PI / 2 /\ (inc <= a <= tau \/ tau <= a <= inc) /\ Rabs (sin a - sin inc) = g.
Proof.
  intros inc tau g HI HT HG. pose proof PI_RGT_0.
  assert (MS : forall x y, 0 <= x <= y -> y < PI / 2 -> sin x <= sin y).
  { intros x y X Y. destruct (Req_dec x y) as [->|N]; [lra|]. left. apply sin_increasing_1; lra. }
  assert (AS : forall y lo hi, 0 <= lo <= hi -> hi < PI / 2 -> sin lo <= y <= sin hi -> lo <= asin y <= hi /\ sin (asin y) = y).
  { intros y lo hi A B C. pose proof (SIN_bound lo). pose proof (SIN_bound hi).
    pose proof (asin_bound y). assert (E : sin (asin y) = y) by (apply sin_asin; lra). split; auto.
    split; apply Rnot_lt_le; intro Q.
    - assert (sin (asin y) < sin lo) by (apply sin_increasing_1; lra). lra.
    - assert (sin hi < sin (asin y)) by (apply sin_increasing_1; lra). lra. }
  destruct (Rle_dec inc tau) as [Q|Q].
  - assert (sin inc <= sin tau) by (apply MS; lra). rewrite Rabs_right in HG by lra.
    destruct (AS (sin inc + g) inc tau) as [A1 A2]; try lra. exists (asin (sin inc + g)).
    split; [lra|]. split; [left; lra|]. rewrite A2, Rabs_right; lra.
  - assert (sin tau <= sin inc) by (apply MS; lra). rewrite Rabs_left1 in HG by lra.
    destruct (AS (sin inc - g) tau inc) as [A1 A2]; try lra. exists (asin (sin inc - g)).
    split; [lra|]. split; [right; lra|]. rewrite A2, Rabs_left1; lra.
Qed.

Lemma turn_at : forall d a inc tau, 0 < d -> 0 <= inc < PI / 2 -> 0 <= tau < PI / 2 -> 0 <= a < PI / 2 -> (inc <= a <= tau \/ tau <= a <= inc) ->
  turn_to d (dls_radius d * Rabs (a - inc)) inc tau = a - inc.
Proof.
  intros d a inc tau DP HI HT HA H. pose proof (dls_radius_pos d DP) as RP. pose proof PI_RGT_0.
  assert (E : upper d (Some (dls_radius d * Rabs (a - inc))) = Rabs (a - inc)).
  { unfold upper. replace (dls_radius d * Rabs (a - inc) / dls_radius d) with (Rabs (a - inc)) by (field; lra).
    apply Rmin_right. assert (Rabs (a - inc) < PI / 2) by (apply Rabs_def1; lra). lra. }
  unfold turn_to. rewrite E. unfold nearest_within, Rmax, Rmin, Rabs. destruct H.
  - destruct (Rcase_abs (a - inc)); [lra|]. destruct (Rle_dec (a - inc) (tau - inc)); [|lra]. destruct (Rle_dec _ _); lra.
  - destruct (Rcase_abs (a - inc)).
    + destruct (Rle_dec (- (a - inc)) (tau - inc)); [lra|]. destruct (Rle_dec _ _); lra.
    + destruct (Rle_dec (a - inc) (tau - inc)); [|]; destruct (Rle_dec _ _); lra.
Qed.

Lemma clip_between : forall D a b, 0 <= D -> a <= a + nearest_within D (b - a) <= b \/ b <= a + nearest_within D (b - a) <= a.
Proof.
  intros D a b H. unfold nearest_within, Rmax, Rmin.
  destruct (Rle_dec D (b - a)); destruct (Rle_dec _ _); (left; lra) || (right; lra) || idtac.
  destruct (Rle_dec a b); [left|right]; lra.
Qed.

(** the exact shape of the depth as a function of the length *)
Lemma depth_attained : forall d z inc tau target, 0 < d -> 0 <= inc < PI / 2 -> 0 <= tau < PI / 2 -> z < target ->
  let r := dls_radius d in let A := z + r * Rabs (sin tau - sin inc) in
  target <= A \/ A + 1 / 100000 * cos tau < target ->
  exists L, target - z <= L /\ depth_after d z inc tau L = target.
Proof.
  intros d z inc tau target DP HI HT HZ r A H. pose proof (dls_radius_pos d DP) as RP. fold r in RP. pose proof PI_RGT_0.
  destruct H as [H|H].
  - destruct (gain_attained inc tau ((target - z) / r)) as (a & HA & BT & G); auto.
    { unfold A in H. split.
      - apply Rmult_le_pos; [lra|]. left. apply Rinv_0_lt_compat. auto.
      - apply Rmult_le_reg_l with r; auto. replace (r * ((target - z) / r)) with (target - z) by (field; lra). lra. }
    exists (r * Rabs (a - inc)). split.
    + replace (target - z) with (r * Rabs (sin a - sin inc)) by (rewrite G; field; lra).
      apply Rmult_le_compat_l; [lra|]. rewrite form4. rewrite !Rabs_mult.
      pose proof (abs_sin_le ((a - inc) / 2)). pose proof (COS_bound ((a + inc) / 2)).
      rewrite (Rabs_right 2) by lra. replace (Rabs (a - inc)) with (2 * (Rabs ((a - inc) / 2) * 1)).
      2: { unfold Rdiv. rewrite Rabs_mult, (Rabs_right (/ 2)) by lra. field. }
      assert (Rabs (cos ((a + inc) / 2)) <= 1) by (apply Rabs_le; lra).
      pose proof (Rabs_pos (cos ((a + inc) / 2))). pose proof (Rabs_pos (sin ((a - inc) / 2))). nra.
    + unfold depth_after. fold r. unfold r at 2 4. unfold r. rewrite !turn_at by auto. fold r.
      replace (inc + (a - inc)) with a by ring. rewrite G.
      destruct (Rlt_dec _ _) as [Q|Q]; [exfalso; rewrite (Rmult_comm (Rabs (a - inc))) in Q; lra|]. field. lra.
  - assert (CT : 0 < cos tau <= 1) by (pose proof (COS_bound tau); split; [apply cos_gt_0; lra|lra]).
    set (x := (target - A) / cos tau). assert (XE : x * cos tau = target - A) by (unfold x; field; lra).
    assert (XG : 1 / 100000 < x) by (apply Rmult_lt_reg_r with (cos tau); lra).
    exists (r * Rabs (tau - inc) + x).
    assert (L0 : 0 <= r * Rabs (tau - inc)) by (pose proof (Rabs_pos (tau - inc)); nra).
    split.
    + assert (Rabs (sin tau - sin inc) <= Rabs (tau - inc)).
      { rewrite form4. rewrite !Rabs_mult.
        pose proof (abs_sin_le ((tau - inc) / 2)). pose proof (COS_bound ((tau + inc) / 2)).
        rewrite (Rabs_right 2) by lra. replace (Rabs (tau - inc)) with (2 * (Rabs ((tau - inc) / 2) * 1)).
        2: { unfold Rdiv. rewrite Rabs_mult, (Rabs_right (/ 2)) by lra. field. }
        assert (Rabs (cos ((tau + inc) / 2)) <= 1) by (apply Rabs_le; lra).
        pose proof (Rabs_pos (cos ((tau + inc) / 2))). pose proof (Rabs_pos (sin ((tau - inc) / 2))). nra. }
      unfold A in *. nra.
    + unfold depth_after. fold r. destruct (turn_between d (r * Rabs (tau - inc) + x) inc tau DP) as (_ & _ & T & _); auto; try lra.
      fold r in T. rewrite T by lra. replace (inc + (tau - inc)) with tau by ring.
      destruct (Rlt_dec _ _) as [Q|Q]; [|exfalso; apply Q; rewrite (Rmult_comm (Rabs (tau - inc))); lra].
      rewrite (Rmult_comm (Rabs (tau - inc))). replace (r * Rabs (tau - inc) + x - r * Rabs (tau - inc)) with x by ring. rewrite XE. unfold A. ring.
Qed.

Lemma extend_reaches : forall bump mini2 mini1 target k delta ti d p u m inc azi, finds_least mini2 -> finds_best1 mini1 ->
  0 < d -> 0 <= ti < 90 -> (forall x, delta = Some x -> 0 <= x) ->
  n_pos_nev k = Some p -> n_vec_nev k = Some u -> m = or_default (n_md k) 0 -> bears u inc azi -> 0 <= inc < PI / 2 -> vz p < target ->
  let r := dls_radius d in let tau := radians ti in let A := vz p + r * Rabs (sin tau - sin inc) in
  target <= A \/ A + 1 / 100000 * cos tau < target ->
  exists cs c, extend_to_tvd bump mini2 mini1 target (Some k) delta (Some ti) (Some d) = ExtOk cs /\
    last (map Some cs) None = Some c /\ (length cs <= 2)%nat /\ vz (k_pos_target c) = target /\
    (A + 1 / 100000 * cos tau < target -> is_unit (k_vec_target c) /\ angle_between down (k_vec_target c) tau /\
       k_md_target c = m + r * Rabs (tau - inc) + (target - A) / cos tau).
Proof.
  intros bump mini2 mini1 target k delta ti d p u m inc azi FL FB DP HT HD HP HU HM B HI HZ r tau A H.
  pose proof (dls_radius_pos d DP) as RP. fold r in RP. pose proof PI_RGT_0 as PP.
  assert (ST : starts (Some (with_md k)) p u m).
  { unfold starts. cbn [with_md n_pos_nev n_vec_nev n_md]. rewrite HP, HU. cbn. split; auto. split; auto. subst m. destruct (n_md k); auto. }
  assert (HTR : 0 <= tau < PI / 2).
  { unfold tau. split; [apply (radians_range ti); lra|]. unfold radians. nra. }
  set (dd := or_default delta (1 / 100000000)). set (lo := Rmin (target - vz p) dd).
  assert (DD : 0 <= dd) by (unfold dd; destruct delta; cbn; [auto|lra]).
  assert (LO : 0 <= lo <= target - vz p). { unfold lo. split; [apply Rmin_glb; lra|apply Rmin_l]. }
  set (f := extend_drop_misfit mini2 ti target d (with_md k)).
  assert (FV : forall y, 0 <= y -> f y = Some (Rabs (depth_after d (vz p) inc tau y - target))).
  { intros y Y. unfold f, tau. apply drop_misfit_after with (u := u) (m := m) (azi := azi); auto. }
  destruct (depth_attained d (vz p) inc tau target DP HI HTR HZ H) as (L0 & L0a & L0b).
  destruct (FB f dd lo) as (L & EL & LL & v & EV & BV).
  { intros y Y. rewrite FV by lra. discriminate. }
  { exists L0. split; [lra|]. exists 0. split.
    - rewrite FV by lra. rewrite L0b, Rminus_diag_eq, Rabs_R0 by auto. auto.
    - intros y w Y E. rewrite FV in E by lra. injection E as <-. apply Rabs_pos. }
  assert (HL : 0 <= L) by lra. rewrite FV in EV by auto. injection EV as <-.
  assert (DE : depth_after d (vz p) inc tau L = target).
  { specialize (BV L0 0). rewrite FV in BV by lra. rewrite L0b, (Rminus_diag_eq target target), Rabs_R0 in BV by auto.
    assert (Q : Rabs (depth_after d (vz p) inc tau L - target) <= 0) by (apply BV; auto; lra).
    destruct (Req_dec (depth_after d (vz p) inc tau L - target) 0) as [Z|Z]; [lra|]. apply Rabs_pos_lt in Z. lra. }
  destruct (extend_run bump mini2 mini1 target k delta ti d L p u m inc azi FL DP HL HT HP HU HM B HI EL) as (cs & c & E1 & E2 & E3 & E4 & E5 & E6 & E7).
  fold tau in E4, E6, E7. fold r in E7. rewrite DE in E4. exists cs, c. do 4 (split; auto). intros HA. split; auto.
  destruct (turn_between d L inc tau DP HL HI HTR) as (T1 & T2 & T3 & T4 & T5). fold r in T2, T3, T5.
  set (s := turn_to d L inc tau) in *.
  assert (CT : 0 < cos tau) by (apply cos_gt_0; lra).
  assert (LG : r * Rabs (tau - inc) <= L).
  { apply Rnot_lt_le. intro Q. specialize (T5 Q). unfold depth_after in DE. fold s r in DE.
    destruct (Rlt_dec _ _); [lra|]. rewrite Rplus_0_r in DE.
    assert (Rabs (sin (inc + s) - sin inc) <= Rabs (sin tau - sin inc)).
    { apply gain_mono; auto. unfold s, turn_to.
      assert (UP : 0 <= upper d (Some L)). { apply upper_ge0; auto. intros L' E. injection E as <-. auto. }
      apply clip_between. auto. }
    unfold A in HA. nra. }
  specialize (T3 LG). rewrite T3 in *. replace (inc + (tau - inc)) with tau in E6 by ring.
  split.
  - split; [lra|]. rewrite <- E6. unfold down. unf. simpl. ring.
  - unfold depth_after in DE. fold s r in DE. rewrite T3 in DE. replace (inc + (tau - inc)) with tau in DE by ring.
    rewrite E7. unfold A in HA |- *. destruct (Rlt_dec _ _).
    + assert (LE : L = r * Rabs (tau - inc) + (target - (vz p + r * Rabs (sin tau - sin inc))) / cos tau); [|lra].
      rewrite <- DE. field. lra.
    + lra.
Qed.
