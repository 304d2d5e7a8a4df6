(** drop_off and extend_to_tvd: where they misbehave. *)
Require Import Reals ZArith Bool String List Lra Lia Psatz.
Require Import Coq.Logic.ClassicalEpsilon.
Require Import Verif.Base Verif.NumPy Verif.Spec Verif.Spec_Rates Verif.M_Utils Verif.M_Connector Verif.M_Extend Verif.Spec_Extend.
Require Import Verif.P_Trig Verif.P_Utils Verif.P_Utils2 Verif.P_Survey Verif.P_Connector Verif.P_Connector3 Verif.P_Connector4 Verif.P_MaxCurve Verif.P_Rates3 Verif.P_Rates4 Verif.P_Weights3 Verif.P_Extend Verif.P_Extend2 Verif.P_Extend3 Verif.P_Extend4 Verif.P_Extend5 Verif.P_Extend6 Verif.P_Extend7.
Import ListNotations.
Open Scope R_scope.

Lemma starts_at : forall p u m, starts (Some (mkNode (Some p) None (Some u) None None None (Some m))) p u m.
Proof. intros. repeat split. Qed.
Lemma bears_at : forall inc, 0 <= inc < PI -> bears (direction_nev inc 0) inc 0.
Proof. intros. split; auto. split; [lra|]. right; auto. Qed.

(** an answer that is best is the one [preferring] gives *)
Lemma prefers : forall x ti dls d n p u m inc azi, starts n p u m -> bears u inc azi -> 0 <= ti <= 180 -> 0 <= upper dls d ->
  inside ((0, upper dls d), (- PI, PI)) x -> folded inc (signed x) (inc + nearest_within (upper dls d) (radians ti - inc)) ->
  answer (preferring x) ti dls d n = x.
Proof.
  intros x ti dls d n p u m inc azi ST B HT UP IN F. unfold answer, preferring.
  destruct (work_starts n p u m ST) as (_ & WV & _).
  assert (BW : bears (node_vec (work n)) inc azi) by (rewrite WV; auto).
  destruct (excluded_middle_informative _) as [_|N]; auto. destruct N.
  apply (best_is_nearest _ _ _ inc azi _ _ BW HT UP). auto.
Qed.

Lemma side_0 : drop_side 0 = 0.
Proof. unfold drop_side. pose proof PI_RGT_0. destruct (Rle_dec _ _); [|lra]. destruct (Rle_dec _ _); lra. Qed.
Lemma side_PI : drop_side PI = PI.
Proof. unfold drop_side. pose proof PI_RGT_0. destruct (Rle_dec _ _); [|lra]. destruct (Rle_dec _ _); lra. Qed.
Lemma signed_0 : forall t, signed (t, 0) = t.
Proof. intros. unfold signed. cbn [fst snd]. rewrite side_0. destruct (Req_EM_T 0 0); lra. Qed.
Lemma signed_PI : forall t, signed (t, PI) = - t.
Proof. intros. unfold signed. cbn [fst snd]. rewrite side_PI. pose proof PI_RGT_0. destruct (Req_EM_T PI 0); lra. Qed.
Lemma upper_none : forall dls, upper dls None = 2 * PI.
Proof. intros. unfold upper. apply Rmin_left. lra. Qed.
Lemma near_30 : nearest_within (2 * PI) (radians 0 - PI / 6) = - (PI / 6).
Proof.
  pose proof PI_RGT_0. unfold nearest_within, radians, Rmax, Rmin. destruct (Rle_dec (2 * PI) _); [lra|]. destruct (Rle_dec _ _); lra.
Qed.
Lemma cos_full : cos (PI / 6 + 11 * PI / 6) = 1.
Proof. rewrite <- cos_2PI. f_equal. field. Qed.

Definition node_30 : node := mkNode (Some vzero) None (Some (direction_nev (PI / 6) 0)) None None None (Some 0).

Lemma radius_3 : dls_radius 3 = 1800 / PI.
Proof. unfold dls_radius. pose proof PI_RGT_0. field. lra. Qed.
Lemma radius_m3 : dls_radius (-3) = - (1800 / PI).
Proof. unfold dls_radius. pose proof PI_RGT_0. field. lra. Qed.

Lemma short_answer : forall dls, answer (preferring (PI / 6, PI)) 0 dls None (Some node_30) = (PI / 6, PI).
Proof.
  intros. pose proof PI_RGT_0. eapply prefers; [apply starts_at|apply bears_at; lra|lra| | |]; rewrite ?upper_none, ?near_30; try lra.
  - unfold inside. cbn [fst snd]. lra.
  - split; [lra|]. rewrite signed_PI. f_equal.
Qed.
Lemma long_answer : forall dls, answer (preferring (11 * PI / 6, 0)) 0 dls None (Some node_30) = (11 * PI / 6, 0).
Proof.
  intros. pose proof PI_RGT_0. eapply prefers; [apply starts_at|apply bears_at; lra|lra| | |]; rewrite ?upper_none, ?near_30; try lra.
  - unfold inside. cbn [fst snd]. lra.
  - split; [lra|]. rewrite signed_0, cos_full. replace (PI / 6 + - (PI / 6)) with 0 by ring. apply cos_0.
Qed.

Lemma drop_shortest_refuted :
  exists short long k u k1 p1 v1 k2 p2 v2, finds_best short /\ finds_best long /\
    starts (Some k) vzero u 0 /\ bears u (PI / 6) 0 /\
    drop_off short 0 3 None (Some k) (1 / 100000) = DropNodes [k1] /\ describes k1 p1 v1 300 /\ angle_between down v1 0 /\
    drop_off long 0 3 None (Some k) (1 / 100000) = DropNodes [k2] /\ describes k2 p2 v2 3300 /\ angle_between down v2 0.
Proof.
  pose proof PI_RGT_0 as HP.
  exists (preferring (PI / 6, PI)), (preferring (11 * PI / 6, 0)), node_30, (direction_nev (PI / 6) 0).
  assert (B : bears (direction_nev (PI / 6) 0) (PI / 6) 0) by (apply bears_at; lra).
  assert (ST : starts (Some node_30) vzero (direction_nev (PI / 6) 0) 0) by apply starts_at.
  assert (UP : 0 <= upper 3 None) by (rewrite upper_none; lra).
  destruct (drop_off_value (preferring (PI / 6, PI)) 0 3 None (Some node_30) (1 / 100000) vzero (direction_nev (PI / 6) 0) 0 (PI / 6) 0)
    as (k1 & D1 & C1); auto; try lra.
  destruct (drop_off_value (preferring (11 * PI / 6, 0)) 0 3 None (Some node_30) (1 / 100000) vzero (direction_nev (PI / 6) 0) 0 (PI / 6) 0)
    as (k2 & D2 & C2); auto; try lra.
  rewrite short_answer in D1, C1. rewrite long_answer in D2, C2. cbn [fst snd] in *. rewrite radius_3 in *.
  destruct C1 as [(E1 & _)|(L & ? & Q & _)]; [|discriminate Q]. destruct C2 as [(E2 & _)|(L & ? & Q & _)]; [|discriminate Q].
  exists k1. eexists _, _. exists k2. eexists _, _. split; [apply preferring_best|]. split; [apply preferring_best|]. split; auto. split; auto. split; [exact E1|].
  replace (0 + PI / 6 * (1800 / PI)) with 300 in D1 by (field; lra).
  replace (0 + 11 * PI / 6 * (1800 / PI)) with 3300 in D2 by (field; lra).
  split; [exact D1|]. split; [|split; [exact E2|split; [exact D2|]]].
  - apply angle_down. rewrite signed_PI. split; [lra|]. f_equal. ring.
  - apply angle_down. rewrite signed_0, cos_full. split; [lra|]. apply cos_0.
Qed.

Lemma drop_negative_refuted :
  exists mini k u k1 p1 v1, finds_best mini /\ starts (Some k) vzero u 0 /\ bears u (PI / 6) 0 /\
    drop_off mini 0 (-3) None (Some k) (1 / 100000) = DropNodes [k1] /\ describes k1 p1 v1 (-300) /\ angle_between down v1 0.
Proof.
  pose proof PI_RGT_0 as HP.
  exists (preferring (PI / 6, PI)), node_30, (direction_nev (PI / 6) 0).
  assert (B : bears (direction_nev (PI / 6) 0) (PI / 6) 0) by (apply bears_at; lra).
  assert (ST : starts (Some node_30) vzero (direction_nev (PI / 6) 0) 0) by apply starts_at.
  assert (UP : 0 <= upper (-3) None) by (rewrite upper_none; lra).
  destruct (drop_off_value (preferring (PI / 6, PI)) 0 (-3) None (Some node_30) (1 / 100000) vzero (direction_nev (PI / 6) 0) 0 (PI / 6) 0)
    as (k1 & D1 & C1); auto; try lra.
  rewrite short_answer in D1, C1. cbn [fst snd] in *. rewrite radius_m3 in *.
  destruct C1 as [(E1 & _)|(L & ? & Q & _)]; [|discriminate Q].
  exists k1. eexists _, _. split; [apply preferring_best|]. split; auto. split; auto. split; [exact E1|].
  replace (0 + PI / 6 * - (1800 / PI)) with (-300) in D1 by (field; lra).
  split; [exact D1|]. apply angle_down. rewrite signed_PI. split; [lra|]. f_equal. ring.
Qed.

Lemma extend_max_length_refuted : forall bump mini2,
  exists mini1 k c, finds_best1 mini1 /\ starts (Some k) vzero down 0 /\
    extend_to_tvd bump mini2 mini1 1000 (Some k) (Some 10) None (Some 3) = ExtOk [c] /\ k_md1 c = 0 /\ k_md_target c = 1000.
Proof.
  intros. exists (preferring1 0). set (k := mkNode (Some vzero) None (Some down) None None None (Some 0)).
  destruct (extend_straight bump mini2 (preferring1 0) 1000 k (Some 10) (Some 3) vzero down 0) as (H & _); auto.
  - apply preferring1_best.
  - unfold is_unit, down. unf. simpl. ring.
  - unfold down. simpl. lra.
  - intros d E. injection E as <-. lra.
  - destruct H as (c & E & _ & _ & _ & M1 & _ & _ & _ & M2).
    { unfold down. simpl. lra. }
    exists k, c. split; [apply preferring1_best|]. split; [repeat split|]. split; [exact E|]. split; auto. rewrite M2. unfold down. simpl. lra.
Qed.

(** a straight connection towards a point that is not ahead does not move *)
Lemma forced_aside : forall bump p u m d q, is_unit u -> 0 < d ->
  (forall w, normalised (vsub q p) = Some w -> ~ 99999 / 100000 * Rabs (vx w) <= 1 / 100000000 + Rabs (vx u)) ->
  exists c, connector bump (forced_args p (Some u) m (Some d) q None) = inl c /\
    k_pos1 c = p /\ k_vec1 c = u /\ k_md1 c = m /\
    k_method c = MinCurve /\ k_pos_target c = p /\ k_vec_target c = u /\ k_md_target c = m.
Proof.
  intros bump p u m d q U HD W.
  set (a := forced_args p (Some u) m (Some d) q None).
  assert (SV : start_vec a = u) by reflexivity.
  assert (TV : target_vec a = u).
  { unfold target_vec. assert (E : target_vec0 a = u) by reflexivity. rewrite E, SV.
    destruct (v3_eq_dec u (vneg u)) as [Z|_]; auto. destruct (unit_not_opposite u U Z). }
  assert (CK : check_args a = None).
  { apply forced_check. intros x E. injection E as <-. auto. }
  assert (GM : get_method a = inl "min_curve"%string).
  { unfold get_method. change (initial_method a) with (Some "min_curve_or_hold"%string).
    cbn [String.eqb Ascii.eqb Bool.eqb orb]. change (ends_or_hold "min_curve_or_hold") with true. cbv iota.
    rewrite TV, SV. destruct (v3_eq_dec u u); [|tauto]. change (a_pos2 a) with (Some q). change (a_pos1 a) with p. cbv iota.
    destruct (normalised (vsub q p)) as [w|] eqn:EW; [|reflexivity].
    destruct (allclose_dec u w) as [AC|_]; [|reflexivity]. destruct (W w eq_refl).
    destruct AC as (AC & _). unfold close, rtol, atol in AC.
    pose proof (Rabs_triang_inv (vx w) (vx u)) as TI. rewrite Rabs_minus_sym in TI. lra. }
  unfold connector. rewrite CK, GM. cbn [String.eqb Ascii.eqb Bool.eqb]. unfold do_min_curve.
  assert (TA : target_angles' a = start_angles a).
  { unfold target_angles'. assert (E : target_vec0 a = u) by reflexivity. rewrite E, SV.
    destruct (v3_eq_dec u (vneg u)) as [Z|_]; [destruct (unit_not_opposite u U Z)|].
    unfold target_angles, start_angles, a, forced_args; cbn; auto; destruct (get_angles true u); auto. }
  rewrite TA. pose proof (start_angles_dir a CK) as SD. rewrite SV in SD. specialize (SD U).
  destruct (start_angles a) as [i1 z1]. cbn [fst snd] in SD. change (a_md2 a) with (@None R). cbv iota.
  unfold a at 1. rewrite forced_radius by auto.
  assert (DG : check_dogleg (get_dogleg i1 z1 i1 z1) = 0).
  { pose proof (dogleg_angle i1 z1 i1 z1) as DA. rewrite SD in DA.
    assert (Z : angle_between u u 0). { split; [pose proof PI_RGT_0; lra|]. rewrite cos_0. symmetry. exact U. }
    rewrite <- (angle_between_unique _ _ _ _ Z DA). unfold check_dogleg. destruct (Rlt_dec 0 0); lra. }
  rewrite DG. cbv zeta. unfold get_curve_hold_data. eexists. split; [reflexivity|]. cbn [k_pos1 k_vec1 k_md1 k_method k_pos_target k_vec_target k_md_target].
  rewrite TV. change (a_pos1 a) with p. change (a_md1 a) with m. change (start_vec a) with u. do 4 (split; auto).
  rewrite !Rmult_0_r. rewrite Rabs_R0. split; [|split; auto; ring].
  unfold get_pos. destruct p, u. unf. apply V3_eq; simpl; unfold Rdiv; ring.
Qed.

Lemma long_answer_some : forall L, dls_radius 3 * (2 * PI) <= L -> answer (preferring (11 * PI / 6, 0)) 0 3 (Some L) (Some node_30) = (11 * PI / 6, 0).
Proof.
  intros L HL. pose proof PI_RGT_0. assert (0 < dls_radius 3) by (apply dls_radius_pos; lra).
  assert (UE : upper 3 (Some L) = 2 * PI).
  { unfold upper. apply Rmin_left. apply Rmult_le_reg_l with (dls_radius 3); auto.
    replace (dls_radius 3 * (L / dls_radius 3)) with L by (field; lra). auto. }
  eapply prefers; [apply starts_at|apply bears_at; lra|lra| | |]; rewrite ?UE, ?near_30; try lra.
  - unfold inside. cbn [fst snd]. lra.
  - split; [lra|]. rewrite signed_0, cos_full. replace (PI / 6 + - (PI / 6)) with 0 by ring. apply cos_0.
Qed.
Lemma trig_11 : cos (11 * PI / 6) = sqrt 3 / 2 /\ sin (11 * PI / 6) = - (1 / 2).
Proof.
  replace (11 * PI / 6) with (- (PI / 6) + 2 * PI) by field. rewrite cos_plus, sin_plus, cos_2PI, sin_2PI, cos_neg, sin_neg, cos_PI6, sin_PI6. lra.
Qed.
Lemma down_full : direction_nev (PI / 6 + 11 * PI / 6) 0 = down.
Proof.
  unfold direction_nev, down. rewrite cos_full. replace (sin (PI / 6 + 11 * PI / 6)) with 0.
  - apply V3_eq; simpl; ring.
  - rewrite <- sin_2PI. f_equal. field.
Qed.

Lemma extend_over_half_turn_refuted : forall bump,
  exists mini2 mini1 k u target c1 c2, finds_best mini2 /\ finds_best1 mini1 /\ starts (Some k) vzero u 0 /\ bears u (PI / 6) 0 /\ 0 < target /\ extend_to_tvd bump mini2 mini1 target (Some k) None (Some 0) (Some 3) = ExtOk [c1; c2] /\ vz (k_pos_target c2) = target / 2.
Proof.
  intros bump. pose proof PI_RGT_0 as HP. pose proof PI_4 as P4.
  set (r := dls_radius 3). assert (RP : 0 < r) by (apply dls_radius_pos; lra).
  set (L := 11 * PI / 6 * r + 3 / 2 * r). set (mini2 := preferring (11 * PI / 6, 0)).
  set (u := direction_nev (PI / 6) 0). destruct trig_11 as [TC TS].
  assert (RG : 1 < r) by (unfold r; rewrite radius_3; apply Rmult_lt_reg_l with PI; auto; replace (PI * (1800 / PI)) with 1800 by (field; lra); lra).
  assert (LB : r * (2 * PI) <= L) by (unfold L; nra).
  assert (B : bears u (PI / 6) 0) by (apply bears_at; lra).
  assert (ST : starts (Some node_30) vzero u 0) by apply starts_at.
  assert (S3 : sqrt 3 * sqrt 3 = 3) by (apply sqrt_sqrt; lra).
  assert (S3b : 0 <= sqrt 3) by apply sqrt_pos. assert (S3c : 17 / 10 < sqrt 3 < 18 / 10) by nra.
  assert (UP : 0 <= upper 3 (Some L)). { apply upper_ge0; [lra|]. intros L' E. injection E as <-. unfold L. nra. }
  destruct (drop_off_value mini2 0 3 (Some L) (Some node_30) (1 / 100000) vzero u 0 (PI / 6) 0) as (k2 & D2 & C2); auto; try lra.
  unfold mini2 in C2, D2. rewrite long_answer_some in C2, D2 by auto. fold mini2 in C2. cbn [fst snd] in C2, D2. fold r in C2, D2.
  rewrite signed_0, down_full in C2, D2.
  set (p2 := arc_point vzero u (toolface_dir (PI / 6) 0 (drop_side 0)) r (11 * PI / 6)) in *.
  assert (P2 : p2 = mkV (r * (sqrt 3 / 2 - 1)) 0 (- (r / 2))).
  { unfold p2, u, arc_point, toolface_dir, high_side, right_side, direction_nev. rewrite side_0, TC, TS, cos_PI6, sin_PI6, sin_0, cos_0.
    unf. apply V3_eq; simpl; nra. }
  destruct C2 as [(_ & Q)|(L' & k3 & Q & GT & ED & D3)].
  { exfalso. specialize (Q L eq_refl). unfold L in Q. nra. }
  injection Q as <-. replace (L - 11 * PI / 6 * r) with (3 / 2 * r) in * by (unfold L; ring).
  destruct D2 as (PP2 & VV2 & MM2), D3 as (PP3 & VV3 & MM3).
  exists mini2, (preferring1 L), node_30, u, r.
  set (f := extend_drop_misfit mini2 0 r 3 (with_md node_30)).
  assert (NW : with_md node_30 = node_30) by reflexivity.
  assert (FL : f L = Some 0).
  { unfold f, extend_drop_misfit. rewrite NW, ED. unfold last_tvd. cbn [map last]. rewrite PP3. cbn [option_map]. f_equal.
    rewrite P2. unfold down. unf. cbn [vz]. replace (- (r / 2) + 3 / 2 * r * 1 - r) with 0 by field. apply Rabs_R0. }
  assert (A1 : preferring1 L f (1 / 100000000) (Rmin (r - 0) (1 / 100000000)) = Some L).
  { unfold preferring1. destruct (excluded_middle_informative _) as [_|N]; auto. destruct N. split.
    - eapply Rle_trans; [apply Rmin_r|]. unfold L. nra.
    - exists 0. split; auto. intros y w _ E. unfold f, extend_drop_misfit in E. destruct (drop_off mini2 0 3 (Some y) (Some (with_md node_30)) (1 / 100000)) as [| |nl]; try discriminate E.
      cbn [option_map] in E. destruct (last_tvd nl); cbn [option_map] in E; [|discriminate E]. injection E as <-. apply Rabs_pos. }
  set (p1 := mkV (r * (1 - sqrt 3 / 2)) 0 (r / 2)).
  assert (U : is_unit u) by apply direction_unit.
  destruct (forced_curve bump vzero u 0 3 p2 down (PI / 6) p1) as (c1 & EC1 & F1 & F2 & F3 & F4 & F5 & F6 & F7); auto; try lra.
  { destruct (toolface_spec (PI / 6) 0 PI) as [T1 T2]. exists (toolface_dir (PI / 6) 0 PI), (dls_radius 3). fold r. fold u in T2.
    do 3 (split; auto). split.
    - unfold p1, u, arc_point, toolface_dir, high_side, right_side, direction_nev. rewrite cos_PI6, sin_PI6, sin_0, cos_0, sin_PI, cos_PI.
      unf. apply V3_eq; simpl; nra.
    - unfold u. rewrite toolface_down. replace (PI / 6 - PI / 6) with 0 by ring. unfold direction_nev, down. rewrite sin_0, cos_0.
      apply V3_eq; simpl; ring. }
  set (q := vadd p2 (vscale (3 / 2 * r) down)) in *.
  assert (DU : is_unit down) by (unfold is_unit, down; unf; simpl; ring).
  destruct (forced_aside bump p1 down (k_md_target c1) 3 q) as (c2 & EC2 & G1 & G2 & G3 & G4 & G5 & G6 & G7); auto; try lra.
  { intros w EW. unfold normalised in EW. destruct (Req_EM_T (norm (vsub q p1)) 0) as [|NZ]; [discriminate|]. injection EW as <-.
    set (nn := norm (vsub q p1)) in *. assert (NP : 0 < nn) by (pose proof (sqrt_pos (dot (vsub q p1) (vsub q p1))) as SP; fold (norm (vsub q p1)) in SP; fold nn in SP; lra).
    assert (QE : vsub q p1 = mkV (- (r * (2 - sqrt 3))) 0 (r / 2)).
    { unfold q, p1. rewrite P2. unfold down. unf. apply V3_eq; simpl; field. }
    assert (NS : nn * nn = (r * (2 - sqrt 3)) * (r * (2 - sqrt 3)) + r / 2 * (r / 2)).
    { unfold nn, norm. rewrite sqrt_sqrt by apply dot_self_ge0. rewrite QE. unf. simpl. ring. }
    assert (NB : nn <= r) by nra.
    assert (VX : vx (vscale (/ nn) (vsub q p1)) = - (r * (2 - sqrt 3) / nn)) by (rewrite QE; unf; cbn [vx]; unfold Rdiv; ring).
    unfold vunit. fold nn. rewrite VX. rewrite Rabs_Ropp, Rabs_right.
    2: { apply Rle_ge. apply Rmult_le_pos; [nra|]. left. apply Rinv_0_lt_compat. auto. }
    replace (vx down) with 0 by reflexivity. rewrite Rabs_R0. apply Rlt_not_le.
    assert (2 / 10 <= r * (2 - sqrt 3) / nn); [|lra].
    apply Rmult_le_reg_r with nn; auto. replace (r * (2 - sqrt 3) / nn * nn) with (r * (2 - sqrt 3)) by (field; lra). nra. }
  exists c1, c2. split; [apply preferring_best|]. split; [apply preferring1_best|]. split; auto. split; auto. split; auto. split.
  - unfold extend_to_tvd. cbv zeta. rewrite NW. change (n_pos_nev node_30) with (Some vzero). change (n_vec_nev node_30) with (Some u). cbv iota.
    change (vz vzero) with 0. change (extend_drop_misfit mini2 0 r 3 node_30) with f. rewrite A1, ED.
    unfold node_pos. rewrite PP2, PP3, VV2. change (md_of node_30) with 0. rewrite EC1, F6, (normalised_unit down DU), F5, EC2. reflexivity.
  - rewrite G5. reflexivity.
Qed.
