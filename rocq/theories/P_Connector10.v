(** Curve-hold-curve: interpolation, moved end points, examples; the batch solver. *)
Require Import Reals ZArith Bool String List Sorted Lra Lia Psatz.
Require Import Verif.Base Verif.NumPy Verif.P_Trig Verif.Spec Verif.M_Utils Verif.P_Utils
  Verif.M_Survey Verif.M_Torque Verif.M_Clearance Verif.M_Connector Verif.M_Connector2 Verif.Spec_Connector
  Verif.Spec_Connector2 Verif.Spec_Connector3
  Verif.P_Connector Verif.P_Connector2 Verif.P_Connector6 Verif.P_Connector7 Verif.P_Connector9.
Import ListNotations.
Open Scope R_scope.

(** ** interpolation *)
Lemma curve_weak_abs : forall md1 v1 v2 dc dl s (e : bool), 0 < s ->
  wgrid s md1 (md1 + Rabs dc) (if e then [md1; md1 + Rabs dc] else [md1])
    (map fst (interpolate_curve md1 v1 v2 dc dl (Some s) e)).
Proof.
  intros md1 v1 v2 dc dl s e Hs. destruct (Req_dec dc 0) as [->|N].
  - rewrite Rabs_R0. apply curve_weak; lra.
  - rewrite curve_depths by auto. apply offsets_weak; auto. apply Rabs_pos.
Qed.
Lemma wgrid_gap : forall s a b marks l, 0 < s -> In b marks -> (forall x, In x marks -> a <= x) ->
  wgrid s a b marks l -> no_gap_over s b l.
Proof.
  intros s a b marks l Hs Ib La (_ & M) x I L. destruct (next_multiple s x Hs) as (K & B).
  assert (a <= x). { apply M in I. destruct I as [I|I]; [auto|lra]. }
  destruct (Rlt_dec (x + (s - rmod x s)) b) as [Q|Q].
  - exists (x + (s - rmod x s)). split; [|lra]. apply M. right. split; [lra|auto].
  - exists b. split; [apply M; auto|lra].
Qed.
Theorem chc_interpolation : forall solve k s s' step, keeps_inputs solve ->
  is_unit (p_vec1 (s_prob s)) -> is_unit (s_vtarget s) -> 0 <= p_min_error (s_prob s) ->
  finish_curve_hold_curve solve k s = Some s' -> 0 < step ->
  let g := s_geo s' in
  let l := map fst (interpolate_chc (p_md1 (s_prob s)) (p_vec1 (s_prob s)) (s_vtarget s) g (Some step)) in
  (forall x, In x l <-> In x [p_md1 (s_prob s); g_md2 g; g_md3 g; g_md_target g] \/
     (p_md1 (s_prob s) < x < g_md_target g /\ multiple step x)) /\
  StronglySorted Rle l /\ no_gap_over step (g_md_target g) l.
Proof.
  intros solve k s s' step K U1 U2 E H Hs g l.
  pose proof (chc_path solve k s s' K U1 U2 E H) as (_ & _ & _ & M2 & MT & _).
  assert (KD : keeps_start_depth solve).
  { intros k0 r1 r2 seed x. destruct (K k0 r1 r2 seed x) as (-> & _). reflexivity. }
  destruct (chc_depths solve k s s' KD U1 U2 E H) as (O1 & O2 & O3). fold g in M2, MT, O1, O2, O3.
  set (m := p_md1 (s_prob s)) in *.
  assert (W : wgrid step m (g_md_target g) ([m] ++ [g_md2 g] ++ [g_md3 g; g_md_target g]) l).
  { unfold l, interpolate_chc. rewrite !map_app.
    pose proof (curve_weak_abs m (p_vec1 (s_prob s)) (g_vec2 g) (g_dist_curve g) (g_dogleg g) step false Hs) as W1.
    pose proof (hold_weak (g_md2 g) (g_vec2 g) (g_md3 g) step false Hs O2) as W2.
    pose proof (curve_weak_abs (g_md3 g) (g_vec3 g) (s_vtarget s) (g_dist_curve2 g) (g_dogleg2 g) step true Hs) as W3.
    rewrite <- M2 in W1. rewrite <- MT in W3.
    eapply wgrid_app with (b := g_md2 g); [lra|exact W1| | | |].
    - eapply wgrid_app with (b := g_md3 g); [lra|exact W2|exact W3| | |]; cbn.
      + auto.
      + intros x [<-|[]]. lra.
      + intros x [<-|[<-|[]]]; lra.
    - cbn. auto.
    - cbn. intros x [<-|[]]. lra.
    - cbn. intros x [<-|[<-|[<-|[]]]]; lra. }
  split; [exact (proj2 W)|]. split; [exact (proj1 W)|].
  eapply wgrid_gap; [exact Hs| | |exact W]; cbn.
  - auto.
  - intros x [<-|[<-|[<-|[<-|[]]]]]; lra.
Qed.

(** ** the solver may move the ends *)
Theorem ends_moved : forall b1 b2 pos1 v1 tg vt, is_unit v1 -> is_unit vt ->
  let '(pos1', tg') := first_lookups b1 b2 pos1 v1 tg vt in
  tg' = (if v3_eq_dec (vsub tg pos1) (vscale (norm (vsub tg pos1)) v1) then
           if v3_eq_dec tg pos1 then tg else vadd tg b1
         else tg) /\
  pos1' = (if v3_eq_dec (vsub tg' pos1) (vscale (norm (vsub tg' pos1)) vt) then
             if v3_eq_dec tg' pos1 then pos1 else vadd pos1 b2
           else pos1).
Proof.
  assert (G : forall b p u q, is_unit u -> fst (get_distances b p u q) =
    (if v3_eq_dec (vsub q p) (vscale (norm (vsub q p)) u) then if v3_eq_dec q p then q else vadd q b else q)).
  { intros b p u q U. unfold get_distances. cbn [fst]. unfold normalised.
    destruct (Req_EM_T (norm (vsub q p)) 0) as [Z|N].
    - apply norm_eq0 in Z. assert (q = p).
      { replace q with (vadd p (vsub q p)) by vring. rewrite Z. vring. }
      destruct (v3_eq_dec (vsub q p) _); [|auto]. destruct (v3_eq_dec q p); [auto|contradiction].
    - assert (NP : q <> p) by (intro Z; apply N; rewrite Z, vsub_self; apply norm_vzero).
      destruct (v3_eq_dec u (vunit (vsub q p))) as [A|A], (v3_eq_dec (vsub q p) (vscale (norm (vsub q p)) u)) as [B|B];
        destruct (v3_eq_dec q p); try contradiction; auto.
      + exfalso. apply B. rewrite A at 1. unfold vunit. rewrite vscale_vscale, Rinv_r, vscale_1 by auto. reflexivity.
      + exfalso. apply A. unfold vunit. rewrite B at 2. rewrite vscale_vscale, Rinv_l, vscale_1 by auto. reflexivity. }
  intros b1 b2 pos1 v1 tg vt U1 U2. unfold first_lookups. cbv zeta. split.
  - apply G; auto.
  - rewrite G by (unfold is_unit in *; rewrite dot_vneg_l, dot_vneg_r; lra).
    set (tg' := fst (get_distances b1 pos1 v1 tg)). clearbody tg'.
    replace (norm (vsub pos1 tg')) with (norm (vsub tg' pos1)).
    2: { rewrite <- norm_vneg. f_equal. vring. }
    set (w := vscale (norm (vsub tg' pos1)) vt).
    replace (vscale (norm (vsub tg' pos1)) (vneg vt)) with (vneg w) by (unfold w; vring). clearbody w.
    destruct (v3_eq_dec (vsub pos1 tg') (vneg w)) as [A|A], (v3_eq_dec (vsub tg' pos1) w) as [B|B];
      destruct (v3_eq_dec pos1 tg') as [C|C], (v3_eq_dec tg' pos1) as [D|D]; auto; try congruence; exfalso.
    + apply B. replace w with (vneg (vneg w)) by vring. rewrite <- A. vring.
    + apply A. rewrite <- B. vring.
Qed.
(** a target dead ahead along its own heading *)
Lemma start_moved_refuted : exists b1 b2 pos1 v1 tg vt, is_unit v1 /\ is_unit vt /\ v1 <> vt /\
  vx b2 <> 0 /\ fst (first_lookups b1 b2 pos1 v1 tg vt) <> pos1 /\ snd (first_lookups b1 b2 pos1 v1 tg vt) = tg.
Proof.
  exists vzero, (mkV (1/2) (1/2) (1/2)), vzero, (mkV 1 0 0), (mkV 0 0 1000), (mkV 0 0 1).
  assert (U1 : is_unit (mkV 1 0 0)) by (unfold is_unit, dot; cbn; ring).
  assert (U2 : is_unit (mkV 0 0 1)) by (unfold is_unit, dot; cbn; ring).
  split; [auto|]. split; [auto|]. split; [intro Z; injection Z; lra|]. split; [cbn; lra|].
  pose proof (ends_moved vzero (mkV (1/2) (1/2) (1/2)) vzero (mkV 1 0 0) (mkV 0 0 1000) (mkV 0 0 1) U1 U2) as H.
  destruct (first_lookups _ _ _ _ _ _) as [p' t']. destruct H as [Ht Hp]. cbn [fst snd].
  assert (N : norm (vsub (mkV 0 0 1000) vzero) = 1000) by (apply norm_from_sqr; [lra|unfold dot; cbn; ring]).
  assert (T : t' = mkV 0 0 1000).
  { rewrite Ht. destruct (v3_eq_dec _ _) as [Z|Z]; [|auto]. exfalso. rewrite N in Z. apply (f_equal vx) in Z. cbn in Z. lra. }
  split; [|auto]. rewrite T, N in Hp.
  destruct (v3_eq_dec (vsub (mkV 0 0 1000) vzero) (vscale 1000 (mkV 0 0 1))) as [_|Z].
  - destruct (v3_eq_dec (mkV 0 0 1000) vzero) as [Z|_]; [apply (f_equal vz) in Z; cbn in Z; lra|].
    rewrite Hp. intro Z. apply (f_equal vx) in Z. cbn in Z. lra.
  - exfalso. apply Z. apply V3_eq; cbn; ring.
Qed.
(** and the rescue may then end farther from the target *)
Definition nudging (bump : V3) : solver := fun _ _ _ _ s =>
  mkChc (s_prob s) (fst (get_distances bump (p_pos1 (s_prob s)) (p_vec1 (s_prob s)) (s_target s))) (s_vtarget s)
    (s_geo s) (s_work s).
Definition ahead_state : chc :=
  mkChc (mkProblem vzero (mkV 0 0 1) 0 None None (1 / 100000)) (mkV 0 0 100) (mkV 1 0 0)
    (mkGeo vzero vzero (mkV 0 0 1) (mkV 0 0 1) 0 0 1 1 0 0 0 0 0) (mkWork None None None None 0).
Definition at_target (tg : V3) : chc :=
  mkChc (s_prob ahead_state) tg (s_vtarget ahead_state) (s_geo ahead_state) (s_work ahead_state).
Lemma nudge_once : forall b, fst (get_distances b vzero (mkV 0 0 1) (mkV 0 0 100)) = vadd (mkV 0 0 100) b.
Proof.
  intro b. unfold get_distances. cbn [fst]. unfold normalised.
  assert (N : norm (vsub (mkV 0 0 100) vzero) = 100) by (apply norm_from_sqr; [lra|unfold dot; cbn; ring]).
  rewrite N. destruct (Req_EM_T 100 0); [lra|]. destruct (v3_eq_dec _ _) as [|Z]; [auto|].
  exfalso. apply Z. unfold vunit. rewrite N. apply V3_eq; cbn; field.
Qed.
Lemma nudge_not : fst (get_distances (mkV (1/2) (1/2) (1/2)) vzero (mkV 0 0 1) (vadd (mkV 0 0 100) (mkV (1/2) (1/2) (1/2)))) =
  vadd (mkV 0 0 100) (mkV (1/2) (1/2) (1/2)).
Proof.
  unfold get_distances. cbn [fst]. unfold normalised. destruct (Req_EM_T _ 0); [auto|].
  destruct (v3_eq_dec _ _) as [Z|]; [|auto]. exfalso. apply (f_equal vx) in Z. unfold vunit in Z. cbn in Z.
  assert (/ norm (vsub (vadd (mkV 0 0 100) (mkV (1/2) (1/2) (1/2))) vzero) <> 0) by (apply Rinv_neq_0_compat; auto).
  unfold vsub, vadd in *. cbn in *. nra.
Qed.
Theorem moving_target_refuted : exists solve s,
  (forall k r1 r2 seed t, s_prob (solve k r1 r2 seed t) = s_prob t /\ s_vtarget (solve k r1 r2 seed t) = s_vtarget t) /\
  error_of s < error_of (endpoint_rescue solve 0 s).
Proof.
  exists (nudging (mkV (1/2) (1/2) (1/2))), ahead_state. split; [intros; split; reflexivity|].
  assert (E0 : error_of ahead_state = 100).
  { unfold error_of, rendered_error, ahead_state. cbn. apply norm_from_sqr; [lra|]. rewrite Rmax_left by (unfold dot; cbn; lra). unfold dot. cbn. field. }
  unfold endpoint_rescue. rewrite E0. destruct (Rle_dec 100 (1 / 1000)); [lra|].
  assert (ST : forall more k tg, rescue_loop (nudging (mkV (1/2) (1/2) (1/2))) k more 100 (s_geo ahead_state) (at_target tg) =
    at_target (fold_left (fun t _ => fst (get_distances (mkV (1/2) (1/2) (1/2)) vzero (mkV 0 0 1) t)) more tg)).
  { intros more. induction more as [|f more IH]; intros k tg; [reflexivity|].
    cbn [fold_left]. rewrite <- (IH (S k)). reflexivity. }
  assert (RL : rescue_loop (nudging (mkV (1/2) (1/2) (1/2))) 0 [1 / 2; 1 / 4; 1 / 8] 100 (s_geo ahead_state) ahead_state =
    at_target (vadd (mkV 0 0 100) (mkV (1/2) (1/2) (1/2)))).
  { change ahead_state with (at_target (mkV 0 0 100)) at 2. rewrite ST. cbn [fold_left].
    rewrite nudge_once, !nudge_not. reflexivity. }
  rewrite RL. unfold error_of, rendered_error, ahead_state. cbn -[norm].
  rewrite Rmax_left by (unfold dot; cbn; lra).
  apply Rlt_le_trans with (sqrt (100 * 100 + 100)); [rewrite <- (sqrt_square 100) at 1 by lra; apply sqrt_lt_1; lra|].
  unfold norm. apply sqrt_le_1_alt. unfold dot. cbn. lra.
Qed.

(** ** an example *)
Definition bend_state (y : R) : chc :=
  mkChc (mkProblem vzero (mkV 0 0 1) 0 (Some 100) (Some 100) (1 / 100000)) (mkV 100 y 200) (mkV 1 0 0)
    (mkGeo vzero vzero (mkV 0 0 1) (mkV 0 0 1) 0 0 1 1 0 0 0 0 0) (mkWork None None (Some 100) (Some 100) 0).
Lemma bend_finish : forall y, exists g, happy_finish (bend_state y) = Some g /\ error_of (set_geo (bend_state y) g) = Rabs y /\
  g_md3 g - g_md2 g = 100 /\ g_dist_curve2 g = 50 * PI.
Proof.
  intro y.
  assert (A1 : clipped_angle (mkV 0 0 1) (mkV 0 0 1) = 0).
  { unfold clipped_angle. replace (dot _ _) with 1 by (unfold dot; cbn; ring). rewrite Rmin_left, Rmax_right by lra. apply acos_1. }
  assert (A2 : clipped_angle (mkV 0 0 1) (mkV 1 0 0) = PI / 2).
  { unfold clipped_angle. replace (dot _ _) with 0 by (unfold dot; cbn; ring). rewrite Rmin_left, Rmax_right by lra. apply acos_0. }
  pose proof PI_RGT_0 as PP.
  assert (RF : get_rf (PI / 2) = 4 / PI).
  { unfold get_rf. destruct (Req_EM_T (PI / 2) 0); [lra|]. replace (PI / 2 / 2) with (PI / 4) by field. rewrite tan_PI4. field. lra. }
  unfold happy_finish, bend_state. cbn [s_prob s_geo s_work p_rd w_distances1 w_rc final_radius rmin_inf g_dogleg get_curve_hold_data
    p_pos1 p_vec1 g_pos3 w_tangent s_vtarget s_target p_rd2 w_distances2 w_rc2 p_md1 p_min_error].
  rewrite Rmin_left by lra. unfold get_vec_target. destruct (Req_EM_T (100 * 0) 0) as [_|]; [|lra].
  rewrite A1, A2, Rminus_diag_eq, Rabs_R0 by auto. destruct (Rlt_dec (1 / 1000000000) 0); [lra|].
  rewrite RF. unfold get_pos at 1 2. rewrite Rmult_0_r, Rmult_0_l.
  replace (vadd vzero (vscale (0 / 2) (vadd (mkV 0 0 1) (mkV 0 0 1)))) with vzero by (apply V3_eq; cbn; field).
  rewrite Rabs_R0.
  assert (CP : close_path vzero (mkV 0 0 1) (mkV 100 y 200) (mkV 1 0 0) (100 * (PI / 2)) (4 / PI) = (100, 50 * PI, mkV 0 0 100)).
  { assert (BT : get_pos (mkV 100 y 200) (vneg (mkV 1 0 0)) (vneg (mkV 0 0 1)) (100 * (PI / 2)) (4 / PI) = mkV 0 y 100).
    { unfold get_pos. replace (100 * (PI / 2) * (4 / PI) / 2) with 100 by (field; lra). apply V3_eq; cbn; ring. }
    assert (FB : (Rmax 0 100, 100 * (PI / 2), vadd vzero (vscale (Rmax 0 100) (mkV 0 0 1))) = (100, 50 * PI, mkV 0 0 100)).
    { rewrite Rmax_right by lra. f_equal; [f_equal; field|apply V3_eq; cbn; ring]. }
    unfold close_path. rewrite BT. replace (dot (vsub (mkV 0 y 100) vzero) (mkV 0 0 1)) with 100 by (unfold dot; cbn; ring).
    cbv zeta. destruct (Rlt_dec (1 / 1000) _); [|exact FB].
    replace (dot (mkV 0 0 1) (mkV 1 0 0)) with 0 by (unfold dot; cbn; ring).
    destruct (Rlt_dec (1 / 1000000) (1 - 0 * 0)); [|exact FB].
    destruct (Rlt_dec _ (Rabs (4 / PI))); [|exact FB].
    replace (dot (vsub (mkV 100 y 200) vzero) (mkV 0 0 1)) with 200 by (unfold dot; cbn; ring).
    replace (dot (vsub (mkV 100 y 200) vzero) (mkV 1 0 0)) with 100 by (unfold dot; cbn; ring).
    replace ((100 - 0 * 200) / (1 - 0 * 0)) with 100 by field.
    replace ((200 - 0 * 100) / (1 - 0 * 0)) with 200 by field.
    destruct (Rle_dec 0 100); [|lra].
    replace (2 * 100 / (4 / PI)) with (50 * PI) by (field; lra).
    rewrite !Rmax_right by lra. replace (200 - 100) with 100 by ring.
    f_equal. apply V3_eq; cbn; ring. }
  rewrite CP. eexists. split; [reflexivity|]. cbn. split; [|split; [ring|reflexivity]].
  unfold error_of, rendered_error. cbn [s_target s_vtarget s_geo set_geo g_pos3 g_pos2 g_vec3 g_dist_curve2 g_func2].
  replace (dot (vsub (mkV 0 0 100) vzero) (mkV 0 0 1)) with 100 by (unfold dot; cbn; ring). rewrite Rmax_right by lra.
  replace (50 * PI * (4 / PI) / 2) with 100 by (field; lra).
  apply norm_from_sqr; [apply Rabs_pos|]. rewrite <- Rabs_mult, Rabs_pos_eq by nra. unfold dot. cbn. ring.
Qed.
Definition still : solver := fun _ _ _ _ s => s.
Lemma still_keeps : keeps_inputs still.
Proof. intros k r1 r2 seed s. repeat split. Qed.
Lemma bend_hypotheses : is_unit (p_vec1 (s_prob (bend_state 5))) /\ is_unit (s_vtarget (bend_state 5)) /\
  0 <= p_min_error (s_prob (bend_state 5)) /\ keeps_inputs still /\
  exists g s', happy_finish (bend_state 5) = Some g /\ error_of (set_geo (bend_state 5) g) = 5 /\
    finish_curve_hold_curve still 0 (bend_state 5) = Some s'.
Proof.
  split; [unfold is_unit, dot; cbn; ring|]. split; [unfold is_unit, dot; cbn; ring|]. split; [cbn; lra|]. split; [apply still_keeps|].
  destruct (bend_finish 5) as (g & H & E & _). exists g. unfold finish_curve_hold_curve. rewrite H.
  eexists. split; [reflexivity|]. split; [|reflexivity]. rewrite E. apply Rabs_pos_eq. lra.
Qed.

(** ** the batch solver *)
Lemma batch_distances : forall p u q, is_unit u ->
  (norm (vsub q p), Rmin (dot (vsub q p) u) (norm (vsub q p)),
   sqrt (Rmax 0 (norm (vsub q p) ^ 2 - Rmin (dot (vsub q p) u) (norm (vsub q p)) ^ 2))) =
  (norm (vsub q p), ahead p u q, off_axis p u q).
Proof.
  intros p u q U. fold (ahead p u q). pose proof (ahead_le p u q U) as A. rewrite Rmin_left by auto.
  f_equal. pose proof (frame_sqr p u q U) as F. pose proof (off_axis_ge0 p u q) as G.
  replace (norm (vsub q p) ^ 2 - ahead p u q ^ 2) with (off_axis p u q * off_axis p u q) by (rewrite F; ring).
  rewrite Rmax_right by nra. apply sqrt_square. auto.
Qed.
Theorem batch_reaches : forall p u q r, is_unit u -> 0 < r -> 0 < off_axis p u q -> off_axis p u q <> 2 * r ->
  r <= tangent_circle_radius p u q ->
  exists b, solve_curve_hold p u q r = Some b /\
    turn_then_straight p u r (b_dogleg b) (b_tangent b) (b_pos2 b) q (b_vec_target b) /\
    0 < b_dogleg b < 2 * PI /\ 0 <= b_tangent b /\ b_dist_curve b = r * b_dogleg b /\
    b_md b = b_dist_curve b + b_tangent b.
Proof.
  intros p u q r U Hr N B L. destruct (ch_solve p u q r U Hr N B L) as (T & t & v & S & Et & V & Bt & Hl & W).
  rewrite dist_triple_spec in S by auto.
  exists (mkBatch (vsub q (vscale T v)) v T t (r * t) (r * t + T)). split; [|cbn; repeat split; auto; lra].
  unfold solve_curve_hold. cbv zeta. rewrite batch_distances by auto. rewrite S, <- Et.
  unfold get_curve_hold_data. rewrite V. reflexivity.
Qed.
Theorem batch_unreachable : forall p u q r, is_unit u -> 0 < off_axis p u q ->
  tangent_circle_radius p u q < r -> solve_curve_hold p u q r = None.
Proof.
  intros p u q r U N L. unfold solve_curve_hold. cbv zeta. rewrite batch_distances by auto.
  unfold min_dist_to_target. destruct (Rlt_dec _ 0) as [|Z]; [reflexivity|]. exfalso. apply Z.
  unfold tangent_circle_radius in L. rewrite <- norm_sqr in L.
  apply Rmult_lt_compat_r with (r := 2 * off_axis p u q) in L; [|lra].
  replace (norm (vsub q p) * norm (vsub q p) / (2 * off_axis p u q) * (2 * off_axis p u q))
    with (norm (vsub q p) * norm (vsub q p)) in L by (field; lra). simpl. lra.
Qed.
Theorem batch_straight : forall p u d r, is_unit u -> 0 < r -> 0 <= d ->
  solve_curve_hold p u (vadd p (vscale d u)) r = Some (mkBatch p u d 0 0 d).
Proof.
  intros p u d r U Hr Hd. unfold solve_curve_hold. cbv zeta.
  replace (vsub (vadd p (vscale d u)) p) with (vscale d u) by vring.
  assert (N : norm (vscale d u) = d) by (rewrite norm_vscale, (norm_1 u U), Rabs_pos_eq by auto; ring).
  rewrite N, dot_vscale_l. unfold is_unit in U. rewrite U, Rmult_1_r, Rmin_left by lra.
  replace (d ^ 2 - d ^ 2) with 0 by ring. rewrite Rmax_left, sqrt_0 by lra.
  unfold min_dist_to_target. replace (d ^ 2 - 2 * r * 0) with (d * d) by ring.
  destruct (Rlt_dec (d * d) 0); [nra|]. rewrite sqrt_square by auto.
  replace (arctan2 (d - d) (2 * r - 0)) with 0.
  - rewrite Rmult_0_r. unfold check_dogleg. destruct (Rlt_dec 0 0); [lra|]. unfold get_curve_hold_data, get_vec_target.
    rewrite Rmult_0_r. destruct (Req_EM_T 0 0); [|congruence]. do 2 f_equal; [vring|ring].
  - rewrite Rminus_diag_eq by auto. unfold arctan2. destruct (Rlt_dec 0 (2 * r - 0)); [|lra].
    unfold Rdiv. rewrite Rmult_0_l, atan_0. reflexivity.
Qed.
Theorem batch_behind : forall p u d r, is_unit u -> 0 < r -> 0 < d ->
  solve_curve_hold p u (vsub p (vscale d u)) r = None.
Proof.
  intros p u d r U Hr Hd. unfold solve_curve_hold. cbv zeta.
  replace (vsub (vsub p (vscale d u)) p) with (vscale (- d) u) by vring.
  assert (N : norm (vscale (- d) u) = d) by (rewrite norm_vscale, (norm_1 u U), Rabs_Ropp, Rabs_pos_eq by lra; ring).
  rewrite N, dot_vscale_l. unfold is_unit in U. rewrite U, Rmult_1_r, Rmin_left by lra.
  replace (d ^ 2 - (- d) ^ 2) with 0 by ring. rewrite Rmax_left, sqrt_0 by lra.
  unfold min_dist_to_target. replace (d ^ 2 - 2 * r * 0) with (d * d) by ring.
  destruct (Rlt_dec (d * d) 0); [nra|]. rewrite sqrt_square by lra.
  set (t := check_dogleg (2 * arctan2 (- d - d) (2 * r - 0))).
  assert (T : tan (t / 2) = (- d - d) / (2 * r - 0)) by (apply tan_check; lra).
  assert (Nt : t <> 0). { intro Z. rewrite Z in T. unfold Rdiv in T at 1. rewrite Rmult_0_l, tan_0 in T.
    assert ((- d - d) / (2 * r - 0) * (2 * r - 0) = 0) by (rewrite <- T; ring).
    replace ((- d - d) / (2 * r - 0) * (2 * r - 0)) with (- d - d) in H by (field; lra). lra. }
  cbn [get_curve_hold_data]. unfold get_vec_target. cbv zeta. rewrite half_chord by auto. rewrite T.
  destruct (Req_EM_T (r * t) 0) as [Z|_]; [exfalso; nra|].
  destruct (Req_EM_T _ 0) as [|Z]; [reflexivity|]. exfalso. apply Z. field. lra.
Qed.
Theorem batch_agrees : forall bump a c r, 0 <= a_min_error a -> is_unit (start_vec a) ->
  connector bump a = inl c -> k_method c = MinDistToTarget -> radius_design a = Some r ->
  exists b, solve_curve_hold (a_pos1 a) (start_vec a) (k_pos_target c) r = Some b /\
    k_pos2 c = Some (b_pos2 b) /\ k_vec_target c = b_vec_target b /\ k_tangent c = b_tangent b /\
    k_dogleg c = b_dogleg b /\ k_dist_curve c = b_dist_curve b /\
    k_md_target c = a_md1 a + Rabs (b_dist_curve b) + b_tangent b.
Proof.
  intros bump a c r He U H M R.
  destruct (min_dist_facts bump a c He U H M) as (r' & q & q' & R' & Hr & Q & NC & N & L & D & T).
  rewrite R in R'. injection R' as <-. rewrite T. rewrite dist_triple_spec in D by auto.
  unfold do_min_dist in D. unfold solve_curve_hold. cbv zeta. rewrite batch_distances by auto.
  destruct (min_dist_to_target r _) as [[t dl]|]; [|discriminate]. cbv zeta in D.
  unfold get_curve_hold_data in *. destruct (get_vec_target _ _ _ _ _ _) as [v|]; [|discriminate].
  injection D as <-. eexists. split; [reflexivity|]. cbn. repeat split.
Qed.
Lemma batch_example : is_unit (mkV 0 0 1) /\ 0 < off_axis vzero (mkV 0 0 1) (mkV 40 0 80) /\
  off_axis vzero (mkV 0 0 1) (mkV 40 0 80) <> 2 * 30 /\ 30 <= tangent_circle_radius vzero (mkV 0 0 1) (mkV 40 0 80).
Proof.
  assert (O : off_axis vzero (mkV 0 0 1) (mkV 40 0 80) = 40).
  { unfold off_axis. apply norm_from_sqr; [lra|]. unfold dot, cross. cbn. ring. }
  split; [unfold is_unit, dot; cbn; ring|]. unfold tangent_circle_radius. rewrite O.
  split; [lra|]. split; [lra|]. unfold dot. cbn. lra.
Qed.
