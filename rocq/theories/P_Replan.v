(** C150: connections asked for in another frame. *)
Require Import Reals Lra Psatz Lia ZArith Bool String List.
Require Import Verif.Base Verif.NumPy Verif.P_Trig Verif.Spec Verif.M_Utils Verif.P_Utils Verif.P_Utils2 Verif.M_Torque Verif.M_Connector Verif.M_Connector2
  Verif.P_Connector Verif.M_Survey Verif.Spec_Frames Verif.P_Frames Verif.P_Frames2 Verif.P_Frames3 Verif.Spec_Replan.
Import ListNotations.
Local Open Scope R_scope.

Lemma mv_sub : forall Q u v, vsub (mv Q u) (mv Q v) = mv Q (vsub u v).
Proof. intros [[] [] []] [] []. unfold mv, vsub, dot; simpl. apply V3_eq; simpl; ring. Qed.
Lemma mv_neg : forall Q v, mv Q (vneg v) = vneg (mv Q v).
Proof. intros [[] [] []] []. unfold mv, vneg, dot; simpl. apply V3_eq; simpl; ring. Qed.
Lemma iso_inj : forall Q u v, isometry Q -> mv Q u = mv Q v -> u = v.
Proof. intros Q u v I E. rewrite <- (iso_back Q u I), <- (iso_back Q v I), E. reflexivity. Qed.
Lemma iso_unit : forall Q v, isometry Q -> vunit (mv Q v) = mv Q (vunit v).
Proof. intros Q v I. unfold vunit. rewrite iso_norm, mv_scale; auto. Qed.
Lemma iso_normalised : forall Q v, isometry Q -> normalised (mv Q v) = option_map (mv Q) (normalised v).
Proof. intros Q v I. unfold normalised. rewrite iso_norm by auto. destruct (Req_EM_T _ _); simpl; rewrite ?iso_unit; auto. Qed.
Lemma iso_same : forall Q u v (A : Type) (x y : A), isometry Q ->
  (if v3_eq_dec (mv Q u) (mv Q v) then x else y) = (if v3_eq_dec u v then x else y).
Proof.
  intros Q u v A x y I. destruct (v3_eq_dec (mv Q u) (mv Q v)) as [E|N], (v3_eq_dec u v) as [E'|N']; auto.
  - elim N'. eapply iso_inj; eauto.
  - elim N. rewrite E'. auto.
Qed.
Lemma iso_get_pos : forall Q t p u v dc fd, get_pos (moved Q t p) (mv Q u) (mv Q v) dc fd = moved Q t (get_pos p u v dc fd).
Proof. intros. unfold get_pos. rewrite <- mv_add, <- mv_scale, moved_add. reflexivity. Qed.
Lemma iso_vec_target : forall Q t p u q tl dc fd, isometry Q ->
  get_vec_target (moved Q t p) (mv Q u) (moved Q t q) tl dc fd = option_map (mv Q) (get_vec_target p u q tl dc fd).
Proof.
  intros Q t p u q tl dc fd I. unfold get_vec_target. destruct (Req_EM_T _ _); auto. destruct (Req_EM_T _ _); auto.
  rewrite moved_sub, <- mv_scale, mv_sub, <- mv_scale. apply iso_normalised; auto.
Qed.
Lemma iso_triple : forall Q t p u q, isometry Q -> dist_triple (moved Q t p) (mv Q u) (moved Q t q) = dist_triple p u q.
Proof. intros Q t p u q I. unfold dist_triple. rewrite moved_sub, iso_norm, I by auto. reflexivity. Qed.
Lemma moved_back : forall Q t p v, moved Q t (vsub p v) = vsub (moved Q t p) (mv Q v).
Proof. intros [[] [] []] [] [] []. unfold moved, mv, vsub, vadd, dot; simpl. apply V3_eq; simpl; ring. Qed.

(** the batch solver has no tolerances: any isometry *)
Lemma batch_moved : forall Q t p u q r, isometry Q ->
  solve_curve_hold (moved Q t p) (mv Q u) (moved Q t q) r = option_map (moved_batch Q t) (solve_curve_hold p u q r).
Proof.
  intros Q t p u q r I. unfold solve_curve_hold. rewrite moved_sub, iso_norm, I by auto.
  destruct (min_dist_to_target _ _) as [[tl dl]|]; auto. simpl. rewrite iso_vec_target by auto.
  destruct (get_vec_target _ _ _ _ _ _); simpl; auto. unfold moved_batch; simpl. rewrite moved_back, mv_scale. reflexivity.
Qed.

(** ** angles *)
Lemma turn_cross : forall w u v, cross (mv (turn w) u) (mv (turn w) v) = mv (turn w) (cross u v).
Proof.
  intros w [a b c] [d e f]. unfold turn, mv, cross, dot; simpl. pose proof (sin2_cos2' w) as S.
  assert (E : cos w * cos w = 1 - sin w * sin w) by lra. apply V3_eq; simpl; ring [E].
Qed.
Lemma get_vec_direction : forall i z, get_vec true 1 i z = direction_nev i z.
Proof. intros. rewrite get_vec_spec by lra. reflexivity. Qed.
Lemma angles_dir : forall v, let a := get_angles true v in
  direction_nev (fst a) (snd a) = if v3_eq_dec v vzero then mkV 0 0 1 else vunit v.
Proof.
  intros v. destruct (v3_eq_dec v vzero) as [->|N].
  - unfold get_angles. cbn zeta. replace (vunit vzero) with vzero.
    2: { unfold vunit, vscale, vzero; simpl. apply V3_eq; simpl; ring. }
    unfold get_angles_xyz, vzero; simpl. replace (0 * (0 * 1) + 0 * (0 * 1)) with 0 by ring. rewrite sqrt_0.
    assert (A : arctan2 0 0 = 0) by (unfold arctan2; repeat destruct (Rlt_dec _ _); lra). rewrite A.
    unfold direction_nev. rewrite sin_0, cos_0. apply V3_eq; simpl; ring.
  - pose proof (get_angles_direction v N) as A. destruct (get_angles true v). exact A.
Qed.
Lemma turn_angles : forall w v, let a := get_angles true v in let a' := get_angles true (mv (turn w) v) in
  direction_nev (fst a') (snd a') = mv (turn w) (direction_nev (fst a) (snd a)).
Proof.
  intros w v. cbn zeta. rewrite !angles_dir.
  assert (E : forall (A : Type) (x y : A), (if v3_eq_dec (mv (turn w) v) vzero then x else y) = (if v3_eq_dec v vzero then x else y)).
  { intros. pose proof (iso_same (turn w) v vzero A x y (turn_iso w)) as K. rewrite mv_zero in K. exact K. }
  rewrite E.
  destruct (v3_eq_dec v vzero).
  - unfold turn, mv, dot; simpl. apply V3_eq; simpl; ring.
  - apply iso_unit, turn_iso.
Qed.
Lemma turn_inclination : forall w v, fst (get_angles true (mv (turn w) v)) = fst (get_angles true v).
Proof.
  intros w v. pose proof (turn_angles w v) as E. cbn zeta in E.
  pose proof (get_angles_range true v) as [B _]. pose proof (get_angles_range true (mv (turn w) v)) as [B' _].
  destruct (get_angles true v) as [j z]. destruct (get_angles true (mv (turn w) v)) as [j' z']. simpl in *.
  rewrite <- turn_direction in E. apply (f_equal vz) in E. simpl in E. apply cos_inj_0_PI; lra.
Qed.
Lemma turn_azimuth : forall w v i, vx v <> 0 \/ vy v <> 0 ->
  direction_nev i (snd (get_angles true (mv (turn w) v))) = mv (turn w) (direction_nev i (snd (get_angles true v))).
Proof.
  intros w v i H.
  assert (N : v <> vzero) by (intros ->; simpl in H; lra).
  pose proof (turn_angles w v) as E. cbn zeta in E.
  pose proof (get_angles_range true v) as [B _]. pose proof (get_angles_range true (mv (turn w) v)) as [B' _].
  pose proof (angles_dir v) as D. cbn zeta in D.
  destruct (get_angles true v) as [j z]. destruct (get_angles true (mv (turn w) v)) as [j' z']. simpl in *.
  rewrite <- turn_direction in E |- *. unfold direction_nev in E |- *. injection E as E1 E2 E3.
  assert (j' = j) by (apply cos_inj_0_PI; lra). subst j'.
  assert (S : sin j <> 0).
  { intros S. destruct (v3_eq_dec v vzero); [contradiction|]. unfold direction_nev in D. rewrite S, !Rmult_0_l in D.
    pose proof (f_equal vx D) as X. pose proof (f_equal vy D) as Y. unfold vunit, vscale in X, Y. simpl in X, Y.
    assert (K : norm v <> 0) by (pose proof (norm_pos v N); lra). assert (/ norm v <> 0) by (apply Rinv_neq_0_compat; auto).
    symmetry in X, Y. apply Rmult_integral in X. apply Rmult_integral in Y. destruct H; tauto. }
  apply Rmult_eq_reg_l in E1; auto. apply Rmult_eq_reg_l in E2; auto. rewrite E1, E2. reflexivity.
Qed.
Lemma turn_dogleg : forall w i z j y i' z' j' y',
  direction_nev i' z' = mv (turn w) (direction_nev i z) -> direction_nev j' y' = mv (turn w) (direction_nev j y) ->
  get_dogleg i' z' j' y' = get_dogleg i z j y.
Proof.
  intros w i z j y i' z' j' y' E F. apply (angle_between_unique (direction_nev i' z') (direction_nev j' y')).
  - apply dogleg_angle.
  - pose proof (dogleg_angle i z j y) as A. unfold angle_between in *. rewrite E, F, turn_iso. exact A.
Qed.

(** ** the connector *)
Lemma turned_check : forall w t a, check_args (turned_args w t a) = check_args a.
Proof.
  intros w t [p1 v1 i1 z1 m1 d m2 p2 v2 i2 z2 mt me fo]. unfold check_args, turned_args; simpl.
  destruct v1, z1, i1; simpl; auto; destruct m2, p2, v2, i2, z2; simpl; auto.
  all: repeat match goal with |- context [if Req_EM_T ?x 0 then _ else _] => destruct (Req_EM_T x 0); simpl end; auto.
Qed.
Lemma turned_input : forall w t a, target_input (turned_args w t a) = target_input a.
Proof. intros w t [p1 v1 i1 z1 m1 d m2 p2 v2 i2 z2 mt me fo]. unfold target_input, turned_args; simpl. destruct p2, v2, z2; auto. Qed.
Lemma turned_start : forall w t a, check_args a = None -> start_vec (turned_args w t a) = mv (turn w) (start_vec a).
Proof.
  intros w t [p1 v1 i1 z1 m1 d m2 p2 v2 i2 z2 mt me fo] C. unfold check_args in C; simpl in C.
  unfold start_vec, turned_args; simpl. destruct v1, i1, z1; simpl in *; try discriminate; auto.
  rewrite !get_vec_direction. apply turn_direction.
Qed.
Lemma turned_start_angles : forall w t a, check_args a = None ->
  direction_nev (fst (start_angles (turned_args w t a))) (snd (start_angles (turned_args w t a)))
  = mv (turn w) (direction_nev (fst (start_angles a)) (snd (start_angles a))).
Proof.
  intros w t a C. pose proof (turned_start w t a C) as S. unfold start_angles. rewrite S.
  destruct a as [p1 v1 i1 z1 m1 d m2 p2 v2 i2 z2 mt me fo]. unfold turned_args; simpl.
  destruct i1, z1; simpl; try apply turn_angles. apply turn_direction.
Qed.
(** one angle given, the other that of the start *)
Lemma turned_start_azimuth : forall w t a i, check_args a = None -> ~ (exists v, a_vec1 a = Some v /\ vx v = 0 /\ vy v = 0) ->
  direction_nev i (snd (start_angles (turned_args w t a))) = mv (turn w) (direction_nev i (snd (start_angles a))).
Proof.
  intros w t a i C N. pose proof (turned_start w t a C) as S. unfold start_angles. rewrite S. unfold start_vec.
  destruct a as [p1 v1 i1 z1 m1 d m2 p2 v2 i2 z2 mt me fo]. unfold turned_args; simpl in *. unfold check_args in C; simpl in C.
  destruct v1, i1, z1; simpl in *; try discriminate.
  - apply turn_azimuth. destruct (Req_EM_T (vx v) 0); [right|left; auto]. intros K. apply N. eauto.
  - apply turn_direction.
Qed.
Lemma turned_start_inc : forall w t a, check_args a = None -> fst (start_angles (turned_args w t a)) = fst (start_angles a).
Proof.
  intros w t a C. pose proof (turned_start_angles w t a C) as E. pose proof (turned_start w t a C) as S.
  unfold start_angles in *. rewrite S in *.
  destruct a as [p1 v1 i1 z1 m1 d m2 p2 v2 i2 z2 mt me fo]. unfold turned_args in *; simpl in *. unfold check_args in C; simpl in C.
  destruct v1, i1, z1; simpl in *; try discriminate; auto.
  apply turn_inclination.
Qed.
Lemma turned_target_angles : forall w t a, check_args a = None -> ~ no_azimuth a ->
  direction_nev (fst (target_angles (turned_args w t a))) (snd (target_angles (turned_args w t a)))
  = mv (turn w) (direction_nev (fst (target_angles a)) (snd (target_angles a))).
Proof.
  intros w t a C N. unfold target_angles.
  replace (a_vec2 (turned_args w t a)) with (option_map (mv (turn w)) (a_vec2 a)) by reflexivity.
  replace (a_azi2 (turned_args w t a)) with (option_map (fun z => z + w) (a_azi2 a)) by reflexivity.
  replace (a_inc2 (turned_args w t a)) with (a_inc2 a) by reflexivity.
  destruct (a_vec2 a) eqn:V; cbn [option_map]; [apply turn_angles|]. cbn [fst snd].
  destruct (a_inc2 a) eqn:I, (a_azi2 a) eqn:Z; cbn [option_map].
  - apply turn_direction.
  - apply turned_start_azimuth; auto. intros (v & A & B & D). apply N. exists v, r. repeat split; auto.
  - rewrite turned_start_inc by auto. apply turn_direction.
  - apply turned_start_angles; auto.
Qed.
Lemma turned_target0 : forall w t a, check_args a = None -> ~ no_azimuth a ->
  target_vec0 (turned_args w t a) = mv (turn w) (target_vec0 a).
Proof.
  intros w t a C N. pose proof (turned_target_angles w t a C N) as T. unfold target_vec0.
  replace (a_vec2 (turned_args w t a)) with (option_map (mv (turn w)) (a_vec2 a)) by reflexivity.
  replace (a_azi2 (turned_args w t a)) with (option_map (fun z => z + w) (a_azi2 a)) by reflexivity.
  replace (a_inc2 (turned_args w t a)) with (a_inc2 a) by reflexivity.
  destruct (a_vec2 a) eqn:V; cbn [option_map]; auto.
  destruct (a_inc2 a) eqn:I, (a_azi2 a) eqn:Z; cbn [option_map]; rewrite ?get_vec_direction; auto.
  apply turned_start; auto.
Qed.
Lemma turn_mod : forall w v e, mod_vec (mv (turn w) v) e = mv (turn w) (mod_vec v e).
Proof.
  intros w v e. unfold mod_vec. rewrite <- iso_unit by apply turn_iso. f_equal.
  destruct v. unfold turn, mv, dot; simpl. apply V3_eq; simpl; ring.
Qed.
Lemma turned_target : forall w t a, check_args a = None -> ~ no_azimuth a ->
  target_vec (turned_args w t a) = mv (turn w) (target_vec a).
Proof.
  intros w t a C N. unfold target_vec. rewrite turned_target0, turned_start, <- mv_neg, iso_same by (auto; apply turn_iso).
  destruct (v3_eq_dec _ _); auto. apply turn_mod.
Qed.
Lemma turned_target_angles' : forall w t a, check_args a = None -> ~ no_azimuth a ->
  direction_nev (fst (target_angles' (turned_args w t a))) (snd (target_angles' (turned_args w t a)))
  = mv (turn w) (direction_nev (fst (target_angles' a)) (snd (target_angles' a))).
Proof.
  intros w t a C N. unfold target_angles'. rewrite turned_target0, turned_start, turned_target, <- mv_neg, iso_same by (auto; apply turn_iso).
  destruct (v3_eq_dec _ _); [apply turn_angles | apply turned_target_angles; auto].
Qed.
Lemma turned_dogleg : forall w t a, check_args a = None -> ~ no_azimuth a ->
  let '(i1, z1) := start_angles (turned_args w t a) in let '(i2, z2) := target_angles' (turned_args w t a) in
  let '(j1, y1) := start_angles a in let '(j2, y2) := target_angles' a in get_dogleg i1 z1 i2 z2 = get_dogleg j1 y1 j2 y2.
Proof.
  intros w t a C N. pose proof (turned_start_angles w t a C) as A. pose proof (turned_target_angles' w t a C N) as B.
  destruct (start_angles (turned_args w t a)), (target_angles' (turned_args w t a)), (start_angles a), (target_angles' a).
  eapply turn_dogleg; eauto.
Qed.
Lemma turned_method : forall w t bump a, check_args a = None -> ~ no_azimuth a ->
  (forall q, a_pos2 a = Some q -> alike w t bump a q) -> get_method (turned_args w t a) = get_method a.
Proof.
  intros w t bump a C N A. unfold get_method, initial_method. rewrite turned_input.
  replace (a_force (turned_args w t a)) with (a_force a) by reflexivity.
  destruct (if a_force a then _ else _) as [m|]; auto. destruct (_ || _ || _)%bool; auto. destruct (String.eqb m "hold"); auto.
  destruct (ends_or_hold m); auto. rewrite turned_target, turned_start, iso_same by (auto; apply turn_iso).
  destruct (v3_eq_dec _ _); auto.
  replace (a_pos2 (turned_args w t a)) with (option_map (moved (turn w) t) (a_pos2 a)) by reflexivity.
  replace (a_pos1 (turned_args w t a)) with (moved (turn w) t (a_pos1 a)) by reflexivity.
  destruct (a_pos2 a) as [q|] eqn:P; cbn [option_map]; auto. rewrite moved_sub, iso_normalised by apply turn_iso.
  destruct (A q eq_refl) as (_ & _ & H). unfold heading in H. destruct (normalised _) as [u|]; cbn [option_map]; auto.
  specialize (H u eq_refl). rewrite e. destruct (allclose_dec _ _), (allclose_dec _ _); auto; tauto.
Qed.
Lemma turned_min_curve : forall w t a, check_args a = None -> ~ no_azimuth a ->
  do_min_curve (turned_args w t a) = turned_outcome w t (do_min_curve a).
Proof.
  intros w t a C N. pose proof (turned_dogleg w t a C N) as D. unfold do_min_curve. cbv zeta.
  rewrite turned_start, turned_target by auto.
  replace (radius_design (turned_args w t a)) with (radius_design a) by reflexivity.
  replace (a_md2 (turned_args w t a)) with (a_md2 a) by reflexivity.
  replace (a_md1 (turned_args w t a)) with (a_md1 a) by reflexivity.
  replace (a_pos1 (turned_args w t a)) with (moved (turn w) t (a_pos1 a)) by reflexivity.
  destruct (start_angles (turned_args w t a)), (target_angles' (turned_args w t a)), (start_angles a), (target_angles' a).
  rewrite D. clear D. generalize (check_dogleg (get_dogleg r3 r4 r5 r6)). intros dl.
  destruct (a_md2 a) as [md|].
  - unfold get_curve_hold_data.
    match goal with |- (if ?b then _ else _) = _ => destruct b end.
    + destruct (rmin_inf _ _); simpl; auto. unfold turned_conn; simpl. rewrite iso_get_pos, <- mv_scale, moved_add. reflexivity.
    + destruct (if Req_EM_T dl 0 then _ else _); simpl; auto. unfold turned_conn; simpl. rewrite iso_get_pos. reflexivity.
  - destruct (radius_design a); simpl; auto. unfold turned_conn; simpl. rewrite iso_get_pos. reflexivity.
Qed.
Lemma turned_hold : forall w t a, check_args a = None -> ~ no_azimuth a ->
  do_hold (turned_args w t a) = turned_outcome w t (do_hold a).
Proof.
  intros w t a C N. unfold do_hold. rewrite turned_start, turned_target by auto.
  replace (a_md2 (turned_args w t a)) with (a_md2 a) by reflexivity.
  replace (a_md1 (turned_args w t a)) with (a_md1 a) by reflexivity.
  replace (a_pos1 (turned_args w t a)) with (moved (turn w) t (a_pos1 a)) by reflexivity.
  replace (a_pos2 (turned_args w t a)) with (option_map (moved (turn w) t) (a_pos2 a)) by reflexivity.
  destruct (a_pos2 a) as [q|], (a_md2 a) as [m|]; cbn [option_map turned_outcome]; auto; unfold turned_conn; simpl.
  - rewrite moved_sub, iso_norm by apply turn_iso. reflexivity.
  - rewrite <- mv_scale, moved_add. reflexivity.
Qed.
Lemma turned_curve_hold : forall w t bump a q,  alike w t bump a q -> forall e rd u m,
  do_curve_hold (mv (turn w) bump) e rd (moved (turn w) t (a_pos1 a)) (mv (turn w) u) m (moved (turn w) t q)
  = option_map (turned_conn w t) (do_curve_hold bump e rd (a_pos1 a) u m q).
Proof.
  intros w t bump a q (A & B & _) e rd u m. unfold do_curve_hold.
  assert (G : get_distances (mv (turn w) bump) (moved (turn w) t (a_pos1 a)) (mv (turn w) u) (moved (turn w) t q)
    = let '(p, ds) := get_distances bump (a_pos1 a) u q in (moved (turn w) t p, ds)).
  { unfold get_distances. rewrite moved_sub, iso_normalised by apply turn_iso.
    set (X := match option_map _ _ with Some _ => _ | None => _ end). set (Y := match normalised _ with Some _ => _ | None => _ end).
    assert (E : X = moved (turn w) t Y /\ (Y = q \/ Y = vadd q bump)).
    { unfold X, Y. destruct (normalised _) as [n|]; cbn [option_map]; auto. rewrite iso_same by apply turn_iso.
      destruct (v3_eq_dec _ _); auto. split; auto. apply moved_add. }
    destruct E as [-> E]. f_equal. rewrite iso_triple by apply turn_iso.
    destruct (allclose_dec _ _), (allclose_dec _ _); auto; destruct E as [-> | ->]; tauto. }
  rewrite G. destruct (get_distances bump (a_pos1 a) u q) as [p ds]. cbn zeta.
  assert (MC : forall r, do_min_curve_to_target r ds (moved (turn w) t (a_pos1 a)) (mv (turn w) u) m (moved (turn w) t p)
     = option_map (turned_conn w t) (do_min_curve_to_target r ds (a_pos1 a) u m p)).
  { intros r. unfold do_min_curve_to_target. destruct (min_curve_to_target ds) as [[tl rc] dl]. destruct (rmin_inf _ _); auto.
    unfold get_curve_hold_data. rewrite iso_vec_target by apply turn_iso. destruct (get_vec_target _ _ _ _ _ _); auto. }
  destruct rd as [r|]; auto. destruct (Rle_dec _ _); auto.
  unfold do_min_dist. destruct (min_dist_to_target r ds) as [[tl dl]|]; auto. unfold get_curve_hold_data.
  rewrite iso_vec_target by apply turn_iso. destruct (get_vec_target _ _ _ _ _ _); auto. simpl. unfold turned_conn; simpl.
  rewrite moved_back, mv_scale. reflexivity.
Qed.
Lemma connector_turned : forall w t bump a, ~ no_azimuth a -> (forall q, a_pos2 a = Some q -> alike w t bump a q) ->
  connector (mv (turn w) bump) (turned_args w t a) = turned_outcome w t (connector bump a).
Proof.
  intros w t bump a N A. unfold connector. rewrite turned_check. destruct (check_args a) eqn:C; auto.
  rewrite (turned_method w t bump) by auto. destruct (get_method a) as [m|]; auto.
  destruct (String.eqb m "hold"); [apply turned_hold; auto|]. destruct (String.eqb m "min_curve"); [apply turned_min_curve; auto|].
  destruct (String.eqb m "curve_hold_curve"); auto.
  replace (a_pos2 (turned_args w t a)) with (option_map (moved (turn w) t) (a_pos2 a)) by reflexivity.
  replace (radius_design (turned_args w t a)) with (radius_design a) by reflexivity.
  replace (a_md1 (turned_args w t a)) with (a_md1 a) by reflexivity.
  replace (a_min_error (turned_args w t a)) with (a_min_error a) by reflexivity.
  replace (a_pos1 (turned_args w t a)) with (moved (turn w) t (a_pos1 a)) by reflexivity.
  destruct (a_pos2 a) as [q|]; cbn [option_map]; auto. rewrite turned_start, turned_curve_hold by auto.
  destruct (do_curve_hold _ _ _ _ _ _ _); auto.
Qed.

(** ** the stations of a plan *)
Lemma turn_rodrigues : forall w u v x, rodrigues (mv (turn w) u) (mv (turn w) v) x = mv (turn w) (rodrigues u v x).
Proof.
  intros w u v x. unfold rodrigues. rewrite turn_cross, iso_norm by apply turn_iso. destruct (Rlt_dec _ _); auto. cbv zeta.
  rewrite <- !mv_scale, turn_cross, <- !mv_scale, <- mv_add. apply iso_unit, turn_iso.
Qed.
Lemma turned_curve : forall w m u v dc dl s e, interpolate_curve m (mv (turn w) u) (mv (turn w) v) dc dl s e
  = turned_rows_of w (interpolate_curve m u v dc dl s e).
Proof.
  intros. unfold interpolate_curve, turned_rows_of. destruct (Req_EM_T dc 0); auto. rewrite map_map. apply map_ext. intros x.
  rewrite turn_rodrigues. reflexivity.
Qed.
Lemma turned_straight : forall w m u m2 s e, interpolate_hold m (mv (turn w) u) m2 s e = turned_rows_of w (interpolate_hold m u m2 s e).
Proof. intros. unfold interpolate_hold, turned_rows_of. rewrite map_map. apply map_ext. intros x. reflexivity. Qed.
Lemma turned_section : forall w t c s, interpolate_section (turned_conn w t c) s = turned_rows_of w (interpolate_section c s).
Proof.
  intros w t c s. unfold interpolate_section. simpl.
  destruct (k_method c), (k_md2 c); simpl; rewrite ?turned_curve, ?turned_straight; auto; unfold turned_rows_of; rewrite ?map_app; auto.
Qed.
Lemma drop_map : forall (A B : Type) (f : A -> B) (k : A -> Z) (k' : B -> Z) l p, (forall x, k' (f x) = k x) ->
  drop_same_as_prev k' (f p) (map f l) = map f (drop_same_as_prev k p l).
Proof.
  intros A B f k k' l. induction l as [|x l IH]; intros p H; simpl; auto. rewrite !H. destruct (Z.eqb _ _); simpl; rewrite IH; auto.
Qed.
Lemma plan_turned : forall w t cs s,
  from_connections (map (turned_conn w t) cs) s
  = option_map (map (fun r => ((fst (fst r), mv (turn w) (snd (fst r))), snd r))) (from_connections cs s).
Proof.
  intros w t cs s. unfold from_connections.
  assert (E : interpolate_well (map (turned_conn w t) cs) s = turned_rows_of w (interpolate_well cs s)).
  { unfold interpolate_well, turned_rows_of. induction cs as [|c cs IH]; simpl; auto. rewrite map_app, <- IH, turned_section. reflexivity. }
  assert (M : mds_ref (map (turned_conn w t) cs) = mds_ref cs).
  { unfold mds_ref. induction cs as [|c cs IH]; simpl; auto. unfold mds_ref in *. f_equal. f_equal. apply IH.
    unfold interpolate_well, turned_rows_of in *. simpl in E. rewrite map_app, turned_section in E. apply app_inv_head in E. exact E. }
  rewrite E, M. unfold turned_rows_of. unfold remove_duplicates.
  destruct (interpolate_well cs s) as [|a [|b l]]; auto. cbn [map]. 
  change (map (fun r => (fst r, mv (turn w) (snd r))) l) with (map (fun r : R * V3 => (fst r, mv (turn w) (snd r))) l).
  pose proof (drop_map _ _ (fun r : R * V3 => (fst r, mv (turn w) (snd r))) (fun row => md_key (fst row)) (fun row => md_key (fst row)) (b :: l) a (fun _ => eq_refl)) as D.
  cbn [map] in D. rewrite D. cbn [option_map map fst snd]. rewrite !map_map. reflexivity.
Qed.

(** ** the chain of connectors through a survey *)
Lemma nev_direction : forall i z, nev_of (get_vec false 1 i z) = direction_nev i z.
Proof. intros. rewrite get_vec_spec by lra. unfold nev_of, get_nev, direction_nev, vsub, vadd, vzero, swap_xy; simpl. apply V3_eq; simpl; ring. Qed.
Lemma leg_turned : forall w t dls p v m md i z,
  leg dls (moved (turn w) t p) (mv (turn w) v) m (md, i, z + w) = turned_outcome w t (leg dls p v m (md, i, z)).
Proof.
  intros. unfold leg. rewrite !nev_direction, turn_direction.
  rewrite <- connector_turned.
  - rewrite mv_zero. reflexivity.
  - intros (x & y & _ & _ & _ & K & _). discriminate.
  - intros q K. discriminate.
Qed.
Lemma legs_turned : forall w t dls l p v m,
  legs dls (moved (turn w) t p) (mv (turn w) v) m (turned_stations w l)
  = match legs dls p v m l with inl cs => inl (map (turned_conn w t) cs) | inr e => inr e end.
Proof.
  intros w t dls l. induction l as [|[[md i] z] l IH]; intros p v m; auto.
  cbn [turned_stations map legs]. rewrite leg_turned. destruct (leg dls p v m (md, i, z)) as [c|e]; cbn [turned_outcome]; auto.
  change (map (fun s => let '(md, inc, azi) := s in (md, inc, azi + w)) l) with (turned_stations w l).
  cbn [turned_conn k_pos_target k_vec_target k_md_target]. rewrite IH. destruct (legs _ _ _ _ l); auto.
Qed.
Lemma survey_replan : forall w t dls sn l step,
  interpolate_survey dls (moved (turn w) t sn) (turned_stations w l) step
  = option_map (map (fun r => ((fst (fst r), mv (turn w) (snd (fst r))), snd r))) (interpolate_survey dls sn l step).
Proof.
  intros w t dls sn l step. unfold interpolate_survey.
  assert (E : survey_legs dls (moved (turn w) t sn) (turned_stations w l)
    = match survey_legs dls sn l with inl cs => inl (map (turned_conn w t) cs) | inr e => inr e end).
  { destruct l as [|[[md i] z] l]; auto. cbn [turned_stations map survey_legs]. rewrite !nev_direction, turn_direction. apply legs_turned. }
  rewrite E. destruct (survey_legs dls sn l) as [cs|]; auto. rewrite plan_turned. destruct (from_connections cs (Some step)) as [rows|]; cbn [option_map]; auto.
  rewrite !map_map. f_equal. apply map_ext. intros r. cbn [fst snd]. f_equal. f_equal. f_equal. unfold turned_stations. rewrite map_map.
  apply map_ext. intros [[? ?] ?]. reflexivity.
Qed.
