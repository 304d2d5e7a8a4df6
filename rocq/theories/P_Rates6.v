(** Concrete surveys for the examples beside the theorems about curve attributes. *)
Require Import Reals ZArith Bool String List Lra Lia Psatz.
Require Import Verif.Base Verif.NumPy Verif.P_Trig Verif.Spec Verif.Spec_Lists Verif.Spec_Rates
  Verif.M_Utils Verif.P_Utils Verif.P_Utils2 Verif.P_Utils3 Verif.M_Survey Verif.P_Survey Verif.P_Survey2 Verif.P_Survey3 Verif.P_Survey4 Verif.P_Survey5
  Verif.M_Rates Verif.P_Rates Verif.P_Rates2 Verif.P_Rates3 Verif.P_Rates4 Verif.P_Rates5 Verif.Spec_RatesCases.
Import ListNotations.
Open Scope R_scope.

(** a build in the plane of bearing a: inclinations i1 then i2 *)
Lemma planar_tangent : forall i a x, arc_tangent (direction_nev i a) (high_side i a) x = direction_nev (i + x) a.
Proof.
  intros. unfold arc_tangent, direction_nev, high_side. rewrite sin_plus, cos_plus. unf. apply V3_eq; simpl; ring.
Qed.
Lemma planar_tangent_drop : forall i a x, arc_tangent (direction_nev i a) (vscale (-1) (high_side i a)) x = direction_nev (i - x) a.
Proof.
  intros. unfold arc_tangent, direction_nev, high_side. rewrite sin_minus, cos_minus. unf. apply V3_eq; simpl; ring.
Qed.
Lemma planar_angle : forall i a t, 0 <= t <= PI -> angle_between (direction_nev i a) (direction_nev (i + t) a) t.
Proof.
  intros i a t H. split; auto. unfold dot, direction_nev; simpl. rewrite sin_plus, cos_plus.
  pose proof (sin2_cos2' i) as Hi. pose proof (sin2_cos2' a) as Ha.
  assert (Si : sin i * sin i = 1 - cos i * cos i) by lra. assert (Sa : sin a * sin a = 1 - cos a * cos a) by lra.
  ring [Si Sa].
Qed.
Lemma planar_angle_drop : forall i a t, 0 <= t <= PI -> angle_between (direction_nev i a) (direction_nev (i - t) a) t.
Proof.
  intros i a t H. split; auto. unfold dot, direction_nev; simpl. rewrite sin_minus, cos_minus.
  pose proof (sin2_cos2' i) as Hi. pose proof (sin2_cos2' a) as Ha.
  assert (Si : sin i * sin i = 1 - cos i * cos i) by lra. assert (Sa : sin a * sin a = 1 - cos a * cos a) by lra.
  ring [Si Sa].
Qed.

Lemma grid_survey : forall unit rows, unit = "meters"%string \/ unit = "feet"%string -> (2 <= length rows)%nat ->
  exists s, Survey (grid_header unit) rows false vzero vzero unit = Some s /\
    sv_rows s = map (fun r : row => let '(md, inc, azi) := r in mkSt md inc azi) rows /\
    length (sv_nev s) = length rows.
Proof.
  intros unit rows U L. assert (A : exists s, Survey (grid_header unit) rows false vzero vzero unit = Some s).
  { apply Survey_accepts. split; [reflexivity|auto]. }
  destruct A as [s H]. exists s. split; auto. split.
  - rewrite (Survey_rows _ _ _ _ _ _ _ H). apply map_ext. intros [[md inc] azi]. f_equal.
  - destruct (Survey_stations _ _ _ _ _ _ _ H) as (_ & _ & _ & _ & _ & _ & _ & L' & _). exact L'.
Qed.

(** 30 degrees over 30 m, then 30 degrees over 90 m *)
Lemma bend_case : forall unit, unit = "meters"%string \/ unit = "feet"%string ->
  exists s p q r,
    Survey (grid_header unit) bend_rows false vzero vzero unit = Some s /\
    sv_rows s = [mkSt 0 (PI / 6) 0; mkSt 30 (PI / 3) 0; mkSt 120 (PI / 2) 0] /\ sv_nev s = [p; q; r] /\
    section_arc p (direction_nev (PI / 6) 0) q (direction_nev (PI / 3) 0) 30 (PI / 6) (high_side (PI / 6) 0) /\
    section_arc q (direction_nev (PI / 3) 0) r (direction_nev (PI / 2) 0) 90 (PI / 6) (high_side (PI / 3) 0) /\
    angle_between (direction_nev (PI / 6) 0) (direction_nev (PI / 3) 0) (PI / 6).
Proof.
  intros unit U. destruct (grid_survey unit bend_rows U) as (s & H & R & L). { simpl; lia. }
  simpl in R, L. destruct (sv_nev s) as [|p [|q [|r [|z l]]]] eqn:N; try discriminate L.
  pose proof PI_RGT_0.
  assert (A1 : angle_between (direction_nev (PI / 6) 0) (direction_nev (PI / 3) 0) (PI / 6)).
  { replace (PI / 3) with (PI / 6 + PI / 6) by field. apply planar_angle. lra. }
  assert (A2 : angle_between (direction_nev (PI / 3) 0) (direction_nev (PI / 2) 0) (PI / 6)).
  { replace (PI / 2) with (PI / 3 + PI / 6) by field. apply planar_angle. lra. }
  exists s, p, q, r. split; auto. split; auto. split; auto.
  split; [|split; auto].
  - replace 30 with (st_md (mkSt 30 (PI / 3) 0) - st_md (mkSt 0 (PI / 6) 0)) by (simpl; ring).
    apply (Survey_section _ _ _ _ _ _ _ 0 (mkSt 0 (PI / 6) 0) (mkSt 30 (PI / 3) 0) p q (PI / 6) (high_side (PI / 6) 0) H);
      rewrite ?R, ?N; auto; try lra.
    unfold dir. simpl. rewrite planar_tangent. f_equal. field.
  - replace 90 with (st_md (mkSt 120 (PI / 2) 0) - st_md (mkSt 30 (PI / 3) 0)) by (simpl; ring).
    apply (Survey_section _ _ _ _ _ _ _ 1 (mkSt 30 (PI / 3) 0) (mkSt 120 (PI / 2) 0) q r (PI / 6) (high_side (PI / 3) 0) H);
      rewrite ?R, ?N; auto; try lra.
    unfold dir. simpl. rewrite planar_tangent. f_equal. field.
Qed.
Lemma bend_attitude : forall r, r <> 0 ->
  attitude_along (fun s => arc_tangent (direction_nev (PI / 3) 0) (high_side (PI / 3) 0) (s / r))
    (fun s => PI / 3 + s * / r) (fun _ => 0) (/ r) 0.
Proof.
  intros r Hr. split; [|split].
  - exists 1. split; [lra|]. intros s _. rewrite planar_tangent. reflexivity.
  - eapply eq_rect. apply derivable_pt_lim_plus; [apply derivable_pt_lim_const|].
    apply derivable_pt_lim_mult; [apply derivable_pt_lim_id|apply derivable_pt_lim_const]. unfold fct_cte, id. ring.
  - apply derivable_pt_lim_const.
Qed.

(** a drop from 30 degrees due east to vertical, azimuth still reported as east *)
Lemma drop_case : exists s p q n,
    Survey (grid_header "meters") drop_rows false vzero vzero "meters" = Some s /\
    sv_rows s = [mkSt 0 (PI / 6) (PI / 2); mkSt 30 0 (PI / 2)] /\ sv_nev s = [p; q] /\
    section_arc p (direction_nev (PI / 6) (PI / 2)) q (direction_nev 0 (PI / 2)) 30 (PI / 6) n /\
    arc_normal (direction_nev (PI / 6) (PI / 2)) n (PI / 6) = mkV (cos (3 * (PI / 2))) (sin (3 * (PI / 2))) 0.
Proof.
  destruct (grid_survey "meters" drop_rows) as (s & H & R & L); [auto|simpl; lia|].
  simpl in R, L. destruct (sv_nev s) as [|p [|q [|r l]]] eqn:N; try discriminate L.
  pose proof PI_RGT_0.
  assert (A1 : angle_between (direction_nev (PI / 6) (PI / 2)) (direction_nev 0 (PI / 2)) (PI / 6)).
  { replace 0 with (PI / 6 - PI / 6) by ring. apply planar_angle_drop. lra. }
  exists s, p, q, (vscale (-1) (high_side (PI / 6) (PI / 2))). split; auto. split; auto. split; auto. split.
  - replace 30 with (st_md (mkSt 30 0 (PI / 2)) - st_md (mkSt 0 (PI / 6) (PI / 2))) by (simpl; ring).
    apply (Survey_section _ _ _ _ _ _ _ 0 (mkSt 0 (PI / 6) (PI / 2)) (mkSt 30 0 (PI / 2)) p q (PI / 6)
             (vscale (-1) (high_side (PI / 6) (PI / 2))) H); rewrite ?R, ?N; auto; try lra.
    unfold dir. simpl. rewrite planar_tangent_drop. f_equal. field.
  - assert (C : cos (3 * (PI / 2)) = 0) by (apply cos_3PI2).
    assert (Sn : sin (3 * (PI / 2)) = -1) by (apply sin_3PI2).
    rewrite C, Sn. unfold arc_normal, direction_nev, high_side. rewrite cos_PI2, sin_PI2.
    pose proof (sin2_cos2' (PI / 6)) as Hi. unf. apply V3_eq; simpl; lra.
Qed.

(** the two refutations *)
Lemma interior_refuted : exists s b br,
  Survey (grid_header "meters") bend_rows false vzero vzero "meters" = Some s /\
  nth_error (sv_rows s) 1 = Some b /\ nth_error (cv_build_rate (survey_curves s)) 1 = Some (Fin br) /\
  exists incf azif di da,
    attitude_along (fun x => arc_tangent (direction_nev (PI / 3) 0) (high_side (PI / 3) 0) (x / (90 / (PI / 6)))) incf azif di da /\
    br = 3 * (30 * Rabs (degrees di)) /\ 0 < br.
Proof.
  destruct (bend_case "meters") as (s & p & q & r & H & R & N & S1 & S2 & A); auto.
  pose proof PI_RGT_0 as HP.
  assert (D : nth_error (cv_dls (survey_curves s)) 1 = Some (Fin (30 * (PI / 6 * (180 / PI)) / 30))).
  { pose proof (dls_next s 0 (mkSt 0 (PI / 6) 0) (mkSt 30 (PI / 3) 0) (PI / 6)) as Q.
    rewrite R in Q. destruct (Survey_stations _ _ _ _ _ _ _ H) as (HH & _). rewrite HH in Q.
    simpl st_md in Q. simpl st_inc in Q. simpl st_azi in Q.
    replace (30 - 0) with 30 in Q by ring. apply Q; auto; lra. }
  assert (Hr : 90 / (PI / 6) <> 0). { intro E. assert (90 = 0); [|lra]. apply (f_equal (fun x => x * (PI / 6))) in E. field_simplify in E; lra. }
  destruct (interior_rates _ _ _ _ _ _ s 1 (mkSt 30 (PI / 3) 0) (mkSt 120 (PI / 2) 0) q r (PI / 6) (high_side (PI / 3) 0)
     (30 * (PI / 6 * (180 / PI)) / 30) (fun x => PI / 3 + x * / (90 / (PI / 6))) (fun _ => 0) (/ (90 / (PI / 6))) 0 H)
     as [B _]; try (rewrite ?R, ?N; reflexivity); simpl st_md; simpl st_inc; simpl st_azi; auto.
  - replace (120 - 30) with 90 by ring. exact S2.
  - lra.
  - apply Rgt_not_eq. apply sin_gt_0; lra.
  - replace (120 - 30) with 90 by ring. apply bend_attitude. auto.
  - simpl st_md in B. replace (120 - 30) with 90 in B by ring.
    exists s, (mkSt 30 (PI / 3) 0). eexists. split; [auto|]. split; [rewrite R; auto|]. split; [exact B|].
    exists (fun x => PI / 3 + x * / (90 / (PI / 6))), (fun _ => 0), (/ (90 / (PI / 6))), 0.
    split; [apply bend_attitude; auto|].
    assert (E1 : 30 * (PI / 6 * (180 / PI)) / 30 = 30) by (field; lra).
    assert (E2 : / (90 / (PI / 6)) = PI / 540) by (field; lra).
    assert (E3 : degrees (PI / 540) = 1 / 3) by (unfold degrees; field; lra).
    rewrite E1, E2, E3. rewrite !Rabs_pos_eq by (try apply Rle_mult_inv_pos; lra).
    assert (E4 : 30 * (90 / (PI / 6) * (PI / 540)) = 30) by (field; lra). rewrite E4. lra.
Qed.

Lemma vertical_refuted : exists s n p q, 
  Survey (grid_header "meters") drop_rows false vzero vzero "meters" = Some s /\ sv_nev s = [p; q] /\
  let u := direction_nev (PI / 6) (PI / 2) in
  let r := 30 / (PI / 6) in
  section_arc p u q (direction_nev 0 (PI / 2)) 30 (PI / 6) n /\
  forall d, 0 < d / r < PI ->
    exists pos dir, project_to_bit s d None None = Some (pos, dir, 30 + d) /\
      vx dir < 0 /\ vy dir = 0 /\
      vx (arc_tangent u n (PI / 6 + d / r)) = 0 /\ vy (arc_tangent u n (PI / 6 + d / r)) < 0.
Proof.
  destruct drop_case as (s & p & q & n & H & R & N & SA & AN).
  exists s, n, p, q. split; auto. split; auto. cbv zeta. split; auto. intros d Hd.
  pose proof PI_RGT_0 as HP.
  pose proof (bit_vertical _ _ _ _ _ s 0 (mkSt 0 (PI / 6) (PI / 2)) (mkSt 30 0 (PI / 2)) p q (PI / 6) n d (3 * (PI / 2)) H) as B.
  rewrite R, N in B. specialize (B eq_refl eq_refl eq_refl eq_refl eq_refl). cbv zeta in B.
  simpl st_md in B. simpl st_inc in B. simpl st_azi in B. replace (30 - 0) with 30 in B by ring.
  specialize (B SA ltac:(lra) eq_refl AN).
  replace (3 * (PI / 2) - PI / 2) with PI in B by field.
  eexists _, _. split; [exact B|].
  assert (Hs : 0 < sin (d / (30 / (PI / 6)))) by (apply sin_gt_0; lra).
  assert (X : vx (arc_tangent (direction_nev 0 (PI / 2)) (mkV (cos PI) (sin PI) 0) (d / (30 / (PI / 6)))) = - sin (d / (30 / (PI / 6)))).
  { unfold arc_tangent, direction_nev. unf. simpl. rewrite sin_0, cos_PI. ring. }
  assert (Y : vy (arc_tangent (direction_nev 0 (PI / 2)) (mkV (cos PI) (sin PI) 0) (d / (30 / (PI / 6)))) = 0).
  { unfold arc_tangent, direction_nev. unf. simpl. rewrite sin_0, sin_PI. ring. }
  rewrite X, Y. split; [lra|]. split; [auto|].
  assert (E : arc_tangent (direction_nev (PI / 6) (PI / 2)) n (PI / 6 + d / (30 / (PI / 6)))
    = arc_tangent (direction_nev 0 (PI / 2)) (mkV (cos (3 * (PI / 2))) (sin (3 * (PI / 2))) 0) (d / (30 / (PI / 6)))).
  { rewrite <- AN. destruct SA as (_ & _ & _ & _ & V). rewrite V.
    unfold arc_tangent, arc_normal. rewrite sin_plus, cos_plus. generalize (d / (30 / (PI / 6))). intro x.
    destruct n. unfold direction_nev. unf. apply V3_eq; simpl; ring. }
  rewrite E. unfold arc_tangent, direction_nev. unf. simpl. rewrite sin_0, cos_3PI2, sin_3PI2. split; [ring|lra].
Qed.
