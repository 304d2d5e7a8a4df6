(** Proofs about M_Rates.v: toolfaces. *)
Require Import Reals ZArith Bool String List Lra Lia Psatz.
Require Import Verif.Base Verif.NumPy Verif.P_Trig Verif.Spec Verif.Spec_Lists Verif.Spec_Rates
  Verif.M_Utils Verif.P_Utils Verif.P_Utils2 Verif.P_Utils3 Verif.M_Survey Verif.P_Survey Verif.P_Survey2 Verif.M_Rates.
Import ListNotations.
Open Scope R_scope.

Lemma pair_angle : forall a b, angle_between (dir a) (dir b) (pair_dogleg a b).
Proof. intros. apply dogleg_angle. Qed.

Lemma pair_angle_is : forall a b t, angle_between (dir a) (dir b) t -> pair_dogleg a b = t.
Proof. intros a b t H. eapply angle_between_unique; [apply pair_angle | exact H]. Qed.

(** components of b's direction on a's axes, and of a's on b's *)
Lemma components_start : forall a b,
  let d := st_azi b - st_azi a in
  let y := sin (st_inc b) * sin d in
  let x := sin (st_inc b) * cos (st_inc a) * cos d - sin (st_inc a) * cos (st_inc b) in
  dir b = vadd (vscale (dot (dir a) (dir b)) (dir a))
            (vadd (vscale x (high_side (st_inc a) (st_azi a))) (vscale y (right_side (st_azi a)))) /\
  x * x + y * y = 1 - dot (dir a) (dir b) * dot (dir a) (dir b).
Proof.
  intros [ma i a] [mb j b]; cbv zeta. unfold dir, direction_nev, high_side, right_side; cbn [st_inc st_azi].
  rewrite cos_minus, sin_minus.
  pose proof (sin2_cos2' i) as Hi. pose proof (sin2_cos2' a) as Ha.
  pose proof (sin2_cos2' j) as Hj. pose proof (sin2_cos2' b) as Hb.
  assert (Si : sin i * sin i = 1 - cos i * cos i) by lra.
  assert (Sa : sin a * sin a = 1 - cos a * cos a) by lra.
  assert (Sj : sin j * sin j = 1 - cos j * cos j) by lra.
  assert (Sb : sin b * sin b = 1 - cos b * cos b) by lra.
  split; [unf; apply V3_eq; simpl; ring [Si Sa Sj Sb] | unf; ring [Si Sa Sj Sb]].
Qed.

Lemma components_end : forall a b,
  let d := st_azi b - st_azi a in
  let y := sin (st_inc a) * sin d in
  let x := sin (st_inc b) * cos (st_inc a) - sin (st_inc a) * cos (st_inc b) * cos d in
  dir a = vsub (vscale (dot (dir a) (dir b)) (dir b))
            (vadd (vscale x (high_side (st_inc b) (st_azi b))) (vscale y (right_side (st_azi b)))) /\
  x * x + y * y = 1 - dot (dir a) (dir b) * dot (dir a) (dir b).
Proof.
  intros [ma i a] [mb j b]; cbv zeta. unfold dir, direction_nev, high_side, right_side; cbn [st_inc st_azi].
  rewrite cos_minus, sin_minus.
  pose proof (sin2_cos2' i) as Hi. pose proof (sin2_cos2' a) as Ha.
  pose proof (sin2_cos2' j) as Hj. pose proof (sin2_cos2' b) as Hb.
  assert (Si : sin i * sin i = 1 - cos i * cos i) by lra.
  assert (Sa : sin a * sin a = 1 - cos a * cos a) by lra.
  assert (Sj : sin j * sin j = 1 - cos j * cos j) by lra.
  assert (Sb : sin b * sin b = 1 - cos b * cos b) by lra.
  split; [unf; apply V3_eq; simpl; ring [Si Sa Sj Sb] | unf; ring [Si Sa Sj Sb]].
Qed.

Lemma toolface_dir_spec : forall i a t,
  is_unit (toolface_dir i a t) /\ orthogonal (direction_nev i a) (toolface_dir i a t).
Proof.
  intros i a t.
  pose proof (sin2_cos2' i) as Hi. pose proof (sin2_cos2' a) as Ha. pose proof (sin2_cos2' t) as Ht.
  assert (Si : sin i * sin i = 1 - cos i * cos i) by lra.
  assert (Sa : sin a * sin a = 1 - cos a * cos a) by lra.
  assert (St : sin t * sin t = 1 - cos t * cos t) by lra.
  unfold is_unit, orthogonal, toolface_dir, direction_nev, high_side, right_side; unf.
  split; ring [Si Sa St].
Qed.

Lemma polar_sin : forall t x y, 0 < t < PI -> x * x + y * y = 1 - cos t * cos t ->
  sin t * cos (arctan2 y x) = x /\ sin t * sin (arctan2 y x) = y.
Proof.
  intros t x y Ht H. assert (0 < sin t) by (apply sin_gt_0; lra).
  pose proof (sin2_cos2' t). destruct (arctan2_cos_sin y x) as [C S].
  replace (x * x + y * y) with (sin t * sin t) in C, S by lra.
  rewrite sqrt_square in C, S by lra. auto.
Qed.

Lemma start_normal : forall a b, 0 < pair_dogleg a b < PI ->
  dir b = arc_tangent (dir a) (toolface_dir (st_inc a) (st_azi a) (toolface_start a b)) (pair_dogleg a b).
Proof.
  intros a b Ht. destruct (pair_angle a b) as [_ C].
  destruct (components_start a b) as [V N]. cbv zeta in V, N. rewrite <- C in V, N.
  destruct (polar_sin _ _ _ Ht N) as [X Y].
  unfold arc_tangent, toolface_dir, toolface_start. rewrite vscale_vadd, !vscale_vscale, X, Y. exact V.
Qed.

Lemma toolface_end_trig : forall a b,
  let d := st_azi b - st_azi a in
  let t := arctan2 (sin (st_inc a) * sin d)
             (sin (st_inc b) * cos (st_inc a) - sin (st_inc a) * cos (st_inc b) * cos d) in
  cos (toolface_end a b) = cos t /\ sin (toolface_end a b) = sin t /\ 0 <= toolface_end a b < 2 * PI.
Proof.
  intros. unfold toolface_end. fold d. fold t.
  pose proof (arctan2_bounds (sin (st_inc a) * sin d)
    (sin (st_inc b) * cos (st_inc a) - sin (st_inc a) * cos (st_inc b) * cos d)) as B. fold t in B.
  destruct (Rlt_dec t 0).
  - replace (t + 2 * PI) with (t + 2 * PI * IZR 1) by (simpl; ring).
    rewrite cos_shift_Z, sin_shift_Z. split; [auto|]. split; [auto|]. simpl. lra.
  - split; [auto|]. split; [auto|]. lra.
Qed.

Lemma end_normal_back : forall a b, 0 < pair_dogleg a b < PI ->
  dir a = vsub (vscale (cos (pair_dogleg a b)) (dir b))
            (vscale (sin (pair_dogleg a b)) (toolface_dir (st_inc b) (st_azi b) (toolface_end a b))).
Proof.
  intros a b Ht. destruct (pair_angle a b) as [_ C].
  destruct (components_end a b) as [V N]. cbv zeta in V, N. rewrite <- C in V, N.
  destruct (polar_sin _ _ _ Ht N) as [X Y].
  destruct (toolface_end_trig a b) as [TC [TS _]]. cbv zeta in TC, TS.
  unfold toolface_dir. rewrite TC, TS, vscale_vadd, !vscale_vscale, X, Y. exact V.
Qed.

(** [n] is determined by the two directions *)
Lemma normal_unique : forall u v n t, 0 < t < PI -> v = arc_tangent u n t -> n = bend_normal u v t.
Proof.
  intros u v n t Ht E. assert (0 < sin t) by (apply sin_gt_0; lra).
  subst v. unfold bend_normal, arc_tangent. destruct u, n; unf. apply V3_eq; simpl; field; lra.
Qed.

(** direction of bending at the end of the arc *)
Lemma end_normal : forall a b n, 0 < pair_dogleg a b < PI ->
  dir b = arc_tangent (dir a) n (pair_dogleg a b) ->
  toolface_dir (st_inc b) (st_azi b) (toolface_end a b) = arc_normal (dir a) n (pair_dogleg a b).
Proof.
  intros a b n Ht E. set (t := pair_dogleg a b) in *.
  assert (Hs : 0 < sin t) by (apply sin_gt_0; lra).
  pose proof (end_normal_back a b Ht) as B. fold t in B.
  set (T := toolface_dir (st_inc b) (st_azi b) (toolface_end a b)) in *.
  set (u := dir a) in *. set (v := dir b) in *. clearbody T u v.
  assert (ET : T = vscale (/ sin t) (vsub (vscale (cos t) v) u)).
  { rewrite B at 1. destruct T, v; unf. apply V3_eq; simpl; field; lra. }
  rewrite ET, E. unfold arc_tangent, arc_normal.
  pose proof (sin2_cos2' t) as P. assert (P' : cos t * cos t = 1 - sin t * sin t) by lra.
  destruct u as [u1 u2 u3], n as [n1 n2 n3]; unf.
  assert (K : forall x y, / sin t * (cos t * (cos t * x + sin t * y) - x) = cos t * y - sin t * x).
  { intros. replace (cos t * (cos t * x + sin t * y) - x) with ((cos t * cos t - 1) * x + sin t * (cos t * y)) by ring.
    rewrite P'. field. lra. }
  apply V3_eq; simpl; apply K.
Qed.

(** ** sections of a survey *)
Lemma Survey_section : forall h rows deg sx sn unit s k a b p q t n,
  Survey h rows deg sx sn unit = Some s ->
  nth_error (sv_rows s) k = Some a -> nth_error (sv_rows s) (S k) = Some b ->
  nth_error (sv_nev s) k = Some p -> nth_error (sv_nev s) (S k) = Some q ->
  angle_between (dir a) (dir b) t -> 0 < t < PI ->
  dir b = arc_tangent (dir a) n t ->
  section_arc p (dir a) q (dir b) (st_md b - st_md a) t n.
Proof.
  intros h rows deg sx sn unit s k a b p q t n HS A B P Q AB Ht E.
  pose proof (Survey_nev_step _ _ _ _ _ _ _ _ _ _ _ _ HS A B P Q) as S.
  pose proof (normal_unique _ _ _ _ Ht E) as N.
  destruct (bend_normal_spec (dir a) (dir b) t) as [N1 [N2 N3]]; auto; try apply direction_unit. apply AB.
  split; [rewrite N; auto|]. split; [rewrite N; auto|]. split; [auto|]. split; [|auto].
  rewrite S. unfold step_between.
  rewrite min_curve_step_disp.
  replace (get_dogleg (st_inc a) (st_azi a) (st_inc b) (st_azi b)) with t
    by (symmetry; apply (pair_angle_is a b); auto).
  fold (dir a) (dir b).
  destruct (mc_disp_arc p (dir a) (dir b) (st_md b - st_md a) t) as [n' [r [M1 [M2 [M3 [M4 M5]]]]]]; auto;
    try apply direction_unit; try apply AB.
  rewrite M4. rewrite (normal_unique _ _ _ _ Ht M5), <- N. f_equal. rewrite M3. field. lra.
Qed.

Lemma toolfaces_nth : forall rows k a b,
  nth_error rows k = Some a -> nth_error rows (S k) = Some b ->
  nth_error (toolfaces rows) k = Some (toolface_start a b).
Proof.
  intros rows k a b A B. unfold toolfaces. rewrite nth_error_app1.
  apply pairwise_nth; auto.
  rewrite pairwise_length. assert (S k < length rows)%nat by (apply nth_error_Some; congruence). lia.
Qed.

Lemma last_nth_error : forall (A : Type) (l : list A) d, l <> [] -> nth_error l (pred (length l)) = Some (last l d).
Proof.
  intros A l d. induction l as [|x [|y r] IH]; intro H; [congruence|reflexivity|].
  simpl. apply IH. discriminate.
Qed.

Lemma toolfaces_last : forall rows k a b,
  nth_error rows k = Some a -> nth_error rows (S k) = Some b -> length rows = S (S k) ->
  nth_error (toolfaces rows) (S k) = Some (toolface_end a b) /\ length (toolfaces rows) = length rows /\
  last (toolfaces rows) 0 = toolface_end a b.
Proof.
  intros rows k a b A B L. unfold toolfaces.
  assert (E : last (pairwise toolface_end rows) 0 = toolface_end a b).
  { pose proof (pairwise_nth _ _ toolface_end _ _ _ _ A B) as P.
    assert (Z : pairwise toolface_end rows <> []) by (intro Z; rewrite Z in P; destruct k; discriminate).
    pose proof (last_nth_error _ _ 0 Z) as Q. rewrite pairwise_length, L in Q. simpl in Q. congruence. }
  split; [|split].
  - rewrite nth_error_app2; rewrite pairwise_length, L; simpl; [|lia]. rewrite Nat.sub_diag. simpl. congruence.
  - rewrite app_length, pairwise_length, L. simpl. lia.
  - rewrite last_last. exact E.
Qed.

Lemma toolface_first : forall h rows deg sx sn unit s k a b p q t tf,
  Survey h rows deg sx sn unit = Some s ->
  nth_error (sv_rows s) k = Some a -> nth_error (sv_rows s) (S k) = Some b ->
  nth_error (sv_nev s) k = Some p -> nth_error (sv_nev s) (S k) = Some q ->
  let u := direction_nev (st_inc a) (st_azi a) in
  let v := direction_nev (st_inc b) (st_azi b) in
  angle_between u v t -> 0 < t < PI ->
  nth_error (cv_toolface (survey_curves s)) k = Some tf ->
  - PI < tf <= PI /\
  section_arc p u q v (st_md b - st_md a) t (toolface_dir (st_inc a) (st_azi a) tf).
Proof.
  intros h rows deg sx sn unit s k a b p q t tf HS A B P Q u v AB Ht TF.
  cbn [survey_curves cv_toolface] in TF. rewrite (toolfaces_nth _ _ _ _ A B) in TF.
  injection TF; intro; subst tf. pose proof (pair_angle_is a b t AB) as D.
  split; [apply arctan2_bounds|].
  eapply Survey_section; eauto. rewrite <- D. apply start_normal. lra.
Qed.

Lemma toolface_final : forall h rows deg sx sn unit s k a b p q t tf n,
  Survey h rows deg sx sn unit = Some s ->
  nth_error (sv_rows s) k = Some a -> nth_error (sv_rows s) (S k) = Some b ->
  length (sv_rows s) = S (S k) ->
  nth_error (sv_nev s) k = Some p -> nth_error (sv_nev s) (S k) = Some q ->
  let u := direction_nev (st_inc a) (st_azi a) in
  let v := direction_nev (st_inc b) (st_azi b) in
  section_arc p u q v (st_md b - st_md a) t n ->
  nth_error (cv_toolface (survey_curves s)) (S k) = Some tf ->
  0 <= tf < 2 * PI /\ toolface_dir (st_inc b) (st_azi b) tf = arc_normal u n t.
Proof.
  intros h rows deg sx sn unit s k a b p q t tf n HS A B L P Q u v (N1 & N2 & Ht & EP & EV) TF.
  cbn [survey_curves cv_toolface] in TF. destruct (toolfaces_last _ _ _ _ A B L) as [E _]. rewrite E in TF.
  injection TF; intro; subst tf. clear TF.
  assert (D : pair_dogleg a b = t).
  { apply pair_angle_is. split; [lra|]. change (cos t = dot u v). rewrite EV. unfold arc_tangent.
    rewrite dot_vadd_r, !dot_vscale_r. unfold orthogonal in N2. rewrite N2.
    pose proof (direction_unit (st_inc a) (st_azi a)) as U. fold u in U. unfold is_unit in U. rewrite U. ring. }
  split; [apply (toolface_end_trig a b)|].
  rewrite <- D in EV. rewrite (end_normal a b n) by (auto; lra). rewrite D. reflexivity.
Qed.

Lemma arctan2_00 : arctan2 0 0 = 0.
Proof. unfold arctan2. destruct (Rlt_dec 0 0); [lra|]. auto. Qed.

Lemma toolface_straight : forall h rows deg sx sn unit s k a b,
  Survey h rows deg sx sn unit = Some s ->
  nth_error (sv_rows s) k = Some a -> nth_error (sv_rows s) (S k) = Some b ->
  direction_nev (st_inc a) (st_azi a) = direction_nev (st_inc b) (st_azi b) ->
  nth_error (cv_toolface (survey_curves s)) k = Some 0 /\
  (length (sv_rows s) = S (S k) -> nth_error (cv_toolface (survey_curves s)) (S k) = Some 0).
Proof.
  intros h rows deg sx sn unit s k a b HS A B E. cbn [survey_curves cv_toolface].
  fold (dir a) in E. fold (dir b) in E.
  assert (U : dot (dir a) (dir b) = 1) by (rewrite E; apply direction_unit).
  split.
  - rewrite (toolfaces_nth _ _ _ _ A B). f_equal. destruct (components_start a b) as [_ N]. cbv zeta in N.
    rewrite U in N. unfold toolface_start.
    match type of N with ?x * ?x + ?y * ?y = _ => set (X := x) in *; set (Y := y) in * end.
    assert (X = 0) by nra. assert (Y = 0) by nra. rewrite H, H0. apply arctan2_00.
  - intro L. destruct (toolfaces_last _ _ _ _ A B L) as [F _]. rewrite F. f_equal.
    destruct (components_end a b) as [_ N]. cbv zeta in N. rewrite U in N. unfold toolface_end.
    match type of N with ?x * ?x + ?y * ?y = _ => set (X := x) in *; set (Y := y) in * end.
    assert (X = 0) by nra. assert (Y = 0) by nra. rewrite H, H0, arctan2_00. destruct (Rlt_dec 0 0); lra.
Qed.
