(** Proofs about M_Rates.v: get_circle_radius and explicit projections. *)
Require Import Reals ZArith Bool String List Lra Lia Psatz.
Require Import Verif.Base Verif.NumPy Verif.P_Trig Verif.Spec Verif.Spec_Lists Verif.Spec_Rates
  Verif.M_Utils Verif.P_Utils Verif.P_Utils2 Verif.P_Utils3 Verif.M_Survey Verif.P_Survey Verif.P_Survey2 Verif.P_Survey3
  Verif.M_Rates Verif.P_Rates Verif.P_Rates2 Verif.P_Rates3 Verif.P_Rates4.
Import ListNotations.
Open Scope R_scope.

Lemma removelast_nth : forall (A : Type) (l : list A) k, (S k < length l)%nat ->
  nth_error (removelast l) k = nth_error l k.
Proof.
  induction l as [|a [|b l] IH]; intros k H; simpl in H; try lia.
  destruct k; [reflexivity|]. change (removelast (a :: b :: l)) with (a :: removelast (b :: l)).
  cbn [nth_error]. apply IH. simpl. lia.
Qed.
Lemma removelast_length : forall (A : Type) (l : list A), length (removelast l) = pred (length l).
Proof.
  induction l as [|a [|b l] IH]; auto. change (removelast (a :: b :: l)) with (a :: removelast (b :: l)).
  cbn [length]. rewrite IH. reflexivity.
Qed.
Lemma tl_nth : forall (A : Type) (l : list A) k, nth_error (tl l) k = nth_error l (S k).
Proof. intros A [|a l] k; [destruct k; reflexivity|reflexivity]. Qed.

Lemma centres_nth : forall nev vecs ns radii k p v n r,
  nth_error nev k = Some p -> nth_error vecs k = Some v -> nth_error ns k = Some n -> nth_error radii k = Some r ->
  nth_error (circle_centres nev vecs ns radii) k = Some (circle_centre p v n r).
Proof.
  intros. unfold circle_centres. rewrite nth_error_map.
  rewrite (combine_nth_error _ _ _ _ _ _ _ (combine_nth_error _ _ _ _ _ _ _ (combine_nth_error _ _ _ _ _ _ _ H H0) H1) H2).
  reflexivity.
Qed.

Lemma centre_of : forall p v N r m, is_unit m -> cross N v = m ->
  circle_centre p v (Some N) (Fin r) = Some (arc_centre p m r).
Proof.
  intros p v N r m U C. unfold circle_centre.
  assert (E : cross v N = vscale 1 (vneg m)) by (rewrite <- C, vscale_1; vring).
  rewrite E, row_unit_scale; [|lra|unfold is_unit in *; rewrite dot_vneg_l, dot_vneg_r, Ropp_involutive; auto].
  f_equal. unfold arc_centre. destruct p, m; unf; apply V3_eq; simpl; ring.
Qed.

Lemma circle_lists : forall h rows deg sx sn unit s k a b p q,
  Survey h rows deg sx sn unit = Some s ->
  nth_error (sv_rows s) k = Some a -> nth_error (sv_rows s) (S k) = Some b ->
  nth_error (sv_nev s) k = Some p -> nth_error (sv_nev s) (S k) = Some q ->
  forall r1 r2,
  nth_error (cv_curve_radius (survey_curves s)) k = Some r1 ->
  nth_error (cv_curve_radius (survey_curves s)) (S k) = Some r2 ->
  let m := pred (length rows) in
  length (fst (get_circle_radius s)) = (2 * m)%nat /\ length (snd (get_circle_radius s)) = (2 * m)%nat /\
  nth_error (snd (get_circle_radius s)) k = Some p /\
  nth_error (snd (get_circle_radius s)) (m + k) = Some q /\
  nth_error (fst (get_circle_radius s)) k
    = Some (circle_centre p (direction_nev (st_inc a) (st_azi a)) (plane_normal a b) r1) /\
  nth_error (fst (get_circle_radius s)) (m + k)
    = Some (circle_centre q (direction_nev (st_inc b) (st_azi b)) (plane_normal a b) r2).
Proof.
  intros h rows deg sx sn unit s k a b p q HS A B P Q r1 r2 R1 R2 m.
  pose proof (Survey_xyz_len _ _ _ _ _ _ _ HS) as [_ LN].
  pose proof HS as HS'. apply Survey_inv in HS'. destruct HS' as (_ & _ & L2 & LR & _).
  assert (LK : (S k < length (sv_rows s))%nat) by (apply nth_error_Some; congruence).
  set (c := survey_curves s) in *.
  assert (LD : length (cv_curve_radius c) = length (sv_rows s)).
  { unfold c. cbn [survey_curves cv_curve_radius]. rewrite map_length, dls_list_length; auto. destruct (sv_rows s); discriminate. }
  assert (LM : length (cv_normals c) = m).
  { unfold c. cbn [survey_curves cv_normals]. unfold normals. rewrite pairwise_length. unfold m. lia. }
  assert (N : nth_error (cv_normals c) k = Some (plane_normal a b)) by (apply normals_nth; auto).
  set (vecs := map vec_nev_of (sv_rows s)).
  assert (VA : nth_error vecs k = Some (direction_nev (st_inc a) (st_azi a))).
  { unfold vecs. rewrite nth_error_map, A. simpl. rewrite vec_nev_of_dir. reflexivity. }
  assert (VB : nth_error vecs (S k) = Some (direction_nev (st_inc b) (st_azi b))).
  { unfold vecs. rewrite nth_error_map, B. simpl. rewrite vec_nev_of_dir. reflexivity. }
  assert (LV : length vecs = length (sv_rows s)) by (unfold vecs; apply map_length).
  unfold get_circle_radius. fold c. fold vecs. cbn [fst snd].
  set (cc1 := circle_centres (removelast _) _ _ _). set (cc2 := circle_centres (tl _) _ _ _).
  assert (L1 : length cc1 = m).
  { unfold cc1, circle_centres. rewrite map_length, !combine_length, !removelast_length. unfold m in *. lia. }
  assert (TL : forall (X : Type) (l : list X), length (tl l) = pred (length l)) by (intros X [|]; reflexivity).
  assert (L2' : length cc2 = m).
  { unfold cc2, circle_centres. rewrite map_length, !combine_length, !TL. unfold m in *. lia. }
  rewrite !app_length, L1, L2', removelast_length, TL.
  split; [lia|]. split; [unfold m; lia|]. split; [|split; [|split]].
  - rewrite nth_error_app1 by (rewrite removelast_length; unfold m in *; lia). rewrite removelast_nth by lia. auto.
  - rewrite nth_error_app2 by (rewrite removelast_length; unfold m in *; lia).
    rewrite removelast_length. replace (m + k - pred (length (sv_nev s)))%nat with k by (unfold m; lia).
    rewrite tl_nth. auto.
  - rewrite nth_error_app1 by lia. unfold cc1. apply centres_nth; auto; rewrite removelast_nth; auto; lia.
  - rewrite nth_error_app2 by lia. rewrite L1. replace (m + k - m)%nat with k by lia.
    unfold cc2. apply centres_nth; auto; rewrite tl_nth; auto.
Qed.

Lemma circle_centres_bent : forall h rows deg sx sn unit s k a b p q t n,
  Survey h rows deg sx sn unit = Some s ->
  nth_error (sv_rows s) k = Some a -> nth_error (sv_rows s) (S k) = Some b ->
  nth_error (sv_nev s) k = Some p -> nth_error (sv_nev s) (S k) = Some q ->
  let u := direction_nev (st_inc a) (st_azi a) in
  let v := direction_nev (st_inc b) (st_azi b) in
  let r := (st_md b - st_md a) / t in
  section_arc p u q v (st_md b - st_md a) t n -> st_md a < st_md b ->
  let m := pred (length rows) in
  let '(starts, ends) := get_circle_radius s in
  length starts = (2 * m)%nat /\ length ends = (2 * m)%nat /\
  nth_error ends k = Some p /\ nth_error ends (m + k) = Some q /\
  nth_error starts (m + k) = Some (Some (arc_centre p n r)) /\
  (k = 0%nat -> nth_error starts k = Some None) /\
  (forall r', nth_error (cv_curve_radius (survey_curves s)) k = Some (Fin r') ->
     nth_error starts k = Some (Some (arc_centre p n r'))) /\
  (nth_error (cv_curve_radius (survey_curves s)) k = Some PInf -> nth_error starts k = Some None) /\
  forall x, dist (arc_point p u n r x) (arc_centre p n r) = r.
Proof.
  intros h rows deg sx sn unit s k a b p q t n HS A B P Q u v r SA Hl m.
  destruct (curve_of_section _ _ _ _ _ _ _ _ _ _ _ _ _ _ HS A B P Q SA Hl) as (_ & R2 & _ & _ & EC).
  pose proof (section_cross _ _ _ _ _ _ _ (direction_unit _ _) SA) as (X & C & SN & C1 & C2).
  pose proof (normal_of_section a b _ _ _ _ _ SA) as NS.
  pose proof SA as (N1 & N2 & Ht & EP & EV).
  assert (Hr : 0 < r) by (unfold r; apply Rdiv_lt_0_compat; lra).
  assert (UE : is_unit (arc_normal u n t)).
  { unfold is_unit, arc_normal. rewrite dot_vsub_l, !dot_vsub_r, !dot_vscale_l, !dot_vscale_r, (dot_comm n u).
    unfold is_unit, orthogonal in *. fold u in N2. rewrite N1, N2. pose proof (direction_unit (st_inc a) (st_azi a)) as U.
    unfold is_unit in U. fold u in U. rewrite U. pose proof (sin2_cos2' t). lra. }
  destruct (nth_error (cv_curve_radius (survey_curves s)) k) as [r1|] eqn:R1.
  2:{ exfalso. apply nth_error_None in R1.
      assert (S k < length (cv_curve_radius (survey_curves s)))%nat by (apply nth_error_Some; congruence). lia. }
  destruct (circle_lists _ _ _ _ _ _ _ _ _ _ _ _ HS A B P Q _ _ R1 R2) as (L1 & L2 & E1 & E2 & S1 & S2).
  fold m in L1, L2, E2, S2. fold r in S2.
  destruct (get_circle_radius s) as [starts ends]. cbn [fst snd] in *.
  rewrite NS in S1, S2. fold u in S1, S2. fold v in S2.
  rewrite (centre_of q v (cross u n) r _ UE C2) in S2. fold u r in EC. rewrite EC in S2.
  split; [auto|]. split; [auto|]. split; [auto|]. split; [auto|]. split; [auto|]. split; [|split; [|split]].
  - intro K. subst k. rewrite curve_radius_first in R1. injection R1 as <-. rewrite S1. reflexivity.
  - intros r' R'. injection R' as ->. rewrite S1. f_equal. apply centre_of; auto.
  - intros R'. injection R' as ->. rewrite S1. reflexivity.
  - intro x. rewrite arc_on_circle; auto. apply Rabs_right. lra. apply direction_unit.
Qed.

(** the first-half centre is the centre of the section's circle exactly when
    the preceding section has the same radius *)
Lemma first_half_centre_iff : forall h rows deg sx sn unit s k a b c p q t n t',
  Survey h rows deg sx sn unit = Some s ->
  nth_error (sv_rows s) k = Some c -> nth_error (sv_rows s) (S k) = Some a -> nth_error (sv_rows s) (S (S k)) = Some b ->
  nth_error (sv_nev s) (S k) = Some p -> nth_error (sv_nev s) (S (S k)) = Some q ->
  let u := direction_nev (st_inc a) (st_azi a) in
  let v := direction_nev (st_inc b) (st_azi b) in
  section_arc p u q v (st_md b - st_md a) t n -> st_md c < st_md a < st_md b ->
  angle_between (direction_nev (st_inc c) (st_azi c)) u t' ->
  (nth_error (fst (get_circle_radius s)) (S k) = Some (Some (arc_centre p n ((st_md b - st_md a) / t)))
   <-> t' / (st_md a - st_md c) = t / (st_md b - st_md a)).
Proof.
  intros h rows deg sx sn unit s k a b c p q t n t' HS C A B P Q u v SA [H1 H2] AB'.
  pose proof SA as (N1 & N2 & Ht & EP & EV).
  pose proof (dls_next s k c a t' C A AB' ltac:(lra)) as D.
  pose proof (rate_length_pos (h_unit (sv_header s))) as HX.
  pose proof (radius_nth _ _ _ D) as R. set (x := rate_length _) in *. pose proof PI_RGT_0.
  pose proof (circle_centres_bent _ _ _ _ _ _ _ _ _ _ _ _ _ _ HS A B P Q SA H2) as K. cbv zeta in K.
  destruct (get_circle_radius s) as [starts ends]. destruct K as (_ & _ & _ & _ & _ & _ & K1 & K2 & _).
  cbn [fst]. destruct AB' as [[T1 T2] _].
  destruct (Req_EM_T t' 0) as [->|Hn].
  - replace (x * (0 * (180 / PI)) / (st_md a - st_md c)) with 0 in R.
    2:{ unfold Rdiv. rewrite !Rmult_0_l, Rmult_0_r, Rmult_0_l. reflexivity. }
    rewrite curve_radius_0 in R by auto. rewrite (K2 R). split; [discriminate|].
    intro E. exfalso. assert (0 < t / (st_md b - st_md a)) by (apply Rdiv_lt_0_compat; lra).
    rewrite <- E in H0. unfold Rdiv in H0. lra.
  - assert (Hd : x * (t' * (180 / PI)) / (st_md a - st_md c) <> 0).
    { apply Rgt_not_eq. apply Rdiv_lt_0_compat; [|lra]. repeat apply Rmult_lt_0_compat; try lra. apply Rinv_0_lt_compat; lra. }
    rewrite curve_radius_fin in R by auto. rewrite (K1 _ R).
    set (r' := x * 360 / (2 * PI * (x * (t' * (180 / PI)) / (st_md a - st_md c)))).
    assert (Er : r' = (st_md a - st_md c) / t') by (unfold r'; field; repeat split; lra).
    rewrite Er. clear R Hd. clearbody r'. clear Er r'.
    split; intro E.
    + assert (Z : arc_centre p n ((st_md a - st_md c) / t') = arc_centre p n ((st_md b - st_md a) / t)) by congruence.
      assert (Z' : vscale ((st_md a - st_md c) / t') n = vscale ((st_md b - st_md a) / t) n).
      { unfold arc_centre in Z. apply (f_equal (fun w => vsub w p)) in Z. rewrite !vsub_vadd_l in Z. auto. }
      assert (ZD : (st_md a - st_md c) / t' = (st_md b - st_md a) / t).
      { apply (f_equal (fun w => dot w n)) in Z'. rewrite !dot_vscale_l in Z'. unfold is_unit in N1. rewrite N1 in Z'. lra. }
      replace (t' / (st_md a - st_md c)) with (/ ((st_md a - st_md c) / t')) by (field; lra).
      rewrite ZD. field. lra.
    + do 3 f_equal.
      replace ((st_md a - st_md c) / t') with (/ (t' / (st_md a - st_md c))) by (field; lra).
      rewrite E. field. lra.
Qed.

Lemma circle_straight : forall h rows deg sx sn unit s k a b p q,
  Survey h rows deg sx sn unit = Some s ->
  nth_error (sv_rows s) k = Some a -> nth_error (sv_rows s) (S k) = Some b ->
  nth_error (sv_nev s) k = Some p -> nth_error (sv_nev s) (S k) = Some q ->
  direction_nev (st_inc a) (st_azi a) = direction_nev (st_inc b) (st_azi b) ->
  nth_error (fst (get_circle_radius s)) k = Some None /\
  nth_error (fst (get_circle_radius s)) (pred (length rows) + k) = Some None.
Proof.
  intros h rows deg sx sn unit s k a b p q HS A B P Q E.
  assert (NS : plane_normal a b = None).
  { unfold plane_normal. rewrite !vec_nev_of_dir, E, cross_self. apply row_unit_zero. }
  assert (LK : (S k < length (sv_rows s))%nat) by (apply nth_error_Some; congruence).
  assert (LD : length (cv_curve_radius (survey_curves s)) = length (sv_rows s)).
  { cbn [survey_curves cv_curve_radius]. rewrite map_length, dls_list_length; auto. destruct (sv_rows s); discriminate. }
  destruct (nth_error (cv_curve_radius (survey_curves s)) k) as [r1|] eqn:R1; [|apply nth_error_None in R1; lia].
  destruct (nth_error (cv_curve_radius (survey_curves s)) (S k)) as [r2|] eqn:R2; [|apply nth_error_None in R2; lia].
  destruct (circle_lists _ _ _ _ _ _ _ _ _ _ _ _ HS A B P Q _ _ R1 R2) as (_ & _ & _ & _ & S1 & S2).
  rewrite S1, S2, NS. auto.
Qed.

(** ** project_to_bit with explicit dls and toolface; feet *)
Lemma bit_explicit : forall h rows deg sx sn unit s k b q d dls tf,
  Survey h rows deg sx sn unit = Some s ->
  nth_error (sv_rows s) k = Some b -> length (sv_rows s) = S k ->
  nth_error (sv_nev s) k = Some q ->
  0 < dls -> 0 < st_inc b < PI ->
  let v := direction_nev (st_inc b) (st_azi b) in
  let n := toolface_dir (st_inc b) (st_azi b) tf in
  let r := 30 * 360 / (2 * PI * dls) in
  project_to_bit s d (Some dls) (Some tf)
  = Some (arc_point q v n r (d / r), arc_tangent v n (d / r), st_md b + d).
Proof.
  intros h rows deg sx sn unit s k b q d dls tf HS B L Q Hd Hi v n r.
  pose proof (Survey_xyz_len _ _ _ _ _ _ _ HS) as [_ LN].
  unfold project_to_bit.
  destruct (sv_rows s) as [|a0 ra] eqn:ER; [destruct k; discriminate|].
  destruct (sv_nev s) as [|p0 rp] eqn:EN; [destruct k; discriminate|].
  rewrite (last_cons_of _ _ _ _ _ B L).
  rewrite (last_cons_of _ _ _ _ _ Q) by congruence.
  rewrite get_vec_nev, project_ahead_exact by (auto using direction_unit).
  pose proof (recovered_axes_pos (st_inc b) (st_azi b) Hi) as RA.
  destruct (get_angles true (direction_nev (st_inc b) (st_azi b))) as [j c].
  cbv zeta. rewrite RA. reflexivity.
Qed.

Lemma bit_feet : forall h rows deg sx sn s k a b p q t n d,
  Survey h rows deg sx sn "feet" = Some s ->
  nth_error (sv_rows s) k = Some a -> nth_error (sv_rows s) (S k) = Some b ->
  length (sv_rows s) = S (S k) ->
  nth_error (sv_nev s) k = Some p -> nth_error (sv_nev s) (S k) = Some q ->
  let u := direction_nev (st_inc a) (st_azi a) in
  let v := direction_nev (st_inc b) (st_azi b) in
  let r := (st_md b - st_md a) / t in
  section_arc p u q v (st_md b - st_md a) t n -> st_md a < st_md b -> 0 < st_inc b < PI ->
  exists p', project_to_bit s d None None
    = Some (p', arc_tangent u n (t + 10 / 3 * (d / r)), st_md b + d) /\
  (0 < d / r < PI / 2 -> arc_tangent u n (t + 10 / 3 * (d / r)) <> arc_tangent u n (t + d / r)).
Proof.
  intros h rows deg sx sn s k a b p q t n d HS A B L P Q u v r SA Hl Hi.
  rewrite (bit_default _ _ _ _ _ _ _ _ _ _ _ _ _ _ d HS A B L P Q SA ltac:(lra) Hi).
  pose proof SA as (N1 & N2 & Ht & EP & EV).
  replace (if "feet" =? "meters" then 1 else 30 / 100)%string with (30 / 100) by reflexivity.
  fold r. fold u v. eexists. split.
  - do 2 f_equal. f_equal. fold u in EV. rewrite EV, arc_tangent_further. f_equal.
    assert (Hr : 0 < r) by (unfold r; apply Rdiv_lt_0_compat; lra). field. lra.
  - intros Hd E. fold u in N2. pose proof (direction_unit (st_inc a) (st_azi a)) as U. fold u in U.
    unfold is_unit, orthogonal in *.
    set (x := d / r) in *.
    assert (C : cos (7 / 3 * x) = 1).
    { replace (7 / 3 * x) with ((t + 10 / 3 * x) - (t + x)) by field.
      rewrite cos_minus.
      assert (Z : forall y z, dot (arc_tangent u n y) (arc_tangent u n z) = cos y * cos z + sin y * sin z).
      { intros. unfold arc_tangent. rewrite dot_vadd_l, !dot_vadd_r, !dot_vscale_l, !dot_vscale_r, (dot_comm n u), U, N1, N2. ring. }
      rewrite <- Z, E, Z. pose proof (sin2_cos2' (t + x)). lra. }
    assert (sin (7 / 3 * x / 2) = 0).
    { pose proof (cos_2a_sin (7 / 3 * x / 2)) as K. replace (2 * (7 / 3 * x / 2)) with (7 / 3 * x) in K by field.
      rewrite C in K. nra. }
    assert (0 < sin (7 / 3 * x / 2)) by (apply sin_gt_0; lra). lra.
Qed.
