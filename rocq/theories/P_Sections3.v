(** Toolfaces of the control points; concrete surveys. *)
Require Import Reals ZArith Bool String List Lra Lia Psatz.
Require Import Verif.Base Verif.NumPy Verif.Spec Verif.Spec_Lists Verif.Spec_Rates Verif.M_Utils Verif.M_Survey Verif.M_Connector Verif.M_Rates Verif.M_Sections Verif.Spec_Sections.
Require Import Verif.P_Trig Verif.P_Utils Verif.P_Utils2 Verif.P_Survey Verif.P_Survey2 Verif.P_Survey3 Verif.P_Survey5 Verif.P_Rates Verif.P_Rates2 Verif.P_Rates3 Verif.P_Rates4
  Verif.P_Splice3 Verif.P_Sections Verif.P_Sections2.
Import ListNotations.
Open Scope R_scope.

Lemma right_component : forall a j b, dot (direction_nev j b) (right_side a) = sin j * sin (b - a).
Proof. intros. unfold direction_nev, right_side, dot; simpl. rewrite sin_minus. ring. Qed.
Lemma right_self : forall i a, dot (direction_nev i a) (right_side a) = 0.
Proof. intros. unfold direction_nev, right_side, dot; simpl. ring. Qed.
Lemma right_toolface : forall i a t, dot (toolface_dir i a t) (right_side a) = sin t.
Proof.
  intros. unfold toolface_dir, high_side, right_side, vadd, vscale, dot; simpl. pose proof (sin2_cos2' a) as P.
  assert (Q : sin a * sin a = 1 - cos a * cos a) by lra. ring [Q].
Qed.
Lemma turn_sign_abs : forall x y, turn_sign x y = 1 \/ turn_sign x y = -1.
Proof.
  intros x y. unfold turn_sign. destruct (Rlt_dec (x - y) (-180)); auto. destruct (Rlt_dec 180 (x - y)); auto.
  destruct (Req_EM_T (x - y) 0); auto. unfold Rabs. destruct (Rcase_abs (x - y)); [right|left]; field; lra.
Qed.
Lemma turn_sign_sin : forall x y, - (2 * PI) < x - y < 2 * PI ->
  (0 < sin (x - y) -> turn_sign (degrees x) (degrees y) = 1) /\ (sin (x - y) < 0 -> turn_sign (degrees x) (degrees y) = -1).
Proof.
  intros x y B. pose proof PI_RGT_0 as HP. set (d := x - y) in *.
  assert (E : degrees x - degrees y = d * (180 / PI)) by (unfold d, degrees; field; lra).
  assert (K : 0 < 180 / PI) by (apply Rdiv_lt_0_compat; lra).
  assert (P180 : PI * (180 / PI) = 180) by (field; lra).
  unfold turn_sign. rewrite E.
  assert (C1 : d * (180 / PI) < -180 <-> d < - PI).
  { split; intro H; [apply (Rmult_lt_reg_r (180 / PI)); lra|apply (Rmult_lt_compat_r (180 / PI)) in H; lra]. }
  assert (C2 : 180 < d * (180 / PI) <-> PI < d).
  { split; intro H; [apply (Rmult_lt_reg_r (180 / PI)); lra|apply (Rmult_lt_compat_r (180 / PI)) in H; lra]. }
  assert (S2 : sin (d + 2 * PI) = sin d) by (rewrite sin_plus, sin_2PI, cos_2PI; ring).
  assert (S3 : sin (d - 2 * PI) = sin d) by (rewrite sin_minus, sin_2PI, cos_2PI; ring).
  assert (SN : sin (- d) = - sin d) by apply sin_neg.
  assert (POS : 0 < sin d -> (0 < d < PI) \/ d < - PI).
  { intro H. destruct (Rlt_dec d (- PI)); auto. left. split.
    - destruct (Rlt_dec 0 d); auto. exfalso. assert (0 <= sin (- d)) by (apply sin_ge_0; lra). lra.
    - destruct (Rlt_dec d PI); auto. exfalso. assert (0 <= sin (- (d - 2 * PI))) by (apply sin_ge_0; lra). rewrite sin_neg in *. lra. }
  assert (NEG : sin d < 0 -> (- PI < d < 0) \/ PI < d).
  { intro H. destruct (Rlt_dec PI d); auto. left. split.
    - destruct (Rlt_dec (- PI) d); auto. exfalso. assert (0 <= sin (d + 2 * PI)) by (apply sin_ge_0; lra). lra.
    - destruct (Rlt_dec d 0); auto. exfalso. assert (0 <= sin d) by (apply sin_ge_0; lra). lra. }
  split; intro H.
  - destruct (Rlt_dec (d * (180 / PI)) (-180)) as [|N1]; auto. destruct (Rlt_dec 180 (d * (180 / PI))) as [C|N2]; [apply C2 in C; destruct (POS H); lra|].
    destruct (Req_EM_T (d * (180 / PI)) 0); auto. rewrite Rabs_right; [field; split; [|lra]|].
    + destruct (POS H) as [P|P]; [lra|]. exfalso. apply N1. apply C1; auto.
    + destruct (POS H) as [P|P]; [|exfalso; apply N1; apply C1; auto]. apply Rle_ge. apply Rmult_le_pos; lra.
  - destruct (Rlt_dec (d * (180 / PI)) (-180)) as [C|N1]; [apply C1 in C; destruct (NEG H); lra|]. destruct (Rlt_dec 180 (d * (180 / PI))) as [|N2]; auto.
    destruct (NEG H) as [P|P]; [|exfalso; apply N2; apply C2; auto].
    assert (D : d * (180 / PI) < 0) by nra.
    destruct (Req_EM_T (d * (180 / PI)) 0); [lra|]. rewrite Rabs_left by auto. field. split; lra.
Qed.

Lemma sections_toolface : forall h rows deg sx sn unit s rtol atol dc i lb k t a c n cc tf,
  Survey h rows deg sx sn unit = Some s ->
  nth_error (section_starts s rtol atol dc) i = Some lb -> nth_error (section_starts s rtol atol dc) (S i) = Some k ->
  nth_error (tl (get_sections s rtol atol dc)) (S i) = Some t ->
  nth_error (sv_rows s) lb = Some a -> nth_error (sv_rows s) k = Some c ->
  circular_between (sv_rows s) lb k n cc ->
  0 <= st_azi a < 2 * PI -> 0 <= st_azi c < 2 * PI -> 0 <= st_inc c <= PI ->
  nth_error (cv_toolface (survey_curves s)) lb = Some tf ->
  sin (radians (tp_toolface t)) = sin tf /\ cos (radians (tp_toolface t)) = cos tf.
Proof.
  intros h rows deg sx sn unit s rtol atol dc i lb k t a c n cc tf HS K1 K2 T A C CB Aa Ac Ic TF.
  destruct (sections_nth _ _ _ _ _ _ T) as [[Q _]|(j & lb' & k' & Q & L1 & L2 & ->)]; [discriminate|].
  injection Q as <-. rewrite K1 in L1. injection L1 as <-. rewrite K2 in L2. injection L2 as <-.
  destruct (Survey_stations _ _ _ _ _ _ _ HS) as (HH & L0 & _ & _ & LD & _ & _ & LN & _).
  assert (AC : exists s, Survey h rows deg sx sn unit = Some s) by eauto. apply Survey_accepts in AC. destruct AC as (_ & _ & L).
  assert (LK : (lb < k)%nat).
  { pose proof (starts_ascending s rtol atol dc ltac:(lia)) as ASC. apply nth_error_split in K1. destruct K1 as (pre & post & E & LP).
    rewrite E in K2. rewrite nth_error_app2 in K2 by lia. replace (S i - length pre)%nat with 1%nat in K2 by lia.
    destruct post as [|x post]; [discriminate|]. injection K2 as ->. apply (ascending_neighbours _ _ _ ASC). exists pre, post. auto. }
  assert (KL : (k < length (sv_rows s))%nat) by (apply nth_error_Some; congruence).
  destruct (row_some s (S lb) ltac:(lia)) as [b B].
  destruct (nev_some _ _ _ _ _ _ _ HS _ _ A) as [p P]. destruct (nev_some _ _ _ _ _ _ _ HS _ _ B) as [q Q].
  destruct (nev_some _ _ _ _ _ _ _ HS _ _ C) as [r R].
  destruct CB as (C0 & N & STEP & TOT). pose proof (conj C0 (conj N (conj STEP TOT))) as CB. fold (circular_between (sv_rows s) lb k n cc) in CB.
  destruct (STEP lb a b ltac:(lia) A B) as (T1 & O1 & HB). set (t1 := cc * (st_md b - st_md a)) in *.
  assert (UA : is_unit (heading a)) by apply direction_unit.
  assert (AB : angle_between (heading a) (heading b) t1). { rewrite HB. apply (turn_angle n (heading a)); auto. lra. }
  destruct (toolface_first _ _ _ _ _ _ _ _ _ _ _ _ _ _ HS A B P Q AB T1 TF) as [TFB (_ & _ & _ & _ & HB2)].
  fold (heading a) in HB2. fold (heading b) in HB2.
  assert (TD : toolface_dir (st_inc a) (st_azi a) tf = cross n (heading a)).
  { assert (E : vscale (sin t1) (toolface_dir (st_inc a) (st_azi a) tf) = vscale (sin t1) (cross n (heading a))).
    { assert (X : forall u v w x, vadd u v = w -> vadd u x = w -> v = x).
      { intros [] [] [] [] E1 E2. unfold vadd in *; simpl in *. injection E1 as <- <- <-. injection E2 as E3 E4 E5. apply V3_eq; simpl; lra. }
      symmetry. apply (X _ _ _ _ (eq_sym HB)). symmetry. exact HB2. }
    assert (0 < sin t1) by (apply sin_gt_0; lra).
    destruct (toolface_dir (st_inc a) (st_azi a) tf), (cross n (heading a)). unfold vscale in E; simpl in E. injection E as E1 E2 E3.
    apply V3_eq; simpl; apply (Rmult_eq_reg_l (sin t1)); lra. }
  replace k with (lb + S (k - lb - 1))%nat in C, R by lia.
  destruct (circular_run _ _ _ _ _ _ _ HS lb k n cc CB KL (k - lb - 1)%nat a c p r ltac:(lia) A C P R) as [(_ & _ & T2 & _ & HC) _].
  replace (lb + S (k - lb - 1))%nat with k in C, R by lia.
  set (t2 := cc * (st_md c - st_md a)) in *. rewrite <- TD in HC.
  assert (KEY : sin (st_inc c) * sin (st_azi c - st_azi a) = sin t2 * sin tf).
  { rewrite <- right_component. unfold heading in HC. rewrite HC. unfold arc_tangent.
    rewrite dot_vadd_l, !dot_vscale_l, right_self, right_toolface. ring. }
  assert (S2 : 0 < sin t2) by (apply sin_gt_0; lra).
  assert (SI : 0 <= sin (st_inc c)) by (apply sin_ge_0; lra).
  unfold next_point.
  assert (DL : nth (S lb) (sv_dogleg s) 0 <> 0).
  { destruct (Survey_intervals _ _ _ _ _ _ _ HS) as (_ & _ & _ & _ & _ & ST).
    destruct (ST _ _ _ _ _ A B P Q) as (_ & _ & dl & D & AD). rewrite (nth_error_nth _ _ _ D).
    fold (heading a) in AD. fold (heading b) in AD. destruct AB as [_ AB]. destruct AD as [AD1 AD2].
    assert (dl = t1); [|lra]. apply cos_inj_0_PI; try lra. }
  destruct (Req_EM_T (nth (S lb) (sv_dogleg s) 0) 0); [contradiction|]. cbn [tp_toolface].
  rewrite (nth_error_nth _ _ _ TF), (row_at_nth _ _ _ A), (row_at_nth _ _ _ C).
  destruct (turn_sign_sin (st_azi c) (st_azi a) ltac:(lra)) as [SP SN].
  pose proof PI_RGT_0 as HP.
  assert (RD : forall e, radians (Rabs (degrees tf) * e) = Rabs tf * e).
  { intro e. unfold radians, degrees. unfold Rdiv. rewrite !Rabs_mult. rewrite (Rabs_right 180) by lra. rewrite (Rabs_right (/ PI)) by (left; apply Rinv_0_lt_compat; lra). field. lra. }
  rewrite RD. set (e := turn_sign _ _) in *.
  assert (GOAL : Rabs tf * e = tf \/ (Rabs tf * e = - tf /\ sin tf = 0)).
  { assert (PP : 0 < sin tf -> 0 < tf). { intro H. destruct (Rlt_dec 0 tf); auto. assert (0 <= sin (- tf)) by (apply sin_ge_0; lra). rewrite sin_neg in *. lra. }
    assert (NN : sin tf < 0 -> tf < 0). { intro H. destruct (Rlt_dec tf 0); auto. assert (0 <= sin tf) by (apply sin_ge_0; lra). lra. }
    destruct (Rtotal_order (sin tf) 0) as [H|[H|H]].
    - left. rewrite SN; [rewrite Rabs_left by auto; ring|]. destruct (Rlt_dec (sin (st_azi c - st_azi a)) 0); auto. exfalso. assert (sin t2 * sin tf < 0) by nra. assert (0 <= sin (st_inc c) * sin (st_azi c - st_azi a)) by (apply Rmult_le_pos; lra). lra.
    - unfold Rabs. destruct (Rcase_abs tf); destruct (turn_sign_abs (degrees (st_azi c)) (degrees (st_azi a))) as [X|X]; unfold e; rewrite X; [right|left|left|right]; try split; auto; ring.
    - left. rewrite SP; [rewrite Rabs_right by (pose proof (PP H); lra); ring|]. destruct (Rlt_dec 0 (sin (st_azi c - st_azi a))); auto. exfalso. assert (0 < sin t2 * sin tf) by nra. assert (sin (st_inc c) * sin (st_azi c - st_azi a) <= 0) by nra. lra. }
  destruct GOAL as [G|[G Z]]; rewrite G; auto. rewrite sin_neg, cos_neg, Z. split; [ring|auto].
Qed.
