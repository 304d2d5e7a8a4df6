(** Proofs about M_Rates.v: build and turn rates. *)
Require Import Reals ZArith Bool String List Lra Lia Psatz.
Require Import Verif.Base Verif.NumPy Verif.P_Trig Verif.Spec Verif.Spec_Lists Verif.Spec_Rates
  Verif.M_Utils Verif.P_Utils Verif.P_Utils2 Verif.P_Utils3 Verif.M_Survey Verif.P_Survey Verif.P_Survey2
  Verif.M_Rates Verif.P_Rates.
Import ListNotations.
Open Scope R_scope.

Lemma ediv_ne : forall a b, b <> 0 -> ediv a b = Fin (a / b).
Proof. intros. unfold ediv. destruct (Req_EM_T b 0); [contradiction|auto]. Qed.
Lemma ediv_pos0 : forall a, 0 < a -> ediv a 0 = PInf.
Proof. intros. unfold ediv. destruct (Req_EM_T 0 0); [|lra]. destruct (Rlt_dec 0 a); [auto|lra]. Qed.

Lemma rate_fin : forall x c, 0 < x -> curvature_to_rate x (Fin c) = Fin (x * Rabs (degrees c)).
Proof.
  intros x c Hx. pose proof PI_RGT_0. unfold curvature_to_rate, pos_div_ext at 2.
  destruct (Req_EM_T c 0) as [->|Hc].
  - rewrite ediv_pos0 by lra. simpl. f_equal. unfold degrees. rewrite !Rmult_0_l, !Rmult_0_r, Rabs_R0. ring.
  - rewrite ediv_ne by auto. unfold ext_mul_pos. cbn [ext_scale]. unfold pos_div_ext.
    assert (2 * PI * (1 / c) <> 0).
    { apply Rmult_integral_contrapositive_currified; [lra|]. apply Rmult_integral_contrapositive_currified; [lra|].
      apply Rinv_neq_0_compat; auto. }
    rewrite ediv_ne by auto. cbn [ext_scale eabs]. f_equal.
    rewrite Rabs_mult, (Rabs_right x) by lra. f_equal. f_equal. unfold degrees. field. repeat split; auto; lra.
Qed.
Lemma rate_inf : forall x, 0 < x -> curvature_to_rate x PInf = PInf /\ curvature_to_rate x NInf = PInf /\ curvature_to_rate x NaN = NaN.
Proof.
  intros x Hx. pose proof PI_RGT_0. unfold curvature_to_rate. simpl.
  rewrite !Rmult_0_r, !ediv_pos0 by lra. auto.
Qed.

(** curvature of a finite dls *)
Lemma curvature_fin : forall x d, 0 < x ->
  pos_div_ext 1 (curve_radius x (Fin d)) = Fin (radians d / x).
Proof.
  intros x d Hx. pose proof PI_RGT_0. unfold curve_radius, pos_div_ext at 2.
  destruct (Req_EM_T d 0) as [->|Hd].
  - rewrite ediv_pos0 by lra. simpl. f_equal. unfold radians. field. lra.
  - rewrite ediv_ne by auto. unfold ext_mul_pos, ext_div_pos. cbn [ext_scale]. unfold pos_div_ext.
    assert (/ (2 * PI) * (x * (360 / d)) <> 0).
    { apply Rmult_integral_contrapositive_currified; [apply Rinv_neq_0_compat; lra|].
      apply Rmult_integral_contrapositive_currified; [lra|].
      apply Rmult_integral_contrapositive_currified; [lra|]. apply Rinv_neq_0_compat; auto. }
    rewrite ediv_ne by auto. f_equal. unfold radians. field. repeat split; auto; lra.
Qed.

Lemma degrees_radians : forall d, degrees (radians d) = d.
Proof. intro. unfold degrees, radians. field. apply PI_neq0'. Qed.
Lemma degrees_scale : forall k c, degrees (k * c) = k * degrees c.
Proof. intros. unfold degrees. ring. Qed.

Lemma build_fin : forall x d t, 0 < x -> build_rate_at x (Fin d) t = Fin (Rabs (d * cos t)).
Proof.
  intros x d t Hx. unfold build_rate_at. rewrite curvature_fin by auto. unfold emul. rewrite rate_fin by auto.
  f_equal. replace (radians d / x * cos t) with (cos t / x * radians d) by (field; lra).
  rewrite degrees_scale, degrees_radians.
  rewrite <- (Rabs_right x) at 1 by lra. rewrite <- Rabs_mult. f_equal. field. lra.
Qed.
Lemma turn_fin : forall x d t i, 0 < x -> sin i <> 0 -> turn_rate_at x (Fin d) t i = Fin (Rabs (d * sin t / sin i)).
Proof.
  intros x d t i Hx Hi. unfold turn_rate_at. rewrite curvature_fin, ediv_ne by auto. unfold emul. rewrite rate_fin by auto.
  f_equal. replace (radians d / x * (sin t / sin i)) with (sin t / sin i / x * radians d) by (field; split; auto; lra).
  rewrite degrees_scale, degrees_radians.
  rewrite <- (Rabs_right x) at 1 by lra. rewrite <- Rabs_mult. f_equal. field. split; auto. lra.
Qed.
Lemma turn_vertical : forall x d t i, 0 < x -> sin i = 0 ->
  turn_rate_at x (Fin d) t i = (if Req_EM_T (d * sin t) 0 then NaN else PInf).
Proof.
  intros x d t i Hx Hi. unfold turn_rate_at. rewrite curvature_fin by auto. rewrite Hi. pose proof PI_RGT_0.
  destruct (rate_inf x Hx) as [RP [RN RQ]].
  assert (S : (0 < radians d / x <-> 0 < d) /\ (radians d / x < 0 <-> d < 0)).
  { replace (radians d / x) with (d * (PI / 180 / x)) by (unfold radians; field; lra).
    assert (0 < PI / 180 / x) by (apply Rdiv_lt_0_compat; lra).
    split; split; intro; nra. }
  unfold ediv. destruct (Req_EM_T 0 0); [|lra].
  destruct (Rlt_dec 0 (sin t)).
  - cbn [emul]. destruct (Rlt_dec 0 (radians d / x)).
    + rewrite RP. destruct (Req_EM_T (d * sin t) 0); auto. exfalso. destruct S. apply H0 in r0. nra.
    + destruct (Rlt_dec (radians d / x) 0).
      * rewrite RN. destruct (Req_EM_T (d * sin t) 0); auto. exfalso. destruct S. apply H1 in r0. nra.
      * rewrite RQ. destruct (Req_EM_T (d * sin t) 0); auto. exfalso. apply n1. destruct S as [[S1 S2] [S3 S4]].
        destruct (Rtotal_order d 0) as [L|[L|L]]; [elim n0; auto| subst; ring | elim n; auto].
  - destruct (Rlt_dec (sin t) 0).
    + cbn [emul]. destruct (Rlt_dec 0 (radians d / x)).
      * rewrite RN. destruct (Req_EM_T (d * sin t) 0); auto. exfalso. destruct S. apply H0 in r0. nra.
      * destruct (Rlt_dec (radians d / x) 0).
        -- rewrite RP. destruct (Req_EM_T (d * sin t) 0); auto. exfalso. destruct S. apply H1 in r0. nra.
        -- rewrite RQ. destruct (Req_EM_T (d * sin t) 0); auto. exfalso. apply n2. destruct S as [[S1 S2] [S3 S4]].
           destruct (Rtotal_order d 0) as [L|[L|L]]; [elim n1; auto| subst; ring | elim n0; auto].
    + cbn [emul]. rewrite RQ. destruct (Req_EM_T (d * sin t) 0); auto. exfalso. apply n1.
      assert (sin t = 0) by lra. rewrite H0. ring.
Qed.

(** ** list positions *)
Lemma combine_nth_error : forall (A B : Type) (l : list A) (m : list B) k a b,
  nth_error l k = Some a -> nth_error m k = Some b -> nth_error (combine l m) k = Some (a, b).
Proof.
  induction l as [|x l IH]; intros m k a b H1 H2; [destruct k; discriminate|].
  destruct m as [|y m]; [destruct k; discriminate|].
  destruct k; simpl in *; [congruence|]. apply IH; auto.
Qed.

Lemma rate_length_pos : forall u, 0 < rate_length u.
Proof. intro u. unfold rate_length. destruct (String.eqb u "meters"); lra. Qed.

(** every station: the rates are the dls resolved by the toolface *)
Lemma rates_everywhere : forall s k a d tf,
  nth_error (sv_rows s) k = Some a ->
  nth_error (cv_dls (survey_curves s)) k = Some (Fin d) ->
  nth_error (cv_toolface (survey_curves s)) k = Some tf ->
  nth_error (cv_build_rate (survey_curves s)) k = Some (Fin (Rabs (d * cos tf))) /\
  (sin (st_inc a) <> 0 ->
   nth_error (cv_turn_rate (survey_curves s)) k = Some (Fin (Rabs (d * sin tf / sin (st_inc a))))) /\
  (sin (st_inc a) = 0 -> d * sin tf = 0 -> nth_error (cv_turn_rate (survey_curves s)) k = Some NaN) /\
  (sin (st_inc a) = 0 -> d * sin tf <> 0 -> nth_error (cv_turn_rate (survey_curves s)) k = Some PInf).
Proof.
  intros s k a d tf A D T. cbn [survey_curves cv_dls cv_toolface cv_build_rate cv_turn_rate] in *.
  pose proof (rate_length_pos (h_unit (sv_header s))) as X. set (x := rate_length _) in *.
  assert (TR : nth_error (turn_rates x (sv_rows s)) k = Some (turn_rate_at x (Fin d) tf (st_inc a))).
  { unfold turn_rates. rewrite nth_error_map.
    rewrite (combine_nth_error _ _ _ _ _ _ _ (combine_nth_error _ _ _ _ _ _ _ D T) A). reflexivity. }
  split; [|split; [|split]].
  - unfold build_rates. rewrite nth_error_map, (combine_nth_error _ _ _ _ _ _ _ D T). simpl. rewrite build_fin; auto.
  - intro. rewrite TR, turn_fin; auto.
  - intros Z E. rewrite TR, turn_vertical by auto. destruct (Req_EM_T (d * sin tf) 0); [auto|contradiction].
  - intros Z E. rewrite TR, turn_vertical by auto. destruct (Req_EM_T (d * sin tf) 0); [contradiction|auto].
Qed.

(** the dls attribute *)
Lemma dls_first : forall s, nth_error (cv_dls (survey_curves s)) 0 = Some (Fin 0).
Proof. reflexivity. Qed.
Lemma dls_next : forall s k a b t,
  nth_error (sv_rows s) k = Some a -> nth_error (sv_rows s) (S k) = Some b ->
  angle_between (direction_nev (st_inc a) (st_azi a)) (direction_nev (st_inc b) (st_azi b)) t ->
  st_md a <> st_md b ->
  nth_error (cv_dls (survey_curves s)) (S k)
  = Some (Fin (rate_length (h_unit (sv_header s)) * (t * (180 / PI)) / (st_md b - st_md a))).
Proof.
  intros s k a b t A B AB N. cbn [survey_curves cv_dls]. unfold dls_list. simpl.
  rewrite (pairwise_nth _ _ (pair_dls _) _ _ _ _ A B).
  rewrite pair_dls_distinct by auto. rewrite (pair_angle_is a b t AB). unfold degrees. do 2 f_equal.
  field. split; [apply PI_neq0'|]. intro. apply N. lra.
Qed.

(** ** differentiating a direction *)
Lemma lim_unique_near : forall f g x l m eps, 0 < eps ->
  (forall s, Rabs (s - x) < eps -> f s = g s) ->
  derivable_pt_lim f x l -> derivable_pt_lim g x m -> l = m.
Proof.
  intros f g x l m eps He E F G.
  apply (uniqueness_limite f x); auto.
  intros e Hep. destruct (G e Hep) as [[d Hd] D].
  exists (mkposreal (Rmin d eps) (Rmin_pos _ _ Hd He)). intros h Hh Hs. simpl in Hs.
  rewrite !E. apply D; auto. simpl. eapply Rlt_le_trans; [exact Hs | apply Rmin_l].
  replace (x - x) with 0 by ring. rewrite Rabs_R0; auto.
  replace (x + h - x) with h by ring. eapply Rlt_le_trans; [exact Hs | apply Rmin_r].
Qed.

Lemma lim_sin_of : forall f x l, derivable_pt_lim f x l -> derivable_pt_lim (fun s => sin (f s)) x (cos (f x) * l).
Proof. intros. apply (derivable_pt_lim_comp f sin); auto. apply derivable_pt_lim_sin. Qed.
Lemma lim_cos_of : forall f x l, derivable_pt_lim f x l -> derivable_pt_lim (fun s => cos (f s)) x (- sin (f x) * l).
Proof. intros. apply (derivable_pt_lim_comp f cos); auto. apply derivable_pt_lim_cos. Qed.

Lemma lim_arc_tangent : forall u n t k,
  vderivative (fun s => arc_tangent u n (t + s * k)) 0 (vscale k (arc_normal u n t)).
Proof.
  intros u n t k.
  assert (L : derivable_pt_lim (fun s => t + s * k) 0 k).
  { apply (eq_rect (0 + (1 * k + 0 * 0)) (derivable_pt_lim (fun s => t + s * k) 0)); [|ring].
    apply (derivable_pt_lim_plus (fun _ => t) (fun s => s * k)); [apply derivable_pt_lim_const|].
    apply (derivable_pt_lim_mult (fun s => s) (fun _ => k)); [apply derivable_pt_lim_id|apply derivable_pt_lim_const]. }
  pose proof (lim_sin_of _ _ _ L) as LS. pose proof (lim_cos_of _ _ _ L) as LC. simpl in LS, LC.
  replace (t + 0 * k) with t in LS, LC by ring.
  assert (K : forall a b, derivable_pt_lim (fun s => cos (t + s * k) * a + sin (t + s * k) * b) 0
     (k * (cos t * b - sin t * a))).
  { intros a b. replace (k * (cos t * b - sin t * a)) with (((- sin t * k) * a + cos (t + 0 * k) * 0) + ((cos t * k) * b + sin (t + 0 * k) * 0)) by ring.
    apply (derivable_pt_lim_plus (fun s => cos (t + s * k) * a) (fun s => sin (t + s * k) * b)).
    - apply (derivable_pt_lim_mult (fun s => cos (t + s * k)) (fun _ => a)); auto. apply derivable_pt_lim_const.
    - apply (derivable_pt_lim_mult (fun s => sin (t + s * k)) (fun _ => b)); auto. apply derivable_pt_lim_const. }
  destruct u as [u1 u2 u3], n as [n1 n2 n3].
  unfold vderivative, arc_tangent, arc_normal; unf. split; [|split]; apply K.
Qed.

(** rates of inclination and azimuth of a moving direction *)
Lemma attitude_rates : forall D incf azif di da w,
  attitude_along D incf azif di da -> vderivative D 0 w ->
  w = vadd (vscale di (high_side (incf 0) (azif 0)))
           (vscale (da * sin (incf 0)) (right_side (azif 0))).
Proof.
  intros D incf azif di da w ((eps & He & E) & LI & LA) (W1 & W2 & W3).
  pose proof (lim_sin_of _ _ _ LI) as SI. pose proof (lim_cos_of _ _ _ LI) as CI.
  pose proof (lim_sin_of _ _ _ LA) as SA. pose proof (lim_cos_of _ _ _ LA) as CA.
  set (i := incf 0) in *. set (a := azif 0) in *.
  assert (E1 : vx w = (cos i * di) * cos a + sin i * (- sin a * da)).
  { refine (lim_unique_near _ (fun s => sin (incf s) * cos (azif s)) 0 _ _ eps He _ W1 _).
    - intros s Hs. rewrite Rminus_0_r in Hs. rewrite <- E by auto. reflexivity.
    - apply (derivable_pt_lim_mult (fun s => sin (incf s)) (fun s => cos (azif s))); auto. }
  assert (E2 : vy w = (cos i * di) * sin a + sin i * (cos a * da)).
  { refine (lim_unique_near _ (fun s => sin (incf s) * sin (azif s)) 0 _ _ eps He _ W2 _).
    - intros s Hs. rewrite Rminus_0_r in Hs. rewrite <- E by auto. reflexivity.
    - apply (derivable_pt_lim_mult (fun s => sin (incf s)) (fun s => sin (azif s))); auto. }
  assert (E3 : vz w = - sin i * di).
  { refine (lim_unique_near _ (fun s => cos (incf s)) 0 _ _ eps He _ W3 _); auto.
    intros s Hs. rewrite Rminus_0_r in Hs. rewrite <- E by auto. reflexivity. }
  unfold high_side, right_side. apply V3_eq; unf; rewrite ?E1, ?E2, ?E3; ring.
Qed.

(** two attitudes of one direction have the same axes up to a common sign *)
Lemma same_direction_axes : forall i a j b, direction_nev i a = direction_nev j b -> sin j <> 0 ->
  exists e, (e = 1 \/ e = -1) /\ sin i = e * sin j /\
    high_side i a = vscale e (high_side j b) /\ right_side a = vscale e (right_side b).
Proof.
  intros i a j b E Hj. unfold direction_nev in E. injection E as E1 E2 E3.
  pose proof (sin2_cos2' i) as Pi. pose proof (sin2_cos2' j) as Pj.
  rewrite E3 in Pi.
  assert (S : sin i * sin i = sin j * sin j) by lra.
  assert (D : sin i = sin j \/ sin i = - sin j).
  { assert (Q : (sin i - sin j) * (sin i + sin j) = 0) by lra. apply Rmult_integral in Q. destruct Q; [left|right]; lra. }
  destruct D as [D|D]; rewrite D in E1, E2.
  - apply Rmult_eq_reg_l in E1; [|auto]. apply Rmult_eq_reg_l in E2; [|auto].
    exists 1. unfold high_side, right_side. rewrite E1, E2, E3, D.
    split; [auto|]. split; [ring|]. split; unf; apply V3_eq; simpl; ring.
  - assert (F1 : cos a = - cos b) by (apply (Rmult_eq_reg_l (sin j)); auto; lra).
    assert (F2 : sin a = - sin b) by (apply (Rmult_eq_reg_l (sin j)); auto; lra).
    exists (-1). unfold high_side, right_side. rewrite F1, F2, E3, D.
    split; [auto|]. split; [ring|]. split; unf; apply V3_eq; simpl; ring.
Qed.

Lemma axes_independent : forall i a p q p' q',
  vadd (vscale p (high_side i a)) (vscale q (right_side a))
  = vadd (vscale p' (high_side i a)) (vscale q' (right_side a)) -> p = p' /\ q = q'.
Proof.
  intros i a p q p' q' E.
  pose proof (sin2_cos2' i) as Pi. pose proof (sin2_cos2' a) as Pa.
  assert (Si : sin i * sin i = 1 - cos i * cos i) by lra.
  assert (Sa : sin a * sin a = 1 - cos a * cos a) by lra.
  assert (H : forall x y, dot (vadd (vscale x (high_side i a)) (vscale y (right_side a))) (high_side i a) = x).
  { intros. unfold high_side, right_side; unf. ring [Si Sa]. }
  assert (H' : forall x y, dot (vadd (vscale x (high_side i a)) (vscale y (right_side a))) (right_side a) = y).
  { intros. unfold high_side, right_side; unf. ring [Si Sa]. }
  split; [rewrite <- (H p q), E, H | rewrite <- (H' p q), E, H']; auto.
Qed.

(** the last station's rates are the rates of change of the angles along the
    last arc *)
Lemma last_rates : forall h rows deg sx sn unit s k a b p q t n incf azif di da,
  Survey h rows deg sx sn unit = Some s ->
  nth_error (sv_rows s) k = Some a -> nth_error (sv_rows s) (S k) = Some b ->
  length (sv_rows s) = S (S k) ->
  nth_error (sv_nev s) k = Some p -> nth_error (sv_nev s) (S k) = Some q ->
  let u := direction_nev (st_inc a) (st_azi a) in
  let v := direction_nev (st_inc b) (st_azi b) in
  let len := st_md b - st_md a in
  section_arc p u q v len t n -> 0 < len -> sin (st_inc b) <> 0 ->
  attitude_along (fun s => arc_tangent u n (t + s * (t / len))) incf azif di da ->
  let per := if String.eqb unit "meters" then 30 else 100 in
  nth_error (cv_build_rate (survey_curves s)) (S k) = Some (Fin (per * Rabs (degrees di))) /\
  nth_error (cv_turn_rate (survey_curves s)) (S k) = Some (Fin (per * Rabs (degrees da))).
Proof.
  intros h rows deg sx sn unit s k a b p q t n incf azif di da HS A B L P Q u v len SA Hl Hi AT per.
  pose proof SA as (N1 & N2 & Ht & EP & EV).
  assert (AB : angle_between u v t).
  { split; [lra|]. rewrite EV. unfold arc_tangent.
    rewrite dot_vadd_r, !dot_vscale_r. unfold orthogonal in N2. rewrite N2.
    pose proof (direction_unit (st_inc a) (st_azi a)) as U. fold u in U. unfold is_unit in U. rewrite U. ring. }
  assert (EX : rate_length (h_unit (sv_header s)) = per).
  { apply Survey_inv in HS. destruct HS as (HU & HH & _). rewrite HH, <- HU. reflexivity. }
  pose proof (dls_next s k a b t A B AB ltac:(unfold len in Hl; lra)) as D. rewrite EX in D. fold len in D.
  set (d := per * (t * (180 / PI)) / len) in *.
  destruct (toolfaces_last _ _ _ _ A B L) as [TF _].
  assert (TF' : nth_error (cv_toolface (survey_curves s)) (S k) = Some (toolface_end a b)) by exact TF.
  destruct (toolface_final _ _ _ _ _ _ _ _ _ _ _ _ _ _ _ HS A B L P Q SA TF') as [_ NE].
  fold u in NE. set (tf := toolface_end a b) in *.
  destruct (rates_everywhere s (S k) b d tf B D TF') as [RB [RT _]].
  pose proof (attitude_rates _ _ _ _ _ _ AT (lim_arc_tangent u n t (t / len))) as W.
  destruct AT as ((eps & He & E) & LI & LA).
  assert (E0 : direction_nev (incf 0) (azif 0) = direction_nev (st_inc b) (st_azi b)).
  { rewrite E by (rewrite Rabs_R0; auto). fold v. rewrite EV. f_equal. ring. }
  destruct (same_direction_axes _ _ _ _ E0 Hi) as (e & He1 & SI & HH & RR).
  rewrite HH, RR, SI, <- NE in W. unfold toolface_dir in W.
  rewrite vscale_vadd, !vscale_vscale in W.
  apply axes_independent in W. destruct W as [W1 W2].
  assert (per <> 0) by (unfold per; destruct (String.eqb unit "meters"); lra).
  assert (Hper : 0 < per) by (unfold per; destruct (String.eqb unit "meters"); lra).
  pose proof PI_RGT_0.
  assert (Ea : Rabs e = 1) by (destruct He1; subst e; [apply Rabs_R1 | rewrite Rabs_left; lra]).
  assert (Ee : e * e = 1) by (destruct He1; subst e; ring).
  assert (Edi : Rabs di = Rabs (t / len * cos tf)) by (rewrite W1, Rabs_mult, Ea; ring).
  assert (Eda : Rabs da = Rabs (t / len * sin tf / sin (st_inc b))).
  { rewrite W2. replace (da * (e * sin (st_inc b)) * e / sin (st_inc b)) with ((e * e) * da) by (field; auto).
    rewrite Ee, Rmult_1_l. auto. }
  rewrite RB, RT by auto.
  assert (K : forall z y, Rabs y = Rabs z -> Rabs (per * (180 / PI) * z) = per * Rabs (degrees y)).
  { intros z y Hz. unfold degrees. rewrite !Rabs_mult, Hz, (Rabs_right per) by lra. ring. }
  split; do 2 f_equal.
  - rewrite <- (K _ _ Edi). f_equal. unfold d. field. split; [|lra]. unfold len in Hl |- *; lra.
  - rewrite <- (K _ _ Eda). f_equal. unfold d. field. repeat split; auto; try lra.
Qed.
