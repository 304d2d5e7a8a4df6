(** Proofs about M_Utils.v: MinCurve on lists, HLA transforms, packing,
    conversions, arcs and toolface. *)
Require Import Reals Lra Psatz ZArith String List.
Require Import Verif.Base Verif.NumPy Verif.P_Trig Verif.Spec Verif.M_Utils Verif.P_Utils.
Import ListNotations.
Open Scope R_scope.

(** ** generic list facts *)
Lemma pairwise_length : forall A B (f : A -> A -> B) l,
  length (pairwise f l) = pred (length l).
Proof.
  intros A B f l. induction l as [|a [|b r] IH]; simpl in *; auto.
Qed.
Lemma pairwise_nth : forall A B (f : A -> A -> B) l k a b,
  nth_error l k = Some a -> nth_error l (S k) = Some b ->
  nth_error (pairwise f l) k = Some (f a b).
Proof.
  intros A B f l. induction l as [|x [|y r] IH]; intros k a b H1 H2.
  - destruct k; discriminate.
  - destruct k as [|[|]]; simpl in H2; discriminate.
  - destruct k as [|k].
    + simpl in *. injection H1; injection H2; intros; subst; reflexivity.
    + simpl. apply IH; auto.
Qed.
Lemma pairwise_firstn : forall A B (f : A -> A -> B) m l,
  pairwise f (firstn (S m) l) = firstn m (pairwise f l).
Proof.
  intros A B f m. induction m as [|m IH]; intros l.
  - destruct l as [|a [|b r]]; reflexivity.
  - destruct l as [|a [|b r]]; try reflexivity.
    change (firstn (S (S m)) (a :: b :: r)) with (a :: b :: firstn m r).
    change (pairwise f (a :: b :: firstn m r)) with (f a b :: pairwise f (firstn (S m) (b :: r))).
    rewrite IH. reflexivity.
Qed.
Lemma vcumsum_from_length : forall l acc, length (vcumsum_from acc l) = length l.
Proof. induction l; simpl; auto. Qed.
Lemma vcumsum_from_firstn : forall m l acc,
  vcumsum_from acc (firstn m l) = firstn m (vcumsum_from acc l).
Proof. induction m; intros [|d r] acc; simpl; auto. rewrite IHm; auto. Qed.
Lemma vcumsum_from_step : forall l acc k p q d,
  nth_error (vcumsum_from acc l) k = Some p ->
  nth_error (vcumsum_from acc l) (S k) = Some q ->
  nth_error l (S k) = Some d -> q = vadd p d.
Proof.
  induction l as [|x r IH]; intros acc k p q d H1 H2 H3.
  - destruct k; discriminate.
  - destruct k as [|k].
    + destruct r as [|y r]; simpl in *; [discriminate|].
      injection H1; injection H2; injection H3; intros; subst; reflexivity.
    + simpl in *. eapply IH; eauto.
Qed.

(** ** MinCurve *)
Definition mc_list (svy : list station) (start : V3) : list V3 :=
  map (fun p => vadd p start) (vcumsum (vzero :: pairwise pair_delta svy)).

Lemma MinCurve_poss : forall svy start unit mc,
  MinCurve svy start unit = Some mc -> mc_poss mc = mc_list svy start.
Proof.
  intros svy start unit mc H. unfold MinCurve in H.
  destruct (unit_coeff unit); [|discriminate].
  destruct (Nat.leb _ _); [discriminate|]. injection H; intros; subst. reflexivity.
Qed.

Lemma mc_list_length : forall svy start, (1 < length svy)%nat ->
  length (mc_list svy start) = length svy.
Proof.
  intros. unfold mc_list, vcumsum. rewrite map_length, vcumsum_from_length.
  simpl. rewrite pairwise_length. lia.
Qed.

Lemma mc_list_first : forall svy start, nth_error (mc_list svy start) 0 = Some start.
Proof.
  intros. unfold mc_list, vcumsum. simpl. f_equal.
  rewrite vadd_0_l, vadd_0_l. reflexivity.
Qed.

Lemma mc_list_step : forall svy start k a b p q,
  nth_error svy k = Some a -> nth_error svy (S k) = Some b ->
  nth_error (mc_list svy start) k = Some p ->
  nth_error (mc_list svy start) (S k) = Some q ->
  q = vadd p (pair_delta a b).
Proof.
  intros svy start k a b p q Ha Hb Hp Hq. unfold mc_list in *.
  rewrite nth_error_map in Hp, Hq.
  destruct (nth_error (vcumsum _) k) as [p'|] eqn:E1; [|discriminate].
  destruct (nth_error (vcumsum _) (S k)) as [q'|] eqn:E2; [|discriminate].
  simpl in Hp, Hq. injection Hp; injection Hq; intros; subst.
  assert (q' = vadd p' (pair_delta a b)).
  { eapply vcumsum_from_step; eauto. simpl. eapply pairwise_nth; eauto. }
  subst. destruct p', start, (pair_delta a b); unf; apply V3_eq; simpl; ring.
Qed.

Lemma mc_list_prefix : forall svy start m, (1 <= m)%nat ->
  mc_list (firstn m svy) start = firstn m (mc_list svy start).
Proof.
  intros svy start m Hm. destruct m as [|m]; [lia|].
  unfold mc_list. rewrite firstn_map. f_equal. unfold vcumsum.
  rewrite <- vcumsum_from_firstn. f_equal. simpl. f_equal. apply pairwise_firstn.
Qed.

Lemma mc_list_translate : forall svy s d,
  mc_list svy (vadd s d) = map (fun p => vadd p d) (mc_list svy s).
Proof.
  intros. unfold mc_list. rewrite map_map. apply map_ext. intro. apply vadd_assoc.
Qed.

Lemma MinCurve_some : forall svy start unit,
  (exists mc, MinCurve svy start unit = Some mc)
  <-> ((unit = "meters" \/ unit = "feet")%string /\ (2 <= length svy)%nat).
Proof.
  intros. unfold MinCurve, unit_coeff. split.
  - intros [mc H].
    destruct (String.eqb_spec unit "meters"); [|destruct (String.eqb_spec unit "feet"); [|discriminate]];
      destruct (Nat.leb_spec (length svy) 1); try discriminate; split; auto; lia.
  - intros [[H|H] L]; subst; simpl;
      destruct (Nat.leb_spec (length svy) 1); try lia; eexists; reflexivity.
Qed.

Lemma pair_delta_step : forall a b,
  pair_delta a b = swap_xy (min_curve_step (st_md b - st_md a) (st_inc a) (st_azi a) (st_inc b) (st_azi b)).
Proof. reflexivity. Qed.

Lemma MinCurve_dls : forall svy start unit mc k a b,
  MinCurve svy start unit = Some mc ->
  nth_error svy k = Some a -> nth_error svy (S k) = Some b ->
  exists coeff, unit_coeff unit = Some coeff /\
    nth_error (mc_dls mc) 0 = Some (Fin 0) /\
    nth_error (mc_dls mc) (S k) = Some (pair_dls coeff a b).
Proof.
  intros svy start unit mc k a b H Ha Hb. unfold MinCurve in H.
  destruct (unit_coeff unit) as [c|]; [|discriminate].
  destruct (Nat.leb _ _); [discriminate|]. injection H; intros; subst; simpl.
  exists c. split; auto. split; auto. apply pairwise_nth; auto.
Qed.

Lemma MinCurve_dogleg : forall svy start unit mc k a b,
  MinCurve svy start unit = Some mc ->
  nth_error svy k = Some a -> nth_error svy (S k) = Some b ->
  nth_error (mc_dogleg mc) (S k) = Some (pair_dogleg a b)
  /\ nth_error (mc_delta_md mc) (S k) = Some (st_md b - st_md a).
Proof.
  intros svy start unit mc k a b H Ha Hb. unfold MinCurve in H.
  destruct (unit_coeff unit) as [c|]; [|discriminate].
  destruct (Nat.leb _ _); [discriminate|]. injection H; intros; subst; simpl.
  split. apply pairwise_nth; auto.
  clear H. revert k a b Ha Hb. generalize 0 as p.
  induction svy as [|x r IH]; intros p k a b Ha Hb.
  - destruct k; discriminate.
  - destruct k as [|k].
    + destruct r as [|y r]; simpl in *; [discriminate|].
      injection Ha; injection Hb; intros; subst; reflexivity.
    + simpl. simpl in Ha, Hb. apply (IH (st_md x) k a b); auto.
Qed.

Lemma PI_neq0' : PI <> 0. Proof. pose proof PI_RGT_0; lra. Qed.

Lemma pair_dls_distinct : forall c a b, st_md a <> st_md b ->
  pair_dls c a b = Fin (c * (degrees (pair_dogleg a b) / (st_md b - st_md a))).
Proof.
  intros. unfold pair_dls, ediv. destruct (Req_EM_T (st_md b - st_md a) 0); [lra|]. reflexivity.
Qed.
Lemma pair_dls_repeat_same : forall c a b, st_md a = st_md b ->
  pair_dogleg a b = 0 -> pair_dls c a b = Fin 0.
Proof.
  intros c a b H Z. unfold pair_dls, ediv, degrees. rewrite Z.
  destruct (Req_EM_T (st_md b - st_md a) 0); [|lra].
  rewrite Rmult_0_l. destruct (Rlt_dec 0 0); [lra|]. reflexivity.
Qed.
Lemma pair_dls_repeat_turn : forall c a b, st_md a = st_md b ->
  0 < pair_dogleg a b -> pair_dls c a b = PInf.
Proof.
  intros c a b H Z. unfold pair_dls, ediv, degrees.
  destruct (Req_EM_T (st_md b - st_md a) 0); [|lra].
  pose proof PI_RGT_0.
  assert (0 < 180 / PI) by (apply Rdiv_lt_0_compat; lra).
  destruct (Rlt_dec 0 (pair_dogleg a b * (180 / PI))) as [|N]; [reflexivity|].
  exfalso; apply N. nra.
Qed.

(** ** HLA transforms *)
Lemma transform_orth : forall i a, mm (get_transform i a) (mtrans (get_transform i a)) = mid.
Proof.
  intros. pose proof (sin2_cos2' i) as Hi. pose proof (sin2_cos2' a) as Ha.
  assert (Si : sin i * sin i = 1 - cos i * cos i) by lra.
  assert (Sa : sin a * sin a = 1 - cos a * cos a) by lra.
  clear Hi Ha. unfold get_transform; unf. apply M3_eq; apply V3_eq; simpl; ring [Si Sa].
Qed.
Lemma transform_orth' : forall i a, mm (mtrans (get_transform i a)) (get_transform i a) = mid.
Proof.
  intros. pose proof (sin2_cos2' i) as Hi. pose proof (sin2_cos2' a) as Ha.
  assert (Si : sin i * sin i = 1 - cos i * cos i) by lra.
  assert (Sa : sin a * sin a = 1 - cos a * cos a) by lra.
  unfold get_transform; unf. apply M3_eq; apply V3_eq; simpl; ring [Si Sa].
Qed.
Lemma transform_det : forall i a, det (get_transform i a) = 1.
Proof.
  intros. pose proof (sin2_cos2' i) as Hi. pose proof (sin2_cos2' a) as Ha.
  assert (Si : sin i * sin i = 1 - cos i * cos i) by lra.
  assert (Sa : sin a * sin a = 1 - cos a * cos a) by lra.
  unfold get_transform, det; unf. ring [Si Sa].
Qed.
Lemma hla_vec_mv : forall i a v, NEV_to_HLA_vec i a v = mv (get_transform i a) v.
Proof. intros. unfold NEV_to_HLA_vec. destruct v; unfold get_transform; unf; apply V3_eq; simpl; ring. Qed.
Lemma nev_vec_mv : forall i a v, HLA_to_NEV_vec i a v = mv (mtrans (get_transform i a)) v.
Proof. intros. unfold HLA_to_NEV_vec. destruct v; unfold get_transform; unf; apply V3_eq; simpl; ring. Qed.

Lemma hla_vec_roundtrip : forall i a v, HLA_to_NEV_vec i a (NEV_to_HLA_vec i a v) = v.
Proof. intros. rewrite hla_vec_mv, nev_vec_mv, <- mv_mm, transform_orth', mv_id. reflexivity. Qed.
Lemma nev_vec_roundtrip : forall i a v, NEV_to_HLA_vec i a (HLA_to_NEV_vec i a v) = v.
Proof. intros. rewrite hla_vec_mv, nev_vec_mv, <- mv_mm, transform_orth, mv_id. reflexivity. Qed.
Lemma hla_cov_roundtrip : forall i a c, HLA_to_NEV_cov i a (NEV_to_HLA_cov i a c) = c.
Proof.
  intros. unfold HLA_to_NEV_cov, NEV_to_HLA_cov. set (t := get_transform i a).
  rewrite !mm_assoc. rewrite (transform_orth' i a : mm (mtrans t) t = mid), mm_id_l.
  rewrite <- mm_assoc. rewrite (transform_orth' i a : mm (mtrans t) t = mid). apply mm_id_r.
Qed.
Lemma nev_cov_roundtrip : forall i a c, NEV_to_HLA_cov i a (HLA_to_NEV_cov i a c) = c.
Proof.
  intros. unfold HLA_to_NEV_cov, NEV_to_HLA_cov. set (t := get_transform i a).
  rewrite !mm_assoc. rewrite (transform_orth i a : mm t (mtrans t) = mid), mm_id_l.
  rewrite <- mm_assoc. rewrite (transform_orth i a : mm t (mtrans t) = mid). apply mm_id_r.
Qed.
Lemma mm_mtrans_qform : forall t c v, qform (mm (mm t c) (mtrans t)) v = qform c (mv (mtrans t) v).
Proof. intros. unfold qform. rewrite !mv_mm. rewrite dot_comm, dot_mv, dot_comm. reflexivity. Qed.
Lemma hla_cov_variance : forall i a c v,
  qform (NEV_to_HLA_cov i a c) (NEV_to_HLA_vec i a v) = qform c v.
Proof.
  intros. unfold NEV_to_HLA_cov. rewrite mm_mtrans_qform, hla_vec_mv, <- mv_mm, transform_orth', mv_id.
  reflexivity.
Qed.
Lemma hla_cov_sym : forall i a c, symmetric c -> symmetric (NEV_to_HLA_cov i a c).
Proof.
  unfold symmetric, NEV_to_HLA_cov; intros. rewrite !mtrans_mm, H, mtrans_mtrans, mm_assoc. reflexivity.
Qed.
Lemma hla_cov_psd : forall i a c, psd c <-> psd (NEV_to_HLA_cov i a c).
Proof.
  unfold psd; split; intros H v.
  - rewrite <- (nev_vec_roundtrip i a v), hla_cov_variance. apply H.
  - rewrite <- (hla_cov_variance i a). apply H.
Qed.
Lemma trace_mm_comm : forall a b, trace (mm a b) = trace (mm b a).
Proof. vring. Qed.
Lemma hla_cov_trace : forall i a c, trace (NEV_to_HLA_cov i a c) = trace c.
Proof.
  intros. unfold NEV_to_HLA_cov. rewrite trace_mm_comm, mm_assoc, transform_orth', mm_id_l. reflexivity.
Qed.
Lemma hla_tangent : forall i a, NEV_to_HLA_vec i a (direction_nev i a) = mkV 0 0 1.
Proof.
  intros. pose proof (sin2_cos2' i) as Hi. pose proof (sin2_cos2' a) as Ha.
  assert (Si : sin i * sin i = 1 - cos i * cos i) by lra.
  assert (Sa : sin a * sin a = 1 - cos a * cos a) by lra.
  unfold NEV_to_HLA_vec, direction_nev, get_transform; unf. apply V3_eq; simpl; ring [Si Sa].
Qed.
Lemma hla_right_of : forall i a, 0 < i < PI ->
  right_of (direction_nev i a) (HLA_to_NEV_vec i a (mkV 0 1 0))
  /\ HLA_to_NEV_vec i a (mkV 1 0 0)
     = cross (HLA_to_NEV_vec i a (mkV 0 1 0)) (direction_nev i a).
Proof.
  intros i a Hi. pose proof (sin2_cos2' i) as Ei. pose proof (sin2_cos2' a) as Ha.
  assert (Sa : sin a * sin a = 1 - cos a * cos a) by lra.
  assert (0 < sin i) by (apply sin_gt_0; lra).
  unfold HLA_to_NEV_vec, direction_nev, get_transform, right_of, is_unit, down; unf.
  repeat split.
  - ring [Sa].
  - exists (sin i). split; auto. apply V3_eq; simpl; ring.
  - apply V3_eq; simpl; ring [Sa].
Qed.

(** ** packing *)
Lemma pack_unpack : forall x, errors_from_cov (make_long_cov x) = x.
Proof. intros []; reflexivity. Qed.
Lemma long_cov_sym : forall x, symmetric (make_long_cov x).
Proof. intros []; reflexivity. Qed.
Lemma unpack_pack : forall c, symmetric c -> make_long_cov (errors_from_cov c) = c.
Proof.
  intros [[a b c] [d e f] [g h i]]; unfold symmetric, make_long_cov, errors_from_cov, mtrans; simpl.
  unfold col1, col2, col3; simpl. intro H. injection H; intros; subst; reflexivity.
Qed.
Lemma sigmas_long_pack : forall x,
  get_sigmas_long (make_long_cov x) = (s_aa x, s_bb x, s_cc x, s_ab x, s_ac x, s_bc x).
Proof. intros []; reflexivity. Qed.
Lemma outer_sym : forall v, symmetric (outer v v).
Proof. intro v; unfold symmetric; vring. Qed.
Lemma outer_psd : forall v, psd (outer v v).
Proof. intros v w. rewrite qform_outer. nra. Qed.
Lemma make_cov_outer : forall a b c, make_cov a b c true = cov_from_vec (mkV a b c).
Proof. intros. unfold make_cov, cov_from_vec; unf. apply M3_eq; apply V3_eq; simpl; ring. Qed.
Lemma make_cov_diag : forall a b c, 0 <= a -> 0 <= b -> 0 <= c ->
  symmetric (make_cov a b c false) /\ psd (make_cov a b c false)
  /\ get_sigmas (make_cov a b c false) = (a, b, c).
Proof.
  intros. unfold make_cov. split; [reflexivity|]. split.
  - intros [x y z]; unf. nra.
  - unfold get_sigmas; simpl. rewrite !sqrt_square by auto. reflexivity.
Qed.

(** ** dls and radius *)
Ltac neq := let H := fresh in intro H; pose proof PI_RGT_0; lra.

Lemma radius_of_dls_finite : forall d, d <> 0 ->
  radius_from_dls_scalar (Fin d) = Fin (30 * 360 / (2 * PI * d))
  /\ radius_from_dls_array (Fin d) = Fin (30 * 360 / (2 * PI * d)).
Proof.
  intros d H. unfold radius_from_dls_scalar, radius_from_dls_array, pos_div_ext, ediv.
  destruct (Req_EM_T d 0); [lra|]. unfold ext_mul_pos, ext_div_pos, ext_scale.
  pose proof PI_neq0'. split; f_equal; field; auto.
Qed.
Lemma dls_of_radius_finite : forall r, r <> 0 ->
  dls_from_radius_scalar (Fin r) = Fin (30 * 360 / (2 * PI * r))
  /\ dls_from_radius_array (Fin r) = Fin (30 * 360 / (2 * PI * r)).
Proof.
  intros r H. unfold dls_from_radius_scalar, dls_from_radius_array, pos_div_ext.
  destruct (Req_EM_T r 0); [lra|]. unfold ediv.
  pose proof PI_RGT_0.
  destruct (Req_EM_T (2 * PI * r) 0) as [E|E].
  { exfalso. apply Rmult_integral in E. destruct E; lra. }
  unfold ext_mul_pos, ext_scale. split; f_equal; field; lra.
Qed.

Lemma mul_neq0 : forall a b, a <> 0 -> b <> 0 -> a * b <> 0.
Proof. intros a b Ha Hb E. apply Rmult_integral in E; tauto. Qed.

Lemma dls_radius_inverse : forall x, x <> 0 ->
  dls_from_radius_scalar (radius_from_dls_scalar (Fin x)) = Fin x /\
  radius_from_dls_scalar (dls_from_radius_scalar (Fin x)) = Fin x /\
  dls_from_radius_array (radius_from_dls_array (Fin x)) = Fin x /\
  radius_from_dls_array (dls_from_radius_array (Fin x)) = Fin x.
Proof.
  intros x Hx. pose proof PI_neq0' as HP.
  assert (K : 2 * PI * x <> 0) by (apply mul_neq0; auto; apply mul_neq0; auto; lra).
  assert (K' : 30 * 360 / (2 * PI * x) <> 0).
  { unfold Rdiv. apply mul_neq0; [lra|]. apply Rinv_neq_0_compat; auto. }
  destruct (radius_of_dls_finite x Hx) as [A1 A2].
  destruct (dls_of_radius_finite x Hx) as [B1 B2].
  destruct (radius_of_dls_finite _ K') as [C1 C2].
  destruct (dls_of_radius_finite _ K') as [D1 D2].
  rewrite A1, A2, B1, B2, C1, C2, D1, D2.
  repeat split; f_equal; field; auto.
Qed.

(** ** dms *)
Lemma rtrunc_neg : forall x, x < 0 -> rtrunc x = (- rfloor (- x))%Z.
Proof. intros. unfold rtrunc. destruct (Rle_dec 0 x); [lra|reflexivity]. Qed.

Lemma rfloor_nonneg : forall x, 0 <= x -> (0 <= rfloor x)%Z.
Proof.
  intros x H. pose proof (rfloor_spec x) as [_ S].
  assert (-1 < IZR (rfloor x)) by lra. change (-1) with (IZR (-1)) in H0. apply lt_IZR in H0. lia.
Qed.

(** |x| splits exactly into whole degrees, minutes and seconds *)
Lemma dms_split : forall y, 0 <= y ->
  IZR (rfloor y) + IZR (rfloor (y * 3600 / 60) mod 60) / 60 + rmod (y * 3600) 60 / 3600 = y.
Proof.
  intros y Hy.
  assert (F : rfloor y = (rfloor (y * 3600 / 60) / 60)%Z).
  { apply rfloor_unique. pose proof (rfloor_spec (y * 3600 / 60)) as [S1 S2].
    set (m := rfloor (y * 3600 / 60)) in *.
    pose proof (Z.div_mod m 60). pose proof (Z.mod_pos_bound m 60).
    set (q := (m / 60)%Z) in *. set (r := (m mod 60)%Z) in *.
    assert (Hm : (m = 60 * q + r)%Z) by lia.
    assert (Hr : (0 <= r <= 59)%Z) by lia.
    rewrite Hm, plus_IZR, mult_IZR in S1, S2.
    destruct Hr as [Hr1 Hr2]. apply IZR_le in Hr1, Hr2.
    split; lra. }
  unfold rmod. rewrite F.
  set (m := rfloor (y * 3600 / 60)).
  pose proof (Z.div_mod m 60 ltac:(lia)) as Hm.
  apply (f_equal IZR) in Hm. rewrite plus_IZR, mult_IZR in Hm.
  lra.
Qed.

Lemma dms_roundtrip_pos : forall x, 0 <= x -> dms2decimal (decimal2dms x) = x.
Proof.
  intros x Hx. unfold dms2decimal, decimal2dms, rtrunc.
  destruct (Rle_dec 0 x); [|lra].
  rewrite (Rabs_right x) by lra.
  pose proof (rfloor_nonneg x Hx) as HF. apply IZR_le in HF.
  rewrite (Rabs_right (IZR (rfloor x))) by lra.
  unfold copysign. destruct (Rlt_dec (IZR (rfloor x)) 0); [lra|].
  rewrite dms_split by auto. apply Rabs_right; lra.
Qed.
Lemma dms_roundtrip_neg : forall x, x <= -1 -> dms2decimal (decimal2dms x) = x.
Proof.
  intros x Hx. unfold dms2decimal, decimal2dms. rewrite rtrunc_neg by lra.
  rewrite (Rabs_left x) by lra.
  assert (HF : 1 <= IZR (rfloor (- x))).
  { pose proof (rfloor_spec (- x)) as [_ S]. assert (0 < IZR (rfloor (-x))) by lra.
    apply lt_IZR in H. apply IZR_le. lia. }
  rewrite opp_IZR, Rabs_Ropp, (Rabs_right (IZR (rfloor (-x)))) by lra.
  unfold copysign. destruct (Rlt_dec (- IZR (rfloor (-x))) 0); [|lra].
  rewrite dms_split by lra. rewrite Rabs_right by lra. ring.
Qed.
Lemma dms_roundtrip_bad : forall x, -1 < x < 0 -> dms2decimal (decimal2dms x) = - x.
Proof.
  intros x Hx. unfold dms2decimal, decimal2dms. rewrite rtrunc_neg by lra.
  rewrite (Rabs_left x) by lra.
  assert (Z0 : rfloor (- x) = 0%Z) by (apply rfloor_unique; simpl; lra).
  rewrite Z0. simpl. rewrite Rabs_R0.
  unfold copysign. destruct (Rlt_dec 0 0); [lra|].
  pose proof (dms_split (-x)). rewrite Z0 in H. rewrite H by lra. apply Rabs_right; lra.
Qed.
Lemma dms_fields : forall x,
  let '(d, m, s) := decimal2dms x in (0 <= m <= 59)%Z /\ 0 <= s < 60.
Proof.
  intro x. unfold decimal2dms. split.
  - pose proof (Z.mod_pos_bound (rfloor (Rabs x * 3600 / 60)) 60). lia.
  - apply rmod_bounds; lra.
Qed.

(** ** arcs *)
Lemma rot_axes : forall inc azi tf,
  let r := mm (rotz azi) (mm (roty inc) (rotz tf)) in
  mv r (mkV 0 0 1) = direction_nev inc azi /\
  mv r (mkV 1 0 0) = vadd (vscale (cos tf) (HLA_to_NEV_vec inc azi (mkV 1 0 0)))
                          (vscale (sin tf) (HLA_to_NEV_vec inc azi (mkV 0 1 0))).
Proof.
  intros. subst r. unfold rotz, roty, direction_nev, HLA_to_NEV_vec, get_transform; unf.
  split; apply V3_eq; simpl; ring.
Qed.

(** direction in which an arc with the given toolface bends: toolface 0 is
    toward high side, PI/2 toward the right *)
Definition bend_direction (inc azi tf : R) : V3 :=
  vadd (vscale (cos tf) (HLA_to_NEV_vec inc azi (mkV 1 0 0)))
       (vscale (sin tf) (HLA_to_NEV_vec inc azi (mkV 0 1 0))).

Lemma bend_direction_spec : forall inc azi tf,
  is_unit (bend_direction inc azi tf) /\
  orthogonal (direction_nev inc azi) (bend_direction inc azi tf).
Proof.
  intros. pose proof (sin2_cos2' inc) as Hi. pose proof (sin2_cos2' azi) as Ha.
  pose proof (sin2_cos2' tf) as Ht.
  assert (Si : sin inc * sin inc = 1 - cos inc * cos inc) by lra.
  assert (Sa : sin azi * sin azi = 1 - cos azi * cos azi) by lra.
  assert (St : sin tf * sin tf = 1 - cos tf * cos tf) by lra.
  unfold is_unit, orthogonal, bend_direction, direction_nev, HLA_to_NEV_vec, get_transform; unf.
  split; ring [Si Sa St].
Qed.

Lemma arc_tangent_unit : forall u n t, is_unit u -> is_unit n -> orthogonal u n ->
  is_unit (arc_tangent u n t).
Proof.
  unfold is_unit, orthogonal, arc_tangent; intros.
  rewrite dot_vadd_l, !dot_vadd_r, !dot_vscale_l, !dot_vscale_r, (dot_comm n u), H, H0, H1.
  pose proof (sin2_cos2' t). lra.
Qed.

Lemma arc_transform_fwd : forall d r tf pos vec, vec <> vzero ->
  let '(i, a) := get_angles true vec in
  arc_transform d r tf pos vec false
  = (arc_point pos (vunit vec) (bend_direction i a tf) r d,
     arc_tangent (vunit vec) (bend_direction i a tf) d, vec).
Proof.
  intros d r tf pos vec Hv.
  pose proof (get_angles_direction vec Hv) as HD.
  unfold arc_transform. destruct (get_angles true vec) as [i a].
  destruct (rot_axes i a tf) as [Rz Rx].
  set (M := mm (rotz a) (mm (roty i) (rotz tf))) in *.
  fold (bend_direction i a tf) in Rx.
  destruct (bend_direction_spec i a tf) as [B1 B2].
  assert (EV : mv M (arc_local_vec d) = arc_tangent (vunit vec) (bend_direction i a tf) d).
  { unfold arc_local_vec.
    replace (mkV (sin d) 0 (cos d)) with (vadd (vscale (cos d) (mkV 0 0 1)) (vscale (sin d) (mkV 1 0 0)))
      by (unf; apply V3_eq; simpl; ring).
    rewrite mv_vadd, !mv_vscale, Rz, Rx, HD. reflexivity. }
  rewrite EV. rewrite vunit_unit.
  2: { apply arc_tangent_unit; auto. apply vunit_is_unit; auto. rewrite <- HD; auto. }
  f_equal. f_equal. unfold arc_local_pos, arc_point.
  replace (mkV (r - cos d * r) (0 * r) (sin d * r))
    with (vadd (vscale (r * sin d) (mkV 0 0 1)) (vscale (r * (1 - cos d)) (mkV 1 0 0)))
    by (unf; apply V3_eq; simpl; ring).
  rewrite mv_vadd, !mv_vscale, Rz, Rx, HD. apply vadd_comm.
Qed.

Lemma get_arc_circular : forall d r tf pos vec p v len vec',
  vec <> vzero -> get_arc d r tf pos vec false = (p, v, len, vec') ->
  circular_arc pos (vunit vec) len d p v /\ len = d * r /\ vec' = vec.
Proof.
  intros d r tf pos vec p v len vec' Hv H. unfold get_arc in H.
  pose proof (arc_transform_fwd d r tf pos vec Hv) as A.
  pose proof (get_angles_direction vec Hv) as HD.
  destruct (get_angles true vec) as [i a]. rewrite A in H.
  injection H; intros; subst. destruct (bend_direction_spec i a tf) as [B1 B2].
  split; [|auto]. exists (bend_direction i a tf), r.
  repeat split; auto. rewrite <- HD; auto. ring.
Qed.

(** reversing an arc *)
Lemma circular_arc_reverse : forall p0 u0 len t p1 u1, is_unit u0 ->
  circular_arc p0 u0 len t p1 u1 ->
  circular_arc p1 (vneg u1) len t p0 (vneg u0).
Proof.
  intros p0 u0 len t p1 u1 Hu [n [r [N1 [N2 [L [P U]]]]]].
  exists (vsub (vscale (cos t) n) (vscale (sin t) u0)), r.
  unfold is_unit, orthogonal in *.
  pose proof (sin2_cos2' t) as Ht.
  assert (St : sin t * sin t = 1 - cos t * cos t) by lra.
  split; [|split; [|split; [|split]]]; auto.
  - rewrite dot_vsub_l, !dot_vsub_r, !dot_vscale_l, !dot_vscale_r, N1, Hu, (dot_comm n u0), N2. lra.
  - rewrite U. unfold arc_tangent. rewrite dot_vneg_l, dot_vadd_l, !dot_vsub_r, !dot_vscale_l, !dot_vscale_r, Hu, N1, (dot_comm n u0), N2. ring.
  - rewrite P, U. unfold arc_point, arc_tangent. destruct u0, n, p0; unf. apply V3_eq; simpl; ring [St].
  - rewrite U. unfold arc_tangent. destruct u0, n; unf. apply V3_eq; simpl; ring [St].
Qed.

Lemma vneg_scale : forall v, vscale (-1) v = vneg v. Proof. vring. Qed.
Lemma vneg_vneg : forall v, vneg (vneg v) = v. Proof. vring. Qed.
Lemma vneg_nonzero : forall v, v <> vzero -> vneg v <> vzero.
Proof. intros v H E. apply H. rewrite <- (vneg_vneg v), E. vring. Qed.
Lemma vunit_vneg : forall v, vunit (vneg v) = vneg (vunit v).
Proof. intros. unfold vunit. rewrite norm_vneg. generalize (/ norm v). vring. Qed.

Lemma get_arc_target : forall d r tf pos vec p v len vec',
  vec <> vzero -> get_arc d r tf pos vec true = (p, v, len, vec') ->
  circular_arc p v len d pos (vunit vec) /\ len = d * r /\ vec' = vneg vec.
Proof.
  intros d r tf pos vec p v len vec' Hv H.
  destruct (get_arc d r tf pos (vneg vec) false) as [[[p2 v2] l2] w2] eqn:E.
  pose proof (get_arc_circular _ _ _ _ _ _ _ _ _ (vneg_nonzero _ Hv) E) as [C [L W]].
  assert (p = p2 /\ v = vneg v2 /\ len = l2 /\ vec' = vneg vec) as [-> [-> [-> ->]]].
  { unfold get_arc, arc_transform in H, E. rewrite vneg_scale in H.
    destruct (get_angles true (vneg vec)) as [i a].
    injection H; injection E; intros; subst. rewrite vneg_scale. auto. }
  split; [|auto]. rewrite vunit_vneg in C.
  apply circular_arc_reverse in C.
  - rewrite !vneg_vneg in C. exact C.
  - pose proof (vunit_is_unit _ Hv) as U. unfold is_unit in *. rewrite dot_vneg_l, dot_vneg_r. lra.
Qed.

Lemma circular_arc_tangent_unit : forall p0 u0 len t p1 u1, is_unit u0 ->
  circular_arc p0 u0 len t p1 u1 -> is_unit u1.
Proof.
  intros p0 u0 len t p1 u1 Hu [n [r [N1 [N2 [L [P U]]]]]]. subst u1. apply arc_tangent_unit; auto.
Qed.
Lemma circular_arc_dot : forall p0 u0 len t p1 u1, is_unit u0 ->
  circular_arc p0 u0 len t p1 u1 -> dot u0 u1 = cos t.
Proof.
  intros p0 u0 len t p1 u1 Hu [n [r [N1 [N2 [L [P U]]]]]]. subst u1.
  unfold arc_tangent, is_unit, orthogonal in *.
  rewrite dot_vadd_r, !dot_vscale_r, Hu, N2. ring.
Qed.

(** an arc is the minimum-curvature displacement between its tangents *)
Lemma circular_arc_disp : forall p0 u0 len t p1 u1, is_unit u0 -> 0 < t < PI ->
  circular_arc p0 u0 len t p1 u1 -> p1 = vadd p0 (mc_disp len t u0 u1).
Proof.
  intros p0 u0 len t p1 u1 Hu Ht [n [r [N1 [N2 [L [P U]]]]]]. subst u1 p1 len.
  unfold arc_point, mc_disp, arc_tangent. f_equal.
  unfold get_rf. destruct (Req_EM_T t 0); [lra|].
  pose proof (tan_half_1 t Ht) as T1. pose proof (tan_half_2 t Ht) as T2.
  set (T := tan (t/2)) in *. rewrite T2.
  replace (r * t * (2 / t * T) / 2) with (r * T) by (field; lra).
  rewrite (T1 : sin t = T * (1 + cos t)) at 1.
  destruct u0, n; unf. apply V3_eq; simpl; ring.
Qed.

Lemma clc_joined : forall tf1 d1 dist tf2 d2 pos0 vec0 r, vec0 <> vzero ->
  let c := make_clc_path tf1 d1 dist tf2 d2 pos0 vec0 r in
  circular_arc pos0 (vunit vec0) (clc_dist1 c) d1 (clc_pos1 c) (clc_vec1 c) /\
  clc_pos2 c = vadd (clc_pos1 c) (vscale dist (clc_vec1 c)) /\
  clc_vec2 c = clc_vec1 c /\
  circular_arc (clc_pos2 c) (clc_vec2 c) (clc_dist2 c) d2 (clc_pos3 c) (clc_vec3 c) /\
  clc_dist1 c = d1 * r /\ clc_dist2 c = d2 * r.
Proof.
  intros. subst c. unfold make_clc_path.
  destruct (get_arc d1 r tf1 pos0 vec0 false) as [[[p1 v1] l1] w1] eqn:E1.
  pose proof (get_arc_circular _ _ _ _ _ _ _ _ _ H E1) as [C1 [L1 _]].
  assert (U1 : is_unit v1) by (eapply circular_arc_tangent_unit; [apply vunit_is_unit; eauto|eauto]).
  destruct (get_arc d2 r tf2 (vadd p1 (vscale dist v1)) v1 false) as [[[p3 v3] l3] w3] eqn:E2.
  pose proof (get_arc_circular _ _ _ _ _ _ _ _ _ (unit_nonzero _ U1) E2) as [C2 [L2 _]].
  rewrite (vunit_unit _ U1) in C2. simpl. repeat split; auto.
Qed.

(** ** toolface *)
Lemma toolface_hla : forall p1 v p2,
  let '(i, a) := get_angles true v in
  get_toolface p1 v p2
  = rmod (arctan2 (vy (NEV_to_HLA_vec i a (vsub p2 p1))) (vx (NEV_to_HLA_vec i a (vsub p2 p1)))) (2 * PI).
Proof.
  intros. unfold get_toolface. destruct (get_angles true v) as [i a].
  replace (i * -1) with (- i) by ring. replace (a * -1) with (- a) by ring.
  f_equal. unfold NEV_to_HLA_vec, get_transform, roty, rotz; unf.
  rewrite !cos_neg, !sin_neg. f_equal; ring.
Qed.

Lemma rmod_bearing : forall h l d,
  bearing_from h l d (rmod (arctan2 (dot d l) (dot d h)) (2 * PI)).
Proof.
  intros. split. apply rmod_bounds; pose proof PI_RGT_0; lra.
  exists (sqrt (dot d h * dot d h + dot d l * dot d l)).
  rewrite cos_rmod, sin_rmod. destruct (arctan2_cos_sin (dot d l) (dot d h)) as [C S].
  split; [apply sqrt_pos|]. split; symmetry; auto.
Qed.

Lemma hla_components : forall i a d,
  vx (NEV_to_HLA_vec i a d) = dot d (HLA_to_NEV_vec i a (mkV 1 0 0)) /\
  vy (NEV_to_HLA_vec i a d) = dot d (HLA_to_NEV_vec i a (mkV 0 1 0)) /\
  vz (NEV_to_HLA_vec i a d) = dot d (direction_nev i a).
Proof.
  intros i a []. unfold NEV_to_HLA_vec, HLA_to_NEV_vec, direction_nev, get_transform; unf.
  repeat split; ring.
Qed.

Lemma toolface_bearing : forall p1 v p2,
  let '(i, a) := get_angles true v in
  bearing_from (HLA_to_NEV_vec i a (mkV 1 0 0)) (HLA_to_NEV_vec i a (mkV 0 1 0))
               (vsub p2 p1) (get_toolface p1 v p2).
Proof.
  intros. pose proof (toolface_hla p1 v p2) as T.
  destruct (get_angles true v) as [i a]. rewrite T.
  destruct (hla_components i a (vsub p2 p1)) as [A [B _]]. rewrite A, B. apply rmod_bearing.
Qed.

Lemma toolface_along : forall p1 v p2 k, v <> vzero ->
  get_toolface p1 v (vadd p2 (vscale k v)) = get_toolface p1 v p2.
Proof.
  intros p1 v p2 k Hv. pose proof (toolface_hla p1 v p2) as T.
  pose proof (toolface_hla p1 v (vadd p2 (vscale k v))) as T2.
  pose proof (get_angles_direction v Hv) as D.
  destruct (get_angles true v) as [i a]. rewrite T, T2.
  assert (E : vscale k v = vscale (k * norm v) (direction_nev i a)).
  { rewrite D. unfold vunit. rewrite vscale_vscale. pose proof (norm_pos v Hv).
    replace (k * norm v * / norm v) with k by (field; lra). reflexivity. }
  assert (E2 : NEV_to_HLA_vec i a (vsub (vadd p2 (vscale k v)) p1)
     = vadd (NEV_to_HLA_vec i a (vsub p2 p1)) (vscale (k * norm v) (mkV 0 0 1))).
  { rewrite <- (hla_tangent i a). rewrite E. rewrite !hla_vec_mv, <- mv_vscale, <- mv_vadd.
    f_equal. generalize (vscale (k * norm v) (direction_nev i a)). vring. }
  rewrite E2. unfold vadd, vscale; simpl. f_equal. f_equal; ring.
Qed.

Lemma toolface_translate : forall p1 v p2 d,
  get_toolface (vadd p1 d) v (vadd p2 d) = get_toolface p1 v p2.
Proof.
  intros. unfold get_toolface. replace (vsub (vadd p2 d) (vadd p1 d)) with (vsub p2 p1) by vring.
  reflexivity.
Qed.

Lemma sqrt_quot : forall a k, 0 < k -> sqrt (k * k * a) = k * sqrt a.
Proof.
  intros. destruct (Rle_dec 0 a).
  - rewrite sqrt_mult by nra. rewrite sqrt_square by lra. reflexivity.
  - rewrite !sqrt_neg_0 by nra. ring.
Qed.

Lemma toolface_fast_eq : forall p1 v p2, v <> vzero ->
  get_toolface_fast p1 v p2 = get_toolface p1 v p2.
Proof.
  intros p1 v p2 Hv. pose proof (toolface_hla p1 v p2) as T.
  unfold get_angles in T. rewrite T. clear T.
  set (u := vunit v). cbv beta iota zeta delta [get_angles_xyz].
  cbn [vx vy vz].
  unfold NEV_to_HLA_vec, get_transform.
  set (n := norm v).
  assert (Hn : 0 < n) by (apply norm_pos; auto).
  assert (Hin : 0 < / n) by (apply Rinv_0_lt_compat; auto).
  (* azimuth *)
  assert (Ea : arctan2 (vy u) (vx u) = arctan2 (vy v) (vx v)).
  { unfold u, vunit; simpl. apply arctan2_scale. exact Hin. }
  assert (CA : cos (rmod (arctan2 (vy u) (vx u) + 2 * PI) (2 * PI)) = cos (rmod (arctan2 (vy v) (vx v)) (2*PI))).
  { rewrite !cos_rmod, Ea. replace (arctan2 (vy v) (vx v) + 2 * PI) with (arctan2 (vy v) (vx v) + 2 * PI * IZR 1) by (simpl; ring).
    apply cos_shift_Z. }
  assert (SA : sin (rmod (arctan2 (vy u) (vx u) + 2 * PI) (2 * PI)) = sin (rmod (arctan2 (vy v) (vx v)) (2*PI))).
  { rewrite !sin_rmod, Ea. replace (arctan2 (vy v) (vx v) + 2 * PI) with (arctan2 (vy v) (vx v) + 2 * PI * IZR 1) by (simpl; ring).
    apply sin_shift_Z. }
  rewrite CA, SA.
  (* inclination *)
  assert (U : dot u u = 1) by (apply vunit_is_unit; auto).
  destruct (arctan2_cos_sin (sqrt (vy u ^ 2 + vx u ^ 2)) (vz u)) as [CI SI].
  replace (vz u * vz u + sqrt (vy u ^ 2 + vx u ^ 2) * sqrt (vy u ^ 2 + vx u ^ 2)) with 1 in CI, SI.
  2: { rewrite sqrt_sqrt by nra. unfold dot in U. lra. }
  rewrite sqrt_1, Rmult_1_l in CI, SI. rewrite CI, SI.
  assert (EZ : vz u = / n * vz v) by reflexivity.
  assert (EH : sqrt (vy u ^ 2 + vx u ^ 2) = / n * sqrt (vy v ^ 2 + vx v ^ 2)).
  { rewrite <- sqrt_quot by auto. f_equal. unfold u, vunit, n; simpl. ring. }
  rewrite EZ, EH.
  unfold get_toolface_fast. cbv zeta.
  replace (sqrt (vy v ^ 2 + vx v ^ 2 + vz v ^ 2)) with n.
  2: { unfold n, norm, dot. f_equal. ring. }
  f_equal. unfold dot, vsub; simpl. f_equal; [ring|field; lra].
Qed.
