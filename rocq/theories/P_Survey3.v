(** Proofs: header mutation, slicing, vertical section, projection, duplicates. *)
Require Import Reals Lra Psatz ZArith String List Sorted.
Require Import Verif.Base Verif.NumPy Verif.P_Trig Verif.Spec Verif.Spec_Lists Verif.M_Utils Verif.P_Utils
  Verif.P_Utils2 Verif.M_Survey Verif.P_Survey Verif.P_Survey2.
Import ListNotations.
Open Scope R_scope.

(** ** the header after a depth query *)
Lemma md_query_header : forall s md n h',
  survey_interpolate_md s md = NodeOk n h' ->
  h' = mkHeader RefGrid (h_convergence (sv_header s)) (h_declination (sv_header s))
         (h_gsf (sv_header s)) (h_vs_azimuth (sv_header s)) (h_unit (sv_header s)).
Proof.
  intros s md n h' H. unfold survey_interpolate_md, interpolate_md in H.
  destruct (Nat.leb _ _); [discriminate|].
  destruct (match searchsorted_left (map st_md (sv_rows s)) md with
            | O => (0%nat, 0) | S j => (j, md - nth j (map st_md (sv_rows s)) 0) end) as [idx x].
  unfold interpolate_at in H.
  destruct (nth_error (sv_rows s) idx); [|discriminate].
  destruct (nth_error (sv_rows s) (S idx)); [|discriminate].
  destruct (nth_error (sv_xyz s) idx); [|discriminate].
  destruct (nth_error (sv_nev s) idx); [|discriminate].
  destruct (interp_angles s0 s1 x).
  destruct (Survey _ _ _ _ _ _); [|discriminate].
  destruct (node_of _); [|discriminate].
  injection H; intros; subst; reflexivity.
Qed.

Lemma Survey_rows : forall h rows deg sx sn unit s,
  Survey h rows deg sx sn unit = Some s ->
  sv_rows s = map (fun r : row => let '(md, inc, azi) := r in
     mkSt md (if deg then radians inc else inc)
       (az_grid_rad (process_azi_ref (h_ref h) (h_convergence h) (h_declination h) deg azi))) rows.
Proof.
  intros h rows deg sx sn unit s H. unfold Survey in H.
  destruct (negb _); [discriminate|].
  match type of H with context [MinCurve ?l sx unit] => destruct (MinCurve l sx unit) as [mc|] end; [|discriminate].
  injection H; intros; subst s; simpl. apply map_ext. intros [[md inc] azi]. reflexivity.
Qed.

Lemma Survey_total : forall h rows deg sx sn,
  (h_unit h = "meters" \/ h_unit h = "feet")%string -> (2 <= length rows)%nat ->
  exists s, Survey h rows deg sx sn (h_unit h) = Some s.
Proof.
  intros h rows deg sx sn Hu Hl. unfold Survey. rewrite String.eqb_refl. simpl negb. cbv iota.
  match goal with |- context [MinCurve ?l sx (h_unit h)] => set (sts := l) end.
  assert (P : exists mc, MinCurve sts sx (h_unit h) = Some mc).
  { apply MinCurve_some. split; auto. unfold sts. rewrite map_length. auto. }
  destruct P as [mc P]. rewrite P. eauto.
Qed.

Lemma grid_shift : forall ref c d azi,
  az_grid_rad (process_azi_ref ref c d false azi)
  = azi + match ref with RefGrid => 0 | RefTrue => - c | RefMagnetic => d - c end.
Proof. intros [] c d azi; simpl; ring. Qed.

(** ** slicing *)
Lemma slice_rows_azimuth : forall s start stop r,
  slice_survey s start stop = Some r ->
  sv_rows r = map (fun st => mkSt (st_md st) (st_inc st)
     (st_azi st + match h_ref (sv_header s) with
                  | RefGrid => 0 | RefTrue => - h_convergence (sv_header s)
                  | RefMagnetic => h_declination (sv_header s) - h_convergence (sv_header s) end))
     (firstn (stop - start) (skipn start (sv_rows s)))
  /\ sv_nev r = firstn (stop - start) (skipn start (sv_nev s)).
Proof.
  intros s start stop r H. unfold slice_survey in H.
  destruct (firstn (stop - start) (skipn start (sv_nev s))) as [|p0 ps] eqn:E; [discriminate|].
  destruct (Survey _ _ _ _ _ _) as [q|] eqn:Q; [|discriminate].
  injection H; intros; subst r; simpl. split; auto.
  rewrite (Survey_rows _ _ _ _ _ _ _ Q). unfold slice_rows. rewrite map_map.
  apply map_ext. intro a. f_equal. apply grid_shift.
Qed.

(** ** n/e/tvd versus pos_nev *)
Lemma Survey_pos_nev : forall h rows deg sx sn unit s k p q,
  Survey h rows deg sx sn unit = Some s ->
  nth_error (sv_nev s) k = Some p -> nth_error (sv_pos_nev s) k = Some q ->
  vx q = (vx p - vx sn + vy sx) * h_gsf h + vx sn /\
  vy q = (vy p - vy sn + vx sx) * h_gsf h + vy sn /\
  vz q = vz p + vz sx.
Proof.
  intros h rows deg sx sn unit s k p q H Hp Hq. unfold Survey in H.
  destruct (negb _); [discriminate|].
  match type of H with context [MinCurve ?l sx unit] => destruct (MinCurve l sx unit) as [mc|] end; [|discriminate].
  injection H; intros; subst s; simpl in *. clear H.
  rewrite nth_error_map in Hp, Hq.
  destruct (nth_error (mc_poss mc) k) as [[x y z]|]; [|discriminate].
  simpl in *. injection Hp; injection Hq; intros; subst.
  unfold get_nev; unf. repeat split; ring.
Qed.

(** ** vertical section *)
Lemma rcumsum_step : forall l acc k d v w,
  nth_error l (S k) = Some d ->
  nth_error (rcumsum_from acc l) k = Some v ->
  nth_error (rcumsum_from acc l) (S k) = Some w -> w = v + d.
Proof.
  induction l as [|x r IH]; intros acc k d v w Hd Hv Hw.
  - destruct k; discriminate.
  - destruct k as [|k].
    + destruct r as [|y r]; simpl in *; [discriminate|].
      injection Hd; injection Hv; injection Hw; intros; subst; reflexivity.
    + simpl in *. eapply IH; eauto.
Qed.
Lemma rcumsum_length : forall l acc, length (rcumsum_from acc l) = length l.
Proof. induction l; simpl; auto. Qed.

Lemma combine_nth_error : forall A B (l : list A) (m : list B) k a b,
  nth_error l k = Some a -> nth_error m k = Some b -> nth_error (combine l m) k = Some (a, b).
Proof.
  induction l as [|x l IH]; intros m k a b Ha Hb.
  - destruct k; discriminate.
  - destruct m as [|y m]; [destruct k; discriminate|]. destruct k; simpl in *.
    + congruence.
    + apply IH; auto.
Qed.

Lemma vs_azimuths_nth : forall vs incs azis k i a,
  nth_error incs k = Some i -> nth_error azis k = Some a ->
  nth_error (vs_azimuths vs incs azis) k = Some (if Req_EM_T i 0 then vs else a).
Proof.
  intros. unfold vs_azimuths. rewrite nth_error_map, (combine_nth_error _ _ _ _ _ _ _ H H0). reflexivity.
Qed.

Lemma vs_length : forall vs incs azis nev, length incs = length nev -> length azis = length nev ->
  (1 <= length nev)%nat ->
  length (fst (get_vertical_section vs incs azis nev)) = length nev /\
  nth_error (fst (get_vertical_section vs incs azis nev)) 0 = Some 0.
Proof.
  intros vs incs azis nev H1 H2 H3. unfold get_vertical_section; simpl. split.
  - rewrite rcumsum_length, map_length, combine_length, !pairwise_length.
    unfold vs_azimuths. rewrite map_length, combine_length. lia.
  - f_equal. ring.
Qed.

Lemma vs_increment : forall vs incs azis nev k i1 i2 a1 a2 p q v w,
  nth_error incs k = Some i1 -> nth_error incs (S k) = Some i2 ->
  nth_error azis k = Some a1 -> nth_error azis (S k) = Some a2 ->
  nth_error nev k = Some p -> nth_error nev (S k) = Some q ->
  nth_error (fst (get_vertical_section vs incs azis nev)) k = Some v ->
  nth_error (fst (get_vertical_section vs incs azis nev)) (S k) = Some w ->
  w - v = cos (vs - ((if Req_EM_T i2 0 then vs else a2) + (if Req_EM_T i1 0 then vs else a1)) / 2)
          * hypot_step p q.
Proof.
  intros vs incs azis nev k i1 i2 a1 a2 p q v w I1 I2 A1 A2 P Q V W.
  unfold get_vertical_section in V, W; simpl in V, W.
  assert (D : w = v + cos (vs - ((if Req_EM_T i2 0 then vs else a2) + (if Req_EM_T i1 0 then vs else a1)) / 2) * hypot_step p q).
  { change (Some v = Some v) in V || idtac.
    eapply (rcumsum_step (0 :: _) 0 k); [| exact V | exact W].
    simpl. rewrite nth_error_map.
    rewrite (combine_nth_error _ _ _ _ _
      (cos (vs - ((if Req_EM_T i2 0 then vs else a2) + (if Req_EM_T i1 0 then vs else a1)) / 2))
      (hypot_step p q)).
    - reflexivity.
    - apply (pairwise_nth _ _ (fun a b => cos (vs - (b + a) / 2))); apply vs_azimuths_nth; auto.
    - apply pairwise_nth; auto. }
  lra.
Qed.

Lemma sum_cos : forall a b, cos a + cos b = 2 * cos ((b + a)/2) * cos ((b - a)/2).
Proof.
  intros. replace a with ((b+a)/2 - (b-a)/2) at 1 by field.
  replace b with ((b+a)/2 + (b-a)/2) at 3 by field.
  rewrite cos_plus, cos_minus. ring.
Qed.
Lemma sum_sin : forall a b, sin a + sin b = 2 * sin ((b + a)/2) * cos ((b - a)/2).
Proof.
  intros. replace a with ((b+a)/2 - (b-a)/2) at 1 by field.
  replace b with ((b+a)/2 + (b-a)/2) at 3 by field.
  rewrite sin_plus, sin_minus. ring.
Qed.

(** for equal inclinations the averaged-azimuth formula is the projection up to
    the sign of cos((a2-a1)/2) *)
Lemma vs_equal_inc : forall d i a1 a2 vs p, 0 <= d -> 0 <= i <= PI ->
  get_dogleg i a1 i a2 < PI ->
  let st := min_curve_step d i a1 i a2 in
  let proj := vx st * cos vs + vy st * sin vs in
  let code := cos (vs - (a2 + a1)/2) * hypot_step p (vadd p st) in
  (0 <= cos ((a2 - a1)/2) -> code = proj) /\ (cos ((a2 - a1)/2) <= 0 -> code = - proj).
Proof.
  intros d i a1 a2 vs p Hd Hi Ht st proj code.
  destruct (dogleg_angle i a1 i a2) as [B _].
  assert (RF : 0 <= get_rf (get_dogleg i a1 i a2)).
  { pose proof (rf_ge_1 (get_dogleg i a1 i a2)). lra. }
  set (k := d * get_rf (get_dogleg i a1 i a2) / 2).
  assert (Hk : 0 <= k) by (unfold k; nra).
  assert (Hs : 0 <= sin i) by (apply sin_ge_0; lra).
  assert (EX : vx st = 2 * k * sin i * cos ((a2+a1)/2) * cos ((a2-a1)/2)).
  { unfold st, min_curve_step, min_curve_step_rf; simpl. fold k.
    rewrite <- Rmult_plus_distr_l, sum_cos. ring. }
  assert (EY : vy st = 2 * k * sin i * sin ((a2+a1)/2) * cos ((a2-a1)/2)).
  { unfold st, min_curve_step, min_curve_step_rf; simpl. fold k.
    rewrite <- Rmult_plus_distr_l, sum_sin. ring. }
  assert (EH : hypot_step p (vadd p st) = 2 * k * sin i * Rabs (cos ((a2-a1)/2))).
  { assert (HX : vx (vadd p st) - vx p = vx st) by (destruct p, st; simpl; ring).
    assert (HY : vy (vadd p st) - vy p = vy st) by (destruct p, st; simpl; ring).
    unfold hypot_step. rewrite HX, HY, EX, EY.
    replace ((2 * k * sin i * cos ((a2 + a1) / 2) * cos ((a2 - a1) / 2)) ^ 2
      + (2 * k * sin i * sin ((a2 + a1) / 2) * cos ((a2 - a1) / 2)) ^ 2)
      with ((2 * k * sin i * cos ((a2 - a1) / 2)) * (2 * k * sin i * cos ((a2 - a1) / 2))
            * (sin ((a2+a1)/2) * sin ((a2+a1)/2) + cos ((a2+a1)/2) * cos ((a2+a1)/2))) by ring.
    rewrite sin2_cos2', Rmult_1_r.
    change (sqrt (Rsqr (2 * k * sin i * cos ((a2 - a1) / 2))) = 2 * k * sin i * Rabs (cos ((a2 - a1) / 2))).
    rewrite sqrt_Rsqr_abs, Rabs_mult. f_equal. apply Rabs_right. apply Rle_ge. nra. }
  unfold code, proj. rewrite EH, EX, EY, cos_minus. split; intro Hc.
  - rewrite Rabs_right by lra. ring.
  - rewrite Rabs_left1 by lra. ring.
Qed.

Lemma cos_half_nonneg : forall x, Rabs x <= PI -> 0 <= cos (x/2).
Proof.
  intros x H. apply Rabs_le in H || idtac. pose proof PI_RGT_0.
  assert (-PI <= x <= PI) by (unfold Rabs in H; destruct (Rcase_abs x); lra).
  apply cos_ge_0; lra.
Qed.
Lemma cos_half_nonpos : forall x, PI <= Rabs x <= 2 * PI -> cos (x/2) <= 0.
Proof.
  intros x H. pose proof PI_RGT_0. unfold Rabs in H. destruct (Rcase_abs x).
  - rewrite <- cos_neg. apply cos_le_0; lra.
  - apply cos_le_0; lra.
Qed.

(** ** project_ahead *)
Lemma project_ahead_arc : forall pos vec d dls tf md p v m, is_unit vec -> 0 < dls ->
  project_ahead pos vec d dls tf md = (p, v, m) ->
  circular_arc pos vec d (radians (d / 30 * dls)) p v /\ m = md + d /\ is_unit v.
Proof.
  intros pos vec d dls tf md p v m Hu Hd H. unfold project_ahead in H.
  destruct (Rlt_dec 0 dls); [|lra].
  set (radius := 30 / dls * 360 / (2 * PI)) in *.
  set (dogleg := radians (d / 30 * dls)) in *.
  pose proof (arc_transform_fwd dogleg radius tf pos vec (unit_nonzero _ Hu)) as A.
  unfold arc_transform in A.
  pose proof (get_angles_direction vec (unit_nonzero _ Hu)) as HD.
  destruct (get_angles true vec) as [i a].
  rewrite (vunit_unit _ Hu) in A, HD.
  set (M := mm (rotz a) (mm (roty i) (rotz tf))) in *.
  assert (E : vadd (mv M (arc_local_pos dogleg radius)) pos
              = arc_point pos vec (bend_direction i a tf) radius dogleg) by congruence.
  destruct (bend_direction_spec i a tf) as [B1 B2]. rewrite HD in B2.
  destruct (rot_axes i a tf) as [Rz Rx]. fold M in Rz, Rx. fold (bend_direction i a tf) in Rx.
  assert (EV : mv M (arc_local_vec dogleg) = arc_tangent vec (bend_direction i a tf) dogleg).
  { unfold arc_local_vec.
    replace (mkV (sin dogleg) 0 (cos dogleg)) with (vadd (vscale (cos dogleg) (mkV 0 0 1)) (vscale (sin dogleg) (mkV 1 0 0)))
      by (unf; apply V3_eq; simpl; ring).
    rewrite mv_vadd, !mv_vscale, Rz, Rx, HD. reflexivity. }
  injection H; intros; subst p v m. split.
  - exists (bend_direction i a tf), radius.
    split; [auto|]. split; [auto|]. split; [|split; auto].
    unfold radius, dogleg, radians. pose proof PI_neq0'. field. lra.
  - split; auto. rewrite EV. apply arc_tangent_unit; auto.
Qed.

(** ** removing duplicates *)
Section Dup.
  Context {A : Type} (key : A -> Z).
  Local Open Scope Z_scope.

  Notation nondecreasing := (keys_nondecreasing key).

  Lemma nondecreasing_head : forall l a b, nondecreasing (a :: l) -> In b l -> key a <= key b.
  Proof.
    induction l as [|c r IH]; intros a b H I; [destruct I|].
    destruct H as [H1 H2]. destruct I as [->|I]; auto.
    specialize (IH c b H2 I). lia.
  Qed.
  Lemma nondecreasing_tail : forall l a, nondecreasing (a :: l) -> nondecreasing l.
  Proof. intros [|b r] a H; simpl in *; tauto. Qed.

  (** what is kept: exactly the first row of each key *)
  Notation first_with_key := (first_of_its_key key).

  Lemma drop_keys_gt : forall l prev x, nondecreasing (prev :: l) ->
    In x (drop_same_as_prev key prev l) -> key prev < key x.
  Proof.
    induction l as [|a r IH]; intros prev x H I; simpl in I; [destruct I|].
    destruct H as [H1 H2].
    destruct (Z.eqb_spec (key a) (key prev)).
    - specialize (IH a x H2 I). lia.
    - destruct I as [->|I]; [lia|]. specialize (IH a x H2 I). lia.
  Qed.
  Lemma drop_sorted : forall l prev, nondecreasing (prev :: l) ->
    StronglySorted (fun a b => key a < key b) (drop_same_as_prev key prev l).
  Proof.
    induction l as [|a r IH]; intros prev H; simpl; [constructor|].
    destruct H as [H1 H2]. destruct (Z.eqb (key a) (key prev)); auto.
    constructor; auto. apply Forall_forall. intros x I. eapply drop_keys_gt; eauto.
  Qed.
  Lemma drop_cover : forall l prev y, In y l ->
    key y = key prev \/ exists x, In x (drop_same_as_prev key prev l) /\ key x = key y.
  Proof.
    induction l as [|a r IH]; intros prev y I; [destruct I|]. simpl.
    destruct (Z.eqb_spec (key a) (key prev)) as [E|E].
    - destruct I as [->|I]; auto. destruct (IH a y I) as [Q|Q]; auto. left; lia.
    - destruct I as [->|I]. right; exists y; simpl; auto.
      destruct (IH a y I) as [Q|[x [Q1 Q2]]].
      + right; exists a; simpl; auto.
      + right; exists x; simpl; auto.
  Qed.
  Lemma drop_in_first : forall l prev x, nondecreasing (prev :: l) ->
    In x (drop_same_as_prev key prev l) ->
    exists pre post, l = pre ++ x :: post /\ forall y, In y pre -> key y < key x.
  Proof.
    induction l as [|a r IH]; intros prev x H I; simpl in I; [destruct I|].
    destruct H as [H1 H2].
    assert (T : In x (drop_same_as_prev key a r) ->
       exists pre post, a :: r = pre ++ x :: post /\ forall y, In y pre -> key y < key x).
    { intro J. destruct (IH a x H2 J) as [pre [post [E F]]].
      exists (a :: pre), post. split; [rewrite E; reflexivity|].
      intros y [->|Iy]; auto. eapply drop_keys_gt; eauto. }
    destruct (Z.eqb_spec (key a) (key prev)); auto.
    destruct I as [->|I]; auto. exists [], r. split; auto. intros y [].
  Qed.

  Lemma remove_duplicates_spec : forall l r, nondecreasing l -> remove_duplicates key l = Some r ->
    StronglySorted (fun a b => key a < key b) r /\
    (forall x, In x r -> first_with_key l x) /\
    (forall y, In y l -> exists x, In x r /\ key x = key y).
  Proof.
    intros l r H E. destruct l as [|a [|b t]]; simpl in E; try discriminate.
    assert (E' : r = a :: drop_same_as_prev key a (b :: t)) by (injection E; auto).
    rewrite E'. clear E E'. split; [|split].
    - constructor. apply drop_sorted; auto. apply Forall_forall. intros x I. eapply drop_keys_gt; eauto.
    - intros x [->|I].
      + exists [], (b :: t). split; [auto | intros y []].
      + pose proof (drop_keys_gt _ _ _ H I) as G.
        destruct (drop_in_first _ _ _ H I) as [pre [post [Q F]]].
        exists (a :: pre), post. split. rewrite Q; reflexivity.
        intros y [->|Iy]; [lia|]. specialize (F y Iy). lia.
    - intros y [->|I]. exists y; split; simpl; auto.
      destruct (drop_cover _ a y I) as [Q|[x [Q1 Q2]]].
      + exists a; simpl; auto.
      + exists x; split; auto. right; auto.
  Qed.
End Dup.
