(** Rows of the remaining functions at vertical stations, and the course length terms. *)
Require Import Reals Lra Psatz Lia Bool String List.
Require Import Verif.Base Verif.NumPy Verif.M_Utils Verif.M_Error Verif.M_Weights Verif.Spec_Weights.
Require Import Verif.P_Error Verif.P_Error2 Verif.P_Weights Verif.P_Weights2 Verif.P_Weights3 Verif.P_Weights4
  Verif.P_Weights5 Verif.P_Weights6 Verif.P_Weights7 Verif.P_Weights8.
Import ListNotations.
Local Open Scope R_scope.

Lemma rows_length : forall A B C (f : A -> B -> option C) l m r, seq_opt (map2 f l m) = Some r ->
  length l = length m -> length r = length l.
Proof.
  intros A B C f l m r H L. destruct (seq_opt_nth _ _ _ H) as [Q _]. rewrite Q. unfold map2.
  rewrite map_length, combine_length. lia.
Qed.
Lemma nth_tl : forall A (l : list A) k, nth_error (tl l) k = nth_error l (S k).
Proof. intros A [|x l] k; [destruct k|]; reflexivity. Qed.

(** ** XYM3E and XYM4E *)
Lemma xym3e_rows : forall rev4 h l code mag p e, XYM3E rev4 h l code mag p = Made e ->
  exists rows, er_e_DIA e = map (vscale mag) (vzero :: rows) /\ length (vzero :: rows) = length l /\
   (forall k a b, nth_error l k = Some a -> nth_error l (S k) = Some b ->
      nth_error rows k = w_XYM3E h b (Rmax 1 (sqrt (10 / (w_md b - w_md a)))) /\ 0 < w_md b - w_md a) /\
   let d := drdp rev4 (map survey_rad l) in
   forall k s x y, nth_error l k = Some s -> nth_error (e_NEV d (er_e_DIA e)) k = Some x ->
     nth_error (e_NEV_star d (er_e_DIA e)) k = Some y ->
     (vertical h s -> nth_error (er_e_NEV e) k = Some (north_only x) /\ nth_error (er_e_NEV_star e) k = Some (north_only y)) /\
     (~ vertical h s -> nth_error (er_e_NEV e) k = Some x /\ nth_error (er_e_NEV_star e) k = Some y).
Proof.
  intros rev4 h l code mag p e H. unfold XYM3E in H.
  destruct (Nat.ltb_spec (length l) 2) as [L2|L2]; [discriminate|].
  destruct (coeffs l) as [cs|] eqn:C; [|discriminate]. cbn [bind] in H.
  destruct (seq_opt (map2 (w_XYM3E h) (tl l) cs)) as [rows|] eqn:Q; [|discriminate].
  assert (Lc := coeffs_length _ _ C).
  assert (Lt : length (tl l) = (length l - 1)%nat) by (destruct l; cbn; lia).
  assert (Lr : length rows = length (tl l)) by (eapply rows_length; eauto; lia).
  exists rows.
  assert (D : er_e_DIA e = map (vscale mag) (vzero :: rows)).
  { destruct (existsb (is_sing h) l); apply of_generate_made in H; eapply generate_dia; eauto. }
  split; [exact D|]. split; [cbn; lia|]. split.
  - intros k a b Ha Hb. destruct (coeffs_nth _ _ _ _ _ C Ha Hb) as [P K]. split; auto.
    rewrite (seq_opt_map2_nth _ _ _ _ _ _ _ k b _ Q) with (2 := K); auto. rewrite nth_tl. auto.
  - rewrite D. cbv zeta. intros k s x y Hk Hx Hy. cbv zeta in H.
    set (ED := map (vscale mag) (vzero :: rows)) in *. clearbody ED.
    destruct (existsb (is_sing h) l) eqn:X.
    + apply of_generate_made in H. apply generate_cases in H. destruct H as [_ [_ [E _]]]. injection E as -> ->.
      erewrite (replace_sing_nth h l _ _ k s x (north_only x) Hk Hx); [|rewrite map_nth_error', Hx; reflexivity].
      erewrite (replace_sing_nth h l _ _ k s y (north_only y) Hk Hy); [|rewrite map_nth_error', Hy; reflexivity].
      destruct (is_sing h s) eqn:E; split; intro V; auto; [apply is_sing_iff in E; contradiction|].
      apply is_sing_iff in V. congruence.
    + apply of_generate_made in H. apply generate_cases in H. destruct H as [_ [_ [E _]]]. injection E as -> ->.
      split; intro V; auto. apply is_sing_iff in V.
      assert (T : existsb (is_sing h) l = true).
      { apply existsb_exists. exists s. split; auto. eapply nth_error_In; eauto. }
      congruence.
Qed.
Lemma interior_exists : forall (l : list wstation) k b, nth_error l (S k) = Some b ->
  exists a, nth_error l k = Some a.
Proof.
  intros l k b H. destruct (nth_error l k) eqn:E; eauto. apply nth_error_None in E.
  assert (S k < length l)%nat by (apply nth_error_Some; congruence). lia.
Qed.
Lemma xym3e_vertical : forall rev4 h l code mag p e, XYM3E rev4 h l code mag p = Made e ->
  forall k a b c, nth_error l k = Some a -> nth_error l (S k) = Some b -> nth_error l (S (S k)) = Some c ->
  vertical h b -> w_inc b = 0 -> (rev4 = true \/ (1 <= k)%nat) ->
  let f := Rmax 1 (sqrt (10 / (w_md b - w_md a))) * (cos (w_azt b) * Rabs (cos (w_azt b))) in
  nth_error (er_e_NEV e) (S k) = Some (mkV (1/2 * (w_md c - w_md a) * mag * f) 0 0) /\
  nth_error (er_e_NEV_star e) (S k) = Some (mkV (1/2 * (w_md b - w_md a) * mag * f) 0 0).
Proof.
  intros rev4 h l code mag p e H k a b c Ha Hb Hc V I Hr f.
  destruct (xym3e_rows _ _ _ _ _ _ _ H) as (rows & D & L & R & S).
  destruct (R k a b Ha Hb) as [R1 Pos].
  set (K := Rmax 1 (sqrt (10 / (w_md b - w_md a)))) in *.
  assert (HK : 0 < K). { unfold K. eapply Rlt_le_trans; [|apply Rmax_l]. lra. }
  unfold w_XYM3E in R1. rewrite (proj2 (is_sing_iff h b) V) in R1.
  assert (N : nth_error (er_e_DIA e) (Datatypes.S k) = Some (vscale mag (mkV 0 (Rabs (cos (w_inc b) * cos (w_azt b) * K)) K))).
  { rewrite D. apply scaled_nth. exact R1. }
  assert (LE : length (er_e_DIA e) = length l) by (rewrite D, map_length; exact L).
  destruct (interior_row rev4 l (er_e_DIA e) k a b c _ LE Ha Hb Hc N) as [E1 E2]; auto.
  { cbn. ring. }
  destruct (S (Datatypes.S k) b _ _ Hb E1 E2) as [SV _]. destruct (SV V) as [-> ->].
  rewrite I, cos_0, Rmult_1_l, Rabs_mult, (Rabs_pos_eq K) by lra.
  split; f_equal; unfold north_only, tilt_of, high_side, right_side, f; cbn [vx vadd vscale vy vz]; rewrite I, sin_0, cos_0; f_equal; ring.
Qed.
Lemma xym4e_vertical : forall rev4 h l code mag p e, XYM4E rev4 h l code mag p = Made e ->
  forall k a b c, nth_error l k = Some a -> nth_error l (S k) = Some b -> nth_error l (S (S k)) = Some c ->
  vertical h b -> w_inc b = 0 -> (rev4 = true \/ (1 <= k)%nat) ->
  let f := Rmax 1 (sqrt (10 / (w_md b - w_md a))) * (cos (w_azt b) * Rabs (cos (w_azt b))) in
  nth_error (er_e_NEV e) (S k) = Some (mkV 0 (1/2 * (w_md c - w_md a) * mag * f) 0) /\
  nth_error (er_e_NEV_star e) (S k) = Some (mkV 0 (1/2 * (w_md b - w_md a) * mag * f) 0).
Proof.
  intros rev4 h l code mag p e H k a b c Ha Hb Hc V I Hr f.
  unfold XYM4E in H.
  destruct (Nat.ltb_spec (length l) 2) as [L2|L2]; [discriminate|].
  destruct (coeffs l) as [cs|] eqn:C; [|discriminate]. cbn [bind] in H.
  destruct (seq_opt (map2 (w_XYM4E h) (tl l) cs)) as [rows|] eqn:Q; [|discriminate].
  assert (X : existsb (is_sing h) l = true).
  { apply existsb_exists. exists b. split; [eapply nth_error_In; eauto|apply is_sing_iff; auto]. }
  rewrite X in H. cbv zeta in H.
  destruct (XYM3E rev4 h l code mag p) as [x| | |] eqn:E3; try discriminate.
  destruct (xym3e_vertical _ _ _ _ _ _ _ E3 k a b c Ha Hb Hc V I Hr) as [X1 X2].
  assert (Lc := coeffs_length _ _ C).
  assert (Lt : length (tl l) = (length l - 1)%nat) by (destruct l; cbn; lia).
  assert (Lr : length rows = length (tl l)) by (eapply rows_length; eauto; lia).
  destruct (e_NEV_length rev4 (map survey_rad l) (map (vscale mag) (vzero :: rows))) as [Y1 Y2].
  { rewrite map_length. lia. } { rewrite !map_length. cbn. lia. }
  rewrite map_length in Y1, Y2.
  assert (SK : (S k < length l)%nat) by (apply nth_error_Some; congruence).
  set (ED := map (vscale mag) (vzero :: rows)) in *. clearbody ED.
  apply of_generate_made in H. apply generate_cases in H. destruct H as [_ [_ [E _]]]. injection E as -> ->.
  destruct (nth_error (e_NEV (drdp rev4 (map survey_rad l)) ED) (S k)) as [u|] eqn:U;
    [|apply nth_error_None in U; lia].
  destruct (nth_error (e_NEV_star (drdp rev4 (map survey_rad l)) ED) (S k)) as [v|] eqn:W;
    [|apply nth_error_None in W; lia].
  split.
  - erewrite replace_sing_nth; [|exact Hb|exact U|rewrite map_nth_error', X1; reflexivity].
    rewrite (proj2 (is_sing_iff h b) V). reflexivity.
  - erewrite replace_sing_nth; [|exact Hb|exact W|rewrite map_nth_error', X2; reflexivity].
    rewrite (proj2 (is_sing_iff h b) V). reflexivity.
Qed.

(** ** CNA *)
Lemma cna_rows : forall ref rev4 h l code mag p e, CNA ref rev4 h l code mag p = Made e ->
  forall k a b c, nth_error l k = Some a -> nth_error l (S k) = Some b -> nth_error l (S (S k)) = Some c ->
  ((vertical h b -> exists azi, ((ref = "true"%string /\ azi = w_azt b) \/ (ref = "grid"%string /\ azi = w_azg b)) /\
     nth_error (er_e_NEV e) (S k) = Some (vscale (1/2 * (w_md c - w_md a) * mag) (mkV (- sin azi) (cos azi) 0)) /\
     nth_error (er_e_NEV_star e) (S k) = Some (vscale (1/2 * (w_md b - w_md a) * mag) (mkV (- sin azi) (cos azi) 0))) /\
   (~ vertical h b -> 0 < sin (w_inc b) -> (rev4 = true \/ (1 <= k)%nat) ->
     nth_error (er_e_NEV e) (S k) = Some (vscale (1/2 * (w_md c - w_md a) * mag) (right_side b)) /\
     nth_error (er_e_NEV_star e) (S k) = Some (vscale (1/2 * (w_md b - w_md a) * mag) (right_side b)))).
Proof.
  intros ref rev4 h l code mag p e H k a b c Ha Hb Hc.
  assert (L : (S (S k) < length l)%nat) by (apply nth_error_Some; congruence).
  assert (ROW : forall dpde, seq_opt (map (w_CNA h) l) = Some dpde -> 0 < sin (w_inc b) -> rev4 = true \/ (1 <= k)%nat ->
     nth_error (e_NEV (drdp rev4 (map survey_rad l)) (map (vscale mag) dpde)) (S k) = Some (vscale (1/2 * (w_md c - w_md a) * mag) (right_side b)) /\
     nth_error (e_NEV_star (drdp rev4 (map survey_rad l)) (map (vscale mag) dpde)) (S k) = Some (vscale (1/2 * (w_md b - w_md a) * mag) (right_side b))).
  { intros dpde Hd Hi Hr. assert (W := weights_nth _ _ _ _ _ _ Hd Hb). unfold w_CNA in W. rewrite fdiv_ne in W by lra.
    destruct (interior_row rev4 l (map (vscale mag) dpde) k a b c (vscale mag (mkV 0 0 (1 / sin (w_inc b))))) as [E1 E2]; auto.
    { rewrite map_length. destruct (seq_opt_nth _ _ _ Hd) as [Q _]. rewrite Q, map_length. reflexivity. }
    { apply scaled_nth. exact W. } { cbn. ring. }
    rewrite E1, E2. split; f_equal; unfold tilt_of, high_side, right_side; apply V3_eq; cbn [vx vy vz vscale vadd]; field; lra. }
  unfold CNA in H. destruct (existsb (is_sing h) l) eqn:X.
  - destruct (String.eqb ref "true") eqn:R1; [|destruct (String.eqb ref "grid") eqn:R2; [|discriminate]].
    + apply String.eqb_eq in R1.
      destruct (sing_error_rows _ _ _ _ _ _ _ _ _ _ H) as [dpde [Hd [HD [_ R]]]].
      destruct (R (S k) b Hb) as [RV RN]. split.
      * intro V. exists (w_azt b). split; auto.
        destruct (RV V _ _ (vstacked_mid _ l k a b c Ha Hb Hc) (vstacked_mid _ l k a b c Ha Hb Hc)) as [-> ->].
        split; f_equal; apply V3_eq; cbn [vx vy vz vscale]; ring.
      * intros V Hi Hr. destruct (RN V) as [-> ->]; try (rewrite vstacked_length; lia). rewrite HD. auto.
    + apply String.eqb_eq in R2.
      destruct (sing_error_rows _ _ _ _ _ _ _ _ _ _ H) as [dpde [Hd [HD [_ R]]]].
      destruct (R (S k) b Hb) as [RV RN]. split.
      * intro V. exists (w_azg b). split; auto.
        destruct (RV V _ _ (vstacked_mid _ l k a b c Ha Hb Hc) (vstacked_mid _ l k a b c Ha Hb Hc)) as [-> ->].
        split; f_equal; apply V3_eq; cbn [vx vy vz vscale]; ring.
      * intros V Hi Hr. destruct (RN V) as [-> ->]; try (rewrite vstacked_length; lia). rewrite HD. auto.
  - split.
    + intro V. apply is_sing_iff in V.
      assert (T : existsb (is_sing h) l = true).
      { apply existsb_exists. exists b. split; auto. eapply nth_error_In; eauto. }
      congruence.
    + intros V Hi Hr. unfold simple_error in H. destruct (seq_opt (map (w_CNA h) l)) as [dpde|] eqn:Hd; [|discriminate].
      apply of_generate_made in H. apply generate_cases in H. destruct H as [_ [_ [E _]]]. injection E as -> ->. auto.
Qed.

(** ** ABXY_TI2 and ABIXY_TI2 *)
Lemma set_nth_length : forall A n (v : A) l, length (set_nth n v l) = length l.
Proof.
  intros A n v l. unfold set_nth. rewrite app_length.
  rewrite <- (firstn_skipn n l) at 3. rewrite app_length. f_equal. destruct (skipn n l); reflexivity.
Qed.
Lemma set_nth_same : forall A n (v : A) l, (n < length l)%nat -> nth_error (set_nth n v l) n = Some v.
Proof.
  intros A n v l H. unfold set_nth. rewrite nth_error_app2; rewrite firstn_length_le by lia; [|lia].
  rewrite Nat.sub_diag. destruct (skipn n l) eqn:E; [|reflexivity].
  assert (length (skipn n l) = 0%nat) by (rewrite E; reflexivity). rewrite skipn_length in H0. lia.
Qed.
Lemma set_nth_other : forall A n (v : A) l k, k <> n -> nth_error (set_nth n v l) k = nth_error l k.
Proof.
  intros A n. induction n as [|n IH]; intros v l k H.
  - destruct l; [reflexivity|]. destruct k; [contradiction|reflexivity].
  - destruct l; [reflexivity|]. destruct k; [reflexivity|]. cbn. apply IH. congruence.
Qed.
Lemma ab_sing_length : forall h l mag sp, (2 <= length l)%nat -> length (ab_sing h l mag sp) = length l /\ length (ab_star h l mag sp) = length l.
Proof. intros. unfold ab_sing, ab_star. destruct sp; rewrite ?set_nth_length, !vstacked_length; auto. Qed.
Lemma ab_arrays : forall h l mag sp k a b c, nth_error l k = Some a -> nth_error l (S k) = Some b -> nth_error l (S (S k)) = Some c ->
  (sp = false \/ (1 <= k)%nat) -> h_G h <> 0 ->
  nth_error (ab_sing h l mag sp) (S k) = Some (vscale (1/2 * (w_md c - w_md a) * (mag / h_G h)) (right_side b)) /\
  nth_error (ab_star h l mag sp) (S k) = Some (vscale (1/2 * (w_md b - w_md a) * (mag / h_G h)) (right_side b)).
Proof.
  intros h l mag sp k a b c Ha Hb Hc Hr G. unfold ab_sing, ab_star.
  destruct sp; [rewrite !set_nth_other by (destruct Hr; [discriminate|lia])|];
    rewrite !(vstacked_mid _ l k a b c Ha Hb Hc); split; f_equal; unfold right_side; apply V3_eq; cbn [vx vy vz vscale]; field; auto.
Qed.
Lemma ab_error_rows : forall (w : weight) sp rev4 h l code mag p e, ab_error w sp rev4 h l code mag p = Made e ->
  forall k a b c, nth_error l k = Some a -> nth_error l (S k) = Some b -> nth_error l (S (S k)) = Some c ->
  (vertical h b -> nth_error (er_e_NEV e) (S k) = nth_error (ab_sing h l mag sp) (S k) /\
     nth_error (er_e_NEV_star e) (S k) = nth_error (ab_star h l mag sp) (S k) /\ h_G h <> 0) /\
  (~ vertical h b -> forall v, w h b = Some (mkV 0 0 v) -> (rev4 = true \/ (1 <= k)%nat) ->
     nth_error (er_e_NEV e) (S k) = Some (vscale (1/2 * (w_md c - w_md a) * mag * (v * sin (w_inc b))) (right_side b)) /\
     nth_error (er_e_NEV_star e) (S k) = Some (vscale (1/2 * (w_md b - w_md a) * mag * (v * sin (w_inc b))) (right_side b))).
Proof.
  intros w sp rev4 h l code mag p e H k a b c Ha Hb Hc.
  assert (L : (S (S k) < length l)%nat) by (apply nth_error_Some; congruence).
  assert (ROW : forall dpde v, seq_opt (map (w h) l) = Some dpde -> w h b = Some (mkV 0 0 v) -> rev4 = true \/ (1 <= k)%nat ->
     nth_error (e_NEV (drdp rev4 (map survey_rad l)) (map (vscale mag) dpde)) (S k) = Some (vscale (1/2 * (w_md c - w_md a) * mag * (v * sin (w_inc b))) (right_side b)) /\
     nth_error (e_NEV_star (drdp rev4 (map survey_rad l)) (map (vscale mag) dpde)) (S k) = Some (vscale (1/2 * (w_md b - w_md a) * mag * (v * sin (w_inc b))) (right_side b))).
  { intros dpde v Hd Hv Hr. assert (W := weights_nth _ _ _ _ _ _ Hd Hb). rewrite Hv in W.
    destruct (interior_row rev4 l (map (vscale mag) dpde) k a b c (vscale mag (mkV 0 0 v))) as [E1 E2]; auto.
    { rewrite map_length. destruct (seq_opt_nth _ _ _ Hd) as [Q _]. rewrite Q, map_length. reflexivity. }
    { apply scaled_nth. exact W. } { cbn. ring. }
    rewrite E1, E2. split; f_equal; unfold tilt_of, high_side, right_side; apply V3_eq; cbn [vx vy vz vscale vadd]; ring. }
  unfold ab_error in H. destruct (existsb (is_sing h) l) eqn:X.
  - destruct (sp && Nat.ltb (length l) 3)%bool; [discriminate|]. destruct (Req_EM_T (h_G h) 0) as [G|G]; [discriminate|].
    destruct (sing_error_rows _ _ _ _ _ _ _ _ _ _ H) as [dpde [Hd [HD [_ R]]]].
    destruct (R (S k) b Hb) as [RV RN]. destruct (ab_sing_length h l mag sp) as [La Lb]; [lia|]. split.
    + intro V. destruct (nth_error (ab_sing h l mag sp) (S k)) as [x|] eqn:Ex; [|apply nth_error_None in Ex; lia].
      destruct (nth_error (ab_star h l mag sp) (S k)) as [y|] eqn:Ey; [|apply nth_error_None in Ey; lia].
      destruct (RV V x y eq_refl eq_refl). auto.
    + intros V v Hv Hr. destruct (RN V) as [-> ->]; try lia. rewrite HD. auto.
  - split.
    + intro V. apply is_sing_iff in V.
      assert (T : existsb (is_sing h) l = true).
      { apply existsb_exists. exists b. split; auto. eapply nth_error_In; eauto. }
      congruence.
    + intros V v Hv Hr. unfold simple_error in H. destruct (seq_opt (map (w h) l)) as [dpde|] eqn:Hd; [|discriminate].
      apply of_generate_made in H. apply generate_cases in H. destruct H as [_ [_ [E _]]]. injection E as -> ->. eauto.
Qed.
Lemma abxy_ti2_rows : forall rev4 h l code mag p e, ABXY_TI2 rev4 h l code mag p = Made e -> sensible h ->
  forall k a b c, nth_error l k = Some a -> nth_error l (S k) = Some b -> nth_error l (S (S k)) = Some c ->
  (rev4 = true \/ (1 <= k)%nat) -> (~ vertical h b -> 0 < sin (w_inc b)) ->
  exists f, (vertical h b -> f = 1) /\
    (~ vertical h b -> f = cos (w_inc b) - tan (h_dip h) * cos (w_azm b) * sin (w_inc b)) /\
    nth_error (er_e_NEV e) (S k) = Some (vscale (1/2 * (w_md c - w_md a) * (mag / h_G h) * f) (right_side b)) /\
    nth_error (er_e_NEV_star e) (S k) = Some (vscale (1/2 * (w_md b - w_md a) * (mag / h_G h) * f) (right_side b)).
Proof.
  intros rev4 h l code mag p e H (HG & HB & HD) k a b c Ha Hb Hc Hr Hi.
  destruct (ab_error_rows _ _ _ _ _ _ _ _ _ H k a b c Ha Hb Hc) as [RV RN].
  destruct (Rlt_dec (w_inc b) (h_limit h)) as [V|V].
  - exists 1. split; [auto|]. split; [intro N; contradiction|].
    destruct (RV V) as (-> & -> & G).
    destruct (ab_arrays h l mag (negb rev4) k a b c Ha Hb Hc) as [-> ->]; auto.
    { destruct Hr as [->|]; auto. }
    split; do 2 f_equal; ring.
  - exists (cos (w_inc b) - tan (h_dip h) * cos (w_azm b) * sin (w_inc b)).
    split; [intro N; contradiction|]. split; [auto|].
    assert (I : 0 < sin (w_inc b)) by auto.
    assert (W : w_ABXY_TI2 h b = Some (mkV 0 0 ((cos (w_inc b) / sin (w_inc b) - tan (h_dip h) * cos (w_azm b)) / h_G h))).
    { unfold w_ABXY_TI2, tan_, tan. rewrite !fdiv_ne by lra. cbn [bind]. rewrite fdiv_ne by lra. reflexivity. }
    destruct (RN V _ W Hr) as [-> ->]. split; do 2 f_equal; field; lra.
Qed.
Lemma abixy_ti2_rows : forall rev4 h l code mag p e, ABIXY_TI2 rev4 h l code mag p = Made e -> sensible h ->
  forall k a b c, nth_error l k = Some a -> nth_error l (S k) = Some b -> nth_error l (S (S k)) = Some c ->
  (1 <= k)%nat -> (~ vertical h b -> 0 < sin (w_inc b)) -> ~ level_east_west b ->
  exists f, (vertical h b -> f = 1) /\
    (~ vertical h b -> f = (cos (w_inc b) - tan (h_dip h) * cos (w_azm b) * sin (w_inc b))
                           / (1 - sin (w_inc b) ^ 2 * sin (w_azm b) ^ 2)) /\
    nth_error (er_e_NEV e) (S k) = Some (vscale (1/2 * (w_md c - w_md a) * (mag / h_G h) * f) (right_side b)) /\
    nth_error (er_e_NEV_star e) (S k) = Some (vscale (1/2 * (w_md b - w_md a) * (mag / h_G h) * f) (right_side b)).
Proof.
  intros rev4 h l code mag p e H (HG & HB & HD) k a b c Ha Hb Hc Hr Hi HL.
  apply not_level in HL.
  destruct (ab_error_rows _ _ _ _ _ _ _ _ _ H k a b c Ha Hb Hc) as [RV RN].
  destruct (Rlt_dec (w_inc b) (h_limit h)) as [V|V].
  - exists 1. split; [auto|]. split; [intro N; contradiction|].
    destruct (RV V) as (-> & -> & G).
    destruct (ab_arrays h l mag true k a b c Ha Hb Hc) as [-> ->]; auto.
    split; do 2 f_equal; ring.
  - eexists. split; [intro N; contradiction|]. split; [reflexivity|].
    assert (I : 0 < sin (w_inc b)) by auto. change (1 - sin (w_inc b) ^ 2 * sin (w_azm b) ^ 2) with (funky b).
    assert (0 < h_G h * funky b) by (apply Rmult_lt_0_compat; auto).
    assert (W : w_ABIXY_TI2 h b = Some (mkV 0 0 (- (tan (h_dip h) * cos (w_azm b) - cos (w_inc b) / sin (w_inc b)) / (h_G h * funky b)))).
    { unfold w_ABIXY_TI2, tan_, tan. rewrite !fdiv_ne by lra. cbn [bind]. rewrite fdiv_ne by lra. reflexivity. }
    destruct (RN V _ W (or_intror Hr)) as [-> ->]. split; do 2 f_equal; field; lra.
Qed.
(** row 1 of a survey when the first interval counts in full: only the east part is doubled *)
Lemma ab_first_row : forall (w : weight) rev4 h l code mag p e, ab_error w true rev4 h l code mag p = Made e ->
  forall a b c, nth_error l 0 = Some a -> nth_error l 1 = Some b -> nth_error l 2 = Some c -> vertical h b ->
  nth_error (er_e_NEV e) 1 = Some (mkV (- (1/2 * (w_md c - w_md a) * (mag / h_G h) * sin (w_azt b)))
     (1/2 * ((w_md c - w_md a) + (w_md b - w_md a)) * (mag / h_G h) * cos (w_azt b)) 0) /\
  nth_error (er_e_NEV_star e) 1 = Some (mkV (- (1/2 * (w_md b - w_md a) * (mag / h_G h) * sin (w_azt b)))
     ((w_md b - w_md a) * (mag / h_G h) * cos (w_azt b)) 0).
Proof.
  intros w rev4 h l code mag p e H a b c Ha Hb Hc V.
  destruct (ab_error_rows _ _ _ _ _ _ _ _ _ H 0%nat a b c Ha Hb Hc) as [RV _].
  destruct (RV V) as (-> & -> & G).
  destruct l as [|a' [|b' [|c' l]]]; try discriminate. cbn in Ha, Hb, Hc. injection Ha as ->. injection Hb as ->. injection Hc as ->.
  unfold ab_sing, ab_star. cbn [vstacked triplewise set_nth firstn skipn app nth nth_error md_of map vx vy vz].
  split; f_equal; apply V3_eq; cbn [vx vy vz]; field; auto.
Qed.
