(** Vertical stations. *)
Require Import Reals Lra Psatz Lia Bool String List Nsatz.
Require Import Verif.Base Verif.NumPy Verif.M_Utils Verif.M_Error Verif.M_Weights Verif.Spec_Weights.
Require Import Verif.P_Error Verif.P_Weights Verif.P_Weights2 Verif.P_Weights5.
Import ListNotations.
Local Open Scope R_scope.

Lemma is_sing_iff : forall h s, is_sing h s = true <-> vertical h s.
Proof.
  intros h s. unfold is_sing, vertical. destruct (Rlt_dec (w_inc s) (h_limit h)); split; intros; auto; try discriminate; contradiction.
Qed.

Lemma seq_opt_nth : forall A (l : list (option A)) m, seq_opt l = Some m ->
  length m = length l /\ forall k o, nth_error l k = Some o -> nth_error m k = o.
Proof.
  intros A l. induction l as [|o l IH]; intros m H.
  - cbn in H. injection H as <-. split; auto. intros [|k] o H; discriminate.
  - cbn in H. destruct o as [a|]; [|discriminate]. cbn in H.
    destruct (seq_opt l) as [m'|] eqn:E; [|discriminate]. cbn in H. injection H as <-.
    destruct (IH m' eq_refl) as [L N]. split; [cbn; auto|].
    intros [|k] o H; cbn in *; [injection H as <-; reflexivity | auto].
Qed.
Lemma seq_opt_none : forall A (l : list (option A)), seq_opt l = None <-> In None l.
Proof.
  intros A l. induction l as [|o l IH]; cbn.
  - split; [discriminate|tauto].
  - destruct o as [a|]; cbn; [|tauto]. destruct (seq_opt l); cbn.
    + split; [discriminate|]. intros [H|H]; [discriminate|]. apply IH in H. discriminate.
    + split; auto. intros _. right. apply IH. reflexivity.
Qed.
Lemma weights_nth : forall (w : weight) h l dpde k s, seq_opt (map (w h) l) = Some dpde ->
  nth_error l k = Some s -> nth_error dpde k = w h s.
Proof.
  intros w h l dpde k s H E. destruct (seq_opt_nth _ _ _ H) as [_ N].
  apply N. rewrite map_nth_error', E. reflexivity.
Qed.

Lemma replace_sing_nth : forall h l e sg k s a b, nth_error l k = Some s ->
  nth_error e k = Some a -> nth_error sg k = Some b ->
  nth_error (replace_sing h l e sg) k = Some (if is_sing h s then b else a).
Proof.
  intros h l. induction l as [|s0 l IH]; intros e sg k s a b H1 H2 H3.
  - destruct k; discriminate.
  - destruct e; [destruct k; discriminate|]. destruct sg; [destruct k; discriminate|].
    destruct k; cbn in *.
    + injection H1 as ->. injection H2 as ->. injection H3 as ->. reflexivity.
    + eapply IH; eauto.
Qed.
Lemma replace_sing_length : forall h l e sg, length e = length l -> (length l <= length sg)%nat ->
  length (replace_sing h l e sg) = length l.
Proof.
  intros h l. induction l as [|s l IH]; intros [|a e] [|b sg] H1 H2; cbn in *; try discriminate; try lia.
  rewrite IH; lia.
Qed.

Lemma triplewise_nth : forall A B (f : A -> A -> A -> B) l k a b c,
  nth_error l k = Some a -> nth_error l (S k) = Some b -> nth_error l (S (S k)) = Some c ->
  nth_error (triplewise f l) k = Some (f a b c).
Proof.
  intros A B f l. induction l as [|x l IH]; intros k a b c H1 H2 H3; [destruct k; discriminate|].
  destruct l as [|y l]; [destruct k; discriminate|].
  destruct l as [|z l]; [destruct k as [|[|k]]; discriminate|].
  destruct k.
  - cbn in *. injection H1 as ->. injection H2 as ->. injection H3 as ->. reflexivity.
  - change (nth_error (triplewise f (y :: z :: l)) k = Some (f a b c)). apply IH; auto.
Qed.
Lemma triplewise_length : forall A B (f : A -> A -> A -> B) l, length (triplewise f l) = (length l - 2)%nat.
Proof.
  intros A B f l. induction l as [|x l IH]; auto. destruct l as [|y l]; auto. destruct l as [|z l]; auto.
  cbn [triplewise length] in *. rewrite IH. lia.
Qed.
Lemma vstacked_length : forall f l, (2 <= length l)%nat -> length (vstacked f l) = length l.
Proof.
  intros. unfold vstacked. cbn [length]. rewrite app_length, triplewise_length. cbn. lia.
Qed.
Lemma vstacked_mid : forall f l k a b c,
  nth_error l k = Some a -> nth_error l (S k) = Some b -> nth_error l (S (S k)) = Some c ->
  nth_error (vstacked f l) (S k) = Some (f a b c).
Proof.
  intros. unfold vstacked. cbn [nth_error]. rewrite nth_error_app1.
  - apply triplewise_nth; auto.
  - rewrite triplewise_length. assert (S (S k) < length l)%nat by (apply nth_error_Some; congruence). lia.
Qed.
Lemma vstacked_last : forall f l k, length l = S (S k) -> nth_error (vstacked f l) (S k) = Some vzero.
Proof.
  intros. unfold vstacked. cbn [nth_error]. rewrite nth_error_app2; rewrite triplewise_length; [|lia].
  replace (k - (length l - 2))%nat with O by lia. reflexivity.
Qed.

Lemma of_generate_made : forall o e, of_generate o = Made e -> o = Some e.
Proof. intros [x|] e H; inversion H; reflexivity. Qed.

(** the rows of an error with arrays for the vertical stations *)
Lemma sing_error_rows : forall w sing star rev4 h l code mag p e,
  sing_error w sing star rev4 h l code mag p = Made e ->
  exists dpde, seq_opt (map (w h) l) = Some dpde /\
  er_e_DIA e = map (vscale mag) dpde /\ er_propagation e = p /\
  forall k s, nth_error l k = Some s ->
   (vertical h s -> forall a b, nth_error sing k = Some a -> nth_error star k = Some b ->
      nth_error (er_e_NEV e) k = Some a /\ nth_error (er_e_NEV_star e) k = Some b) /\
   (~ vertical h s -> (k < length sing)%nat -> (k < length star)%nat ->
      nth_error (er_e_NEV e) k = nth_error (e_NEV (drdp rev4 (map survey_rad l)) (er_e_DIA e)) k /\
      nth_error (er_e_NEV_star e) k = nth_error (e_NEV_star (drdp rev4 (map survey_rad l)) (er_e_DIA e)) k).
Proof.
  intros w sing star rev4 h l code mag p e H. unfold sing_error in H.
  destruct (seq_opt (map (w h) l)) as [dpde|] eqn:Ed; [|discriminate].
  exists dpde. split; auto.
  assert (Ld : length dpde = length l).
  { destruct (seq_opt_nth _ _ _ Ed) as [L _]. rewrite L, map_length. reflexivity. }
  assert (DIA : er_e_DIA e = map (vscale mag) dpde /\ er_propagation e = p).
  { destruct (existsb (is_sing h) l).
    - apply of_generate_made in H. unfold generate_error in H.
      repeat match type of H with context [if ?b then _ else _] => destruct b end; try discriminate; injection H as <-; auto.
    - unfold simple_error in H. rewrite Ed in H. apply of_generate_made in H. unfold generate_error in H.
      repeat match type of H with context [if ?b then _ else _] => destruct b end; try discriminate; injection H as <-; auto. }
  destruct DIA as [DIA PR]. split; [exact DIA|split; [exact PR|]]. rewrite DIA.
  intros k s Hk.
  assert (Hkl : (k < length l)%nat) by (apply nth_error_Some; congruence).
  destruct (e_NEV_length rev4 (map survey_rad l) (map (vscale mag) dpde)) as [L1 L2].
  { rewrite map_length. lia. } { rewrite !map_length. exact Ld. }
  rewrite map_length in L1, L2.
  destruct (existsb (is_sing h) l) eqn:Ex.
  - apply of_generate_made in H. apply generate_cases in H. destruct H as [_ [_ [E _]]].
    injection E as E1 E2. rewrite E1, E2.
    destruct (nth_error (e_NEV (drdp rev4 (map survey_rad l)) (map (vscale mag) dpde)) k) as [x|] eqn:Ex1.
    2:{ apply nth_error_None in Ex1. lia. }
    destruct (nth_error (e_NEV_star (drdp rev4 (map survey_rad l)) (map (vscale mag) dpde)) k) as [y|] eqn:Ey1.
    2:{ apply nth_error_None in Ey1. lia. }
    split.
    + intros V a b Ha Hb. apply is_sing_iff in V.
      rewrite (replace_sing_nth _ _ _ _ _ _ _ _ Hk Ex1 Ha), (replace_sing_nth _ _ _ _ _ _ _ _ Hk Ey1 Hb), V. auto.
    + intros V Hs1 Hs2.
      destruct (nth_error sing k) as [a|] eqn:Ea; [|apply nth_error_None in Ea; lia].
      destruct (nth_error star k) as [b|] eqn:Eb; [|apply nth_error_None in Eb; lia].
      rewrite (replace_sing_nth _ _ _ _ _ _ _ _ Hk Ex1 Ea), (replace_sing_nth _ _ _ _ _ _ _ _ Hk Ey1 Eb).
      destruct (is_sing h s) eqn:Es; [apply is_sing_iff in Es; contradiction|auto].
  - unfold simple_error in H. rewrite Ed in H. apply of_generate_made in H.
    apply generate_cases in H. destruct H as [_ [_ [E _]]]. injection E as E1 E2. rewrite E1, E2. split.
    + intros V. apply is_sing_iff in V.
      assert (T : existsb (is_sing h) l = true).
      { apply existsb_exists. exists s. split; auto. eapply nth_error_In; eauto. }
      congruence.
    + auto.
Qed.

(** the ordinary row of an interior station, when only inclination and azimuth are in error *)
Lemma interior_row : forall rev4 l e_DIA k a b c e, length e_DIA = length l ->
  nth_error l k = Some a -> nth_error l (S k) = Some b -> nth_error l (S (S k)) = Some c ->
  nth_error e_DIA (S k) = Some e -> vx e = 0 -> (rev4 = true \/ (1 <= k)%nat) ->
  nth_error (e_NEV (drdp rev4 (map survey_rad l)) e_DIA) (S k)
    = Some (vscale (1/2 * (w_md c - w_md a)) (tilt_of b e)) /\
  nth_error (e_NEV_star (drdp rev4 (map survey_rad l)) e_DIA) (S k)
    = Some (vscale (1/2 * (w_md b - w_md a)) (tilt_of b e)).
Proof.
  intros rev4 l e_DIA k a b c e HL Ha Hb Hc He Hx Hr.
  assert (Na : nth_error (map survey_rad l) k = Some (survey_rad a)) by (rewrite map_nth_error', Ha; auto).
  assert (Nb : nth_error (map survey_rad l) (S k) = Some (survey_rad b)) by (rewrite map_nth_error', Hb; auto).
  assert (Nc : nth_error (map survey_rad l) (S (S k)) = Some (survey_rad c)) by (rewrite map_nth_error', Hc; auto).
  assert (Dbl : forall v, dbl rev4 (S k) v = v).
  { intro v. unfold dbl. destruct Hr as [->|Hr]; auto. destruct rev4; auto.
    destruct (Nat.eqb_spec (S k) 1); [lia|reflexivity]. }
  unfold e_NEV, e_NEV_star. rewrite !zero_first_nth, !map2_nth, (drdp_nth _ _ _ _ Nb), He.
  unfold row_spec, e_NEV_row, e_NEV_star_row, before. rewrite Na, Nc. cbn [d_depth d_inc d_az d_depth1 d_inc1 d_az1].
  rewrite Dbl, Hx. unfold drdp_inc_at, drdp_az_at, half_dmd, tilt_of, high_side, right_side, survey_rad.
  split; f_equal; apply V3_eq; cbn [vx vy vz vadd vscale st_inc st_azi st_md]; field.
Qed.

Lemma map_scale_length : forall mag (l : list V3), length (map (vscale mag) l) = length l.
Proof. intros. apply map_length. Qed.

Lemma xym3_rows : forall rev4 h l code mag p e, XYM3 rev4 h l code mag p = Made e ->
  forall k a b, nth_error l k = Some a -> nth_error l (S k) = Some b -> vertical h b ->
  (forall c, nth_error l (S (S k)) = Some c ->
     nth_error (er_e_NEV e) (S k) = Some (mkV (1/2 * (w_md c - w_md a) * mag) 0 0) /\
     nth_error (er_e_NEV_star e) (S k) = Some (mkV (1/2 * (w_md b - w_md a) * mag) 0 0)) /\
  (nth_error l (S (S k)) = None -> nth_error (er_e_NEV_star e) (S k) = Some vzero).
Proof.
  intros rev4 h l code mag p e H k a b Ha Hb V.
  destruct (sing_error_rows _ _ _ _ _ _ _ _ _ _ H) as [dpde [_ [_ [_ R]]]].
  destruct (R (S k) b Hb) as [R1 _]. split.
  - intros c Hc. apply R1; [exact V | exact (vstacked_mid _ l k a b c Ha Hb Hc) ..].
  - intro Hn. assert (L : length l = S (S k)).
    { apply nth_error_None in Hn. assert (S k < length l)%nat by (apply nth_error_Some; congruence). lia. }
    destruct (R1 V vzero vzero) as [_ Q]; auto; apply vstacked_last; auto.
Qed.
Lemma xym4_rows : forall rev4 h l code mag p e, XYM4 rev4 h l code mag p = Made e ->
  forall k a b, nth_error l k = Some a -> nth_error l (S k) = Some b -> vertical h b ->
  (forall c, nth_error l (S (S k)) = Some c ->
     nth_error (er_e_NEV e) (S k) = Some (mkV 0 (1/2 * (w_md c - w_md a) * mag) 0) /\
     nth_error (er_e_NEV_star e) (S k) = Some (mkV 0 (1/2 * (w_md b - w_md a) * mag) 0)) /\
  (nth_error l (S (S k)) = None -> nth_error (er_e_NEV_star e) (S k) = Some vzero).
Proof.
  intros rev4 h l code mag p e H k a b Ha Hb V.
  destruct (sing_error_rows _ _ _ _ _ _ _ _ _ _ H) as [dpde [_ [_ [_ R]]]].
  destruct (R (S k) b Hb) as [R1 _]. split.
  - intros c Hc. apply R1; [exact V | exact (vstacked_mid _ l k a b c Ha Hb Hc) ..].
  - intro Hn. assert (L : length l = S (S k)).
    { apply nth_error_None in Hn. assert (S k < length l)%nat by (apply nth_error_Some; congruence). lia. }
    destruct (R1 V vzero vzero) as [_ Q]; auto; apply vstacked_last; auto.
Qed.

(** just above the limit the rows are nearly the same *)
Lemma near_north : forall i A, 0 < cos i -> 
  let H := mkV (cos i * cos A) (cos i * sin A) (- sin i) in
  let Q := mkV (- sin A) (cos A) 0 in
  (gap2 (vscale (cos i) (vadd (vscale (cos A) H) (vscale (- sin A) Q))) (mkV 1 0 0) <= sin i ^ 2) /\
  (gap2 (vscale (cos i) (vadd (vscale (sin A) H) (vscale (cos A) Q))) (mkV 0 1 0) <= sin i ^ 2).
Proof.
  intros i A Hc. cbv zeta. unfold gap2, dot, vsub, vadd, vscale, vneg. cbn [vx vy vz].
  pose proof (sin2_cos2 i) as P. pose proof (sin2_cos2 A) as Q. unfold Rsqr in *.
  pose proof (COS_bound i) as B. pose proof (COS_bound A) as BA. pose proof (SIN_bound A) as BS.
  set (si := sin i) in *. set (ci := cos i) in *. set (sa := sin A) in *. set (ca := cos A) in *.
  clearbody si ci sa ca.
  assert (P' : si * si = 1 - ci * ci) by lra. assert (Q' : ca * ca = 1 - sa * sa) by lra.
  split.
  - match goal with |- ?x <= _ => replace x with ((1 - ci) ^ 2 + 2 * ci * (1 - ci) * (ca * ca)) by ring [P' Q'] end.
    assert (0 <= ca * ca <= 1) by nra. assert (0 <= ci * (1 - ci)) by nra. nra.
  - match goal with |- ?x <= _ => replace x with ((1 - ci) ^ 2 + 2 * ci * (1 - ci) * (sa * sa)) by ring [P' Q'] end.
    assert (0 <= sa * sa <= 1) by nra. assert (0 <= ci * (1 - ci)) by nra. nra.
Qed.
