(** Misalignment near the vertical, and at the bottom of a vertical hole. *)
Require Import Reals Lra Psatz Lia Bool String List.
Require Import Verif.Base Verif.NumPy Verif.M_Utils Verif.M_Error Verif.M_Weights Verif.Spec_Weights.
Require Import Verif.P_Error Verif.P_Error2 Verif.P_Weights Verif.P_Weights2 Verif.P_Weights5 Verif.P_Weights6.
Import ListNotations.
Local Open Scope R_scope.

Lemma gap2_scale : forall k u v, gap2 (vscale k u) (vscale k v) = k ^ 2 * gap2 u v.
Proof. intros k [x y z] [x' y' z']. unfold gap2, dot, vsub, vscale. cbn. ring. Qed.

Lemma scaled_nth : forall mag (l : list V3) k v, nth_error l k = Some v ->
  nth_error (map (vscale mag) l) k = Some (vscale mag v).
Proof. intros. rewrite map_nth_error', H. reflexivity. Qed.

Lemma xym3_near : forall rev4 h l code mag p e, XYM3 rev4 h l code mag p = Made e ->
  forall k a b c, nth_error l k = Some a -> nth_error l (S k) = Some b -> nth_error l (S (S k)) = Some c ->
  ~ vertical h b -> 0 < sin (w_inc b) -> 0 < cos (w_inc b) -> (rev4 = true \/ (1 <= k)%nat) ->
  let m := 1/2 * (w_md c - w_md a) * mag in
  exists row, nth_error (er_e_NEV e) (S k) = Some row /\
    gap2 row (mkV m 0 0) <= (m * sin (w_inc b)) ^ 2.
Proof.
  intros rev4 h l code mag p e H k a b c Ha Hb Hc V Hi Hci Hr m.
  destruct (sing_error_rows _ _ _ _ _ _ _ _ _ _ H) as [dpde [Hd [HD [_ R]]]].
  destruct (R (S k) b Hb) as [_ R1].
  assert (L : (S (S k) < length l)%nat) by (apply nth_error_Some; congruence).
  destruct R1 as [R1 _]; auto; try (rewrite vstacked_length; lia).
  rewrite R1, HD. clear R R1.
  assert (W := weights_nth _ _ _ _ _ _ Hd Hb). unfold w_XYM3 in W.
  rewrite fdiv_ne in W by lra. cbn [nan0] in W.
  destruct (interior_row rev4 l (map (vscale mag) dpde) k a b c
    (vscale mag (mkV 0 (Rabs (cos (w_inc b)) * cos (w_azt b)) (- (Rabs (cos (w_inc b)) * sin (w_azt b)) / sin (w_inc b)))))
    as [E _]; auto.
  { rewrite map_length. destruct (seq_opt_nth _ _ _ Hd) as [Q _]. rewrite Q, map_length. reflexivity. }
  { apply scaled_nth. exact W. }
  { cbn. ring. }
  rewrite E. eexists. split; [reflexivity|].
  rewrite (Rabs_pos_eq (cos (w_inc b))) by lra.
  destruct (near_north (w_inc b) (w_azt b) Hci) as [N _].
  match type of N with gap2 ?u ?v <= _ =>
    replace (vscale (1 / 2 * (w_md c - w_md a)) (tilt_of b (vscale mag (mkV 0 (cos (w_inc b) * cos (w_azt b))
       (- (cos (w_inc b) * sin (w_azt b)) / sin (w_inc b)))))) with (vscale m u);
    [replace (mkV m 0 0) with (vscale m v)|] end.
  - rewrite gap2_scale, Rpow_mult_distr. apply Rmult_le_compat_l; [apply pow2_ge_0 | exact N].
  - unfold vscale. cbn. f_equal; ring.
  - unfold m, tilt_of, high_side, right_side. apply V3_eq; cbn [vx vy vz vscale vadd]; field; lra.
Qed.
Lemma xym4_near : forall rev4 h l code mag p e, XYM4 rev4 h l code mag p = Made e ->
  forall k a b c, nth_error l k = Some a -> nth_error l (S k) = Some b -> nth_error l (S (S k)) = Some c ->
  ~ vertical h b -> 0 < sin (w_inc b) -> 0 < cos (w_inc b) -> (rev4 = true \/ (1 <= k)%nat) ->
  let m := 1/2 * (w_md c - w_md a) * mag in
  exists row, nth_error (er_e_NEV e) (S k) = Some row /\
    gap2 row (mkV 0 m 0) <= (m * sin (w_inc b)) ^ 2.
Proof.
  intros rev4 h l code mag p e H k a b c Ha Hb Hc V Hi Hci Hr m.
  destruct (sing_error_rows _ _ _ _ _ _ _ _ _ _ H) as [dpde [Hd [HD [_ R]]]].
  destruct (R (S k) b Hb) as [_ R1].
  assert (L : (S (S k) < length l)%nat) by (apply nth_error_Some; congruence).
  destruct R1 as [R1 _]; auto; try (rewrite vstacked_length; lia).
  rewrite R1, HD. clear R R1.
  assert (W := weights_nth _ _ _ _ _ _ Hd Hb). unfold w_XYM4 in W.
  rewrite fdiv_ne in W by lra. cbn [nan0] in W.
  destruct (interior_row rev4 l (map (vscale mag) dpde) k a b c
    (vscale mag (mkV 0 (Rabs (cos (w_inc b)) * sin (w_azt b)) (Rabs (cos (w_inc b)) * cos (w_azt b) / sin (w_inc b)))))
    as [E _]; auto.
  { rewrite map_length. destruct (seq_opt_nth _ _ _ Hd) as [Q _]. rewrite Q, map_length. reflexivity. }
  { apply scaled_nth. exact W. }
  { cbn. ring. }
  rewrite E. eexists. split; [reflexivity|].
  rewrite (Rabs_pos_eq (cos (w_inc b))) by lra.
  destruct (near_north (w_inc b) (w_azt b) Hci) as [_ N].
  match type of N with gap2 ?u ?v <= _ =>
    replace (vscale (1 / 2 * (w_md c - w_md a)) (tilt_of b (vscale mag (mkV 0 (cos (w_inc b) * sin (w_azt b))
       (cos (w_inc b) * cos (w_azt b) / sin (w_inc b)))))) with (vscale m u);
    [replace (mkV 0 m 0) with (vscale m v)|] end.
  - rewrite gap2_scale, Rpow_mult_distr. apply Rmult_le_compat_l; [apply pow2_ge_0 | exact N].
  - unfold vscale. cbn. f_equal; ring.
  - unfold m, tilt_of, high_side, right_side. apply V3_eq; cbn [vx vy vz vscale vadd]; field; lra.
Qed.

(** an error produced by any of the endings *)
Lemma sing_error_generated : forall w sing star rev4 h l code mag p e,
  sing_error w sing star rev4 h l code mag p = Made e -> (length l <= length sing)%nat ->
  (length l <= length star)%nat -> (0 < length l)%nat ->
  exists d ed given, generate_error d code ed p given = Some e /\
    length (er_e_NEV e) = length l /\ length (er_e_NEV_star e) = length l.
Proof.
  intros w sing star rev4 h l code mag p e H L1 L2 L0. unfold sing_error in H.
  destruct (seq_opt (map (w h) l)) as [dpde|] eqn:Ed; [|discriminate].
  assert (Ld : length dpde = length l).
  { destruct (seq_opt_nth _ _ _ Ed) as [L _]. rewrite L, map_length. reflexivity. }
  destruct (e_NEV_length rev4 (map survey_rad l) (map (vscale mag) dpde)) as [X1 X2].
  { rewrite map_length. lia. } { rewrite !map_length. exact Ld. }
  rewrite map_length in X1, X2.
  destruct (existsb (is_sing h) l).
  - apply of_generate_made in H. exists (drdp rev4 (map survey_rad l)), (map (vscale mag) dpde).
    eexists. split; [exact H|].
    apply generate_cases in H. destruct H as [_ [_ [E _]]]. injection E as -> ->.
    split; apply replace_sing_length; auto.
  - unfold simple_error in H. rewrite Ed in H. apply of_generate_made in H.
    exists (drdp rev4 (map survey_rad l)), (map (vscale mag) dpde), None. split; [exact H|].
    apply generate_cases in H. destruct H as [_ [_ [E _]]]. injection E as -> ->. auto.
Qed.

Lemma cov_agree : forall d d' code code' ed ed' g g' p e e' k a,
  generate_error d code ed p g = Some e -> generate_error d' code' ed' p g' = Some e' ->
  length (er_e_NEV e) = length (er_e_NEV_star e) -> length (er_e_NEV e') = length (er_e_NEV_star e') ->
  nth_error (er_e_NEV_star e) k = Some a -> nth_error (er_e_NEV_star e') k = Some a ->
  firstn (Nat.max 1 k) (er_e_NEV e) = firstn (Nat.max 1 k) (er_e_NEV e') ->
  nth_error (er_cov_NEV e) k = nth_error (er_cov_NEV e') k.
Proof.
  intros d d' code code' ed ed' g g' p e e' k a G G' L L' A A' B.
  destruct (string_dec p "random") as [->|N].
  - rewrite (random_law _ _ _ _ _ _ a G), (random_law _ _ _ _ _ _ a G'); auto.
    destruct k; [reflexivity|]. replace (Nat.max 1 (S k)) with (S k) in B by lia. rewrite B. reflexivity.
  - rewrite (systematic_law _ _ _ _ _ _ _ a G N), (systematic_law _ _ _ _ _ _ _ a G' N); auto. rewrite B. reflexivity.
Qed.

Lemma firstn_app_eq : forall A n (l m : list A), (n <= length l)%nat -> firstn n (l ++ m) = firstn n l.
Proof. intros. rewrite firstn_app. replace (n - length l)%nat with O by lia. rewrite firstn_O, app_nil_r. reflexivity. Qed.

(** rows of the vertical arrays of a shorter survey *)
Lemma stacked_prefix : forall f l m k, (S (S k) < length l)%nat ->
  nth_error (vstacked f (l ++ m)) (S k) = nth_error (vstacked f l) (S k).
Proof.
  intros f l m k Hk.
  destruct (nth_error l k) as [a|] eqn:Ea; [|apply nth_error_None in Ea; lia].
  destruct (nth_error l (S k)) as [b|] eqn:Eb; [|apply nth_error_None in Eb; lia].
  destruct (nth_error l (S (S k))) as [c|] eqn:Ec; [|apply nth_error_None in Ec; lia].
  rewrite (vstacked_mid f l k a b c), (vstacked_mid f (l ++ m) k a b c); auto; rewrite nth_error_app1; auto; lia.
Qed.

Lemma first_rows_zero : forall rev4 sv e v, nth_error (e_NEV (drdp rev4 sv) e) 0 = Some v -> v = vzero.
Proof. intros rev4 sv e v H. unfold e_NEV in H. destruct (map2 e_NEV_row (drdp rev4 sv) e); cbn in H; congruence. Qed.
Lemma first_rows_zero' : forall rev4 sv e v, nth_error (e_NEV_star (drdp rev4 sv) e) 0 = Some v -> v = vzero.
Proof. intros rev4 sv e v H. unfold e_NEV_star in H. destruct (map2 e_NEV_star_row (drdp rev4 sv) e); cbn in H; congruence. Qed.

(** a survey that does not end vertically can be continued without changing the
    uncertainty at the stations it has *)
Lemma sing_causal : forall w f g rev4 h l m code mag p e e',
  sing_error w (vstacked f l) (vstacked g l) rev4 h l code mag p = Made e ->
  sing_error w (vstacked f (l ++ m)) (vstacked g (l ++ m)) rev4 h (l ++ m) code mag p = Made e' ->
  (2 <= length l)%nat ->
  (forall s, nth_error l (length l - 1) = Some s -> ~ vertical h s) ->
  forall k, (k < length l)%nat -> nth_error (er_cov_NEV e) k = nth_error (er_cov_NEV e') k.
Proof.
  intros w f g rev4 h l m code mag p e e' H H' L2 Hv k Hk.
  assert (La : length (l ++ m) = (length l + length m)%nat) by apply app_length.
  destruct (sing_error_generated _ _ _ _ _ _ _ _ _ _ H) as [d [ed [gv [G [X1 X2]]]]]; try (rewrite ?vstacked_length; lia).
  destruct (sing_error_generated _ _ _ _ _ _ _ _ _ _ H') as [d' [ed' [gv' [G' [X1' X2']]]]]; try (rewrite ?vstacked_length; lia).
  destruct (sing_error_rows _ _ _ _ _ _ _ _ _ _ H) as [dp [Hd [HD [_ R]]]].
  destruct (sing_error_rows _ _ _ _ _ _ _ _ _ _ H') as [dp' [Hd' [HD' [_ R']]]].
  assert (Ld : length dp = length l).
  { destruct (seq_opt_nth _ _ _ Hd) as [Q _]. rewrite Q, map_length. reflexivity. }
  assert (Ld' : length dp' = length (l ++ m)).
  { destruct (seq_opt_nth _ _ _ Hd') as [Q _]. rewrite Q, map_length. reflexivity. }
  assert (Pre : forall j, (j < length l)%nat -> nth_error dp j = nth_error dp' j).
  { intros j Hj. destruct (nth_error l j) as [s|] eqn:Es; [|apply nth_error_None in Es; lia].
    rewrite (weights_nth _ _ _ _ _ _ Hd Es). symmetry. apply (weights_nth _ _ _ _ _ _ Hd').
    rewrite nth_error_app1; auto. }
  assert (Ag : forall j, (j < length l)%nat ->
    nth_error (e_NEV_star (drdp rev4 (map survey_rad l)) (er_e_DIA e)) j
      = nth_error (e_NEV_star (drdp rev4 (map survey_rad (l ++ m))) (er_e_DIA e')) j /\
    firstn j (e_NEV (drdp rev4 (map survey_rad l)) (er_e_DIA e))
      = firstn j (e_NEV (drdp rev4 (map survey_rad (l ++ m))) (er_e_DIA e'))).
  { intros j Hj. rewrite HD, HD'. apply e_NEV_agree; rewrite ?map_length; try lia.
    - rewrite map_app, firstn_app_eq; auto. rewrite map_length. lia.
    - apply nth_firstn. intros i Hi. rewrite !map_nth_error', Pre by lia. reflexivity. }
  assert (Ag2 : forall j i, (j < length l)%nat -> (i < j)%nat ->
    nth_error (e_NEV (drdp rev4 (map survey_rad l)) (er_e_DIA e)) i
      = nth_error (e_NEV (drdp rev4 (map survey_rad (l ++ m))) (er_e_DIA e')) i).
  { intros j i Hj Hi. destruct (Ag j Hj) as [_ Q]. apply (firstn_nth _ _ _ _ Q). exact Hi. }
  (* the rows agree *)
  assert (Z : forall v, nth_error (vstacked v l) 0 = Some vzero /\ nth_error (vstacked v (l ++ m)) 0 = Some vzero) by (intro; split; reflexivity).
  assert (Row : forall j, (j < length l)%nat ->
     nth_error (er_e_NEV_star e) j = nth_error (er_e_NEV_star e') j /\
     ((S j < length l)%nat -> nth_error (er_e_NEV e) j = nth_error (er_e_NEV e') j)).
  { intros j Hj. destruct (nth_error l j) as [s|] eqn:Es; [|apply nth_error_None in Es; lia].
    assert (Es' : nth_error (l ++ m) j = Some s) by (rewrite nth_error_app1; auto).
    destruct (R j s Es) as [RV RN]. destruct (R' j s Es') as [RV' RN'].
    destruct (Rlt_dec (w_inc s) (h_limit h)) as [V|V].
    - assert (Hl : (S j < length l)%nat).
      { destruct (Nat.eq_dec j (length l - 1)) as [->|]; [|lia]. exfalso. exact (Hv s Es V). }
      destruct j.
      + destruct (RV V vzero vzero) as [-> ->]; try apply Z.
        destruct (RV' V vzero vzero) as [-> ->]; try apply Z. auto.
      + destruct (nth_error (vstacked f l) (S j)) as [x|] eqn:Ex.
        2:{ apply nth_error_None in Ex. rewrite vstacked_length in Ex; lia. }
        destruct (nth_error (vstacked g l) (S j)) as [y|] eqn:Ey.
        2:{ apply nth_error_None in Ey. rewrite vstacked_length in Ey; lia. }
        destruct (RV V x y eq_refl eq_refl) as [-> ->].
        destruct (RV' V x y) as [-> ->]; [rewrite stacked_prefix; auto; lia..|]. auto.
    - destruct (RN V) as [-> ->]; try (rewrite vstacked_length; lia).
      destruct (RN' V) as [-> ->]; try (rewrite vstacked_length; lia).
      split; [apply Ag; auto|]. intro Hs. apply (Ag2 (S j)); lia. }
  destruct (nth_error (er_e_NEV_star e) k) as [a|] eqn:Ea; [|apply nth_error_None in Ea; lia].
  eapply (cov_agree d d' code code ed ed' gv gv' p e e' k a); eauto; try congruence.
  - destruct (Row k Hk) as [Q _]. congruence.
  - apply nth_firstn. intros j Hj. apply Row; lia.
Qed.

Lemma xym_causal : forall (F : bool -> header -> list wstation -> string -> R -> string -> outcome)
  rev4 h l m code mag p e e', F = XYM3 \/ F = XYM4 ->
  F rev4 h l code mag p = Made e -> F rev4 h (l ++ m) code mag p = Made e' ->
  (2 <= length l)%nat ->
  (forall s, nth_error l (length l - 1) = Some s -> ~ vertical h s) ->
  forall k, (k < length l)%nat -> nth_error (er_cov_NEV e) k = nth_error (er_cov_NEV e') k.
Proof.
  intros F rev4 h l m code mag p e e' [E|E] H H'; subst F; unfold XYM3, XYM4 in *; eapply sing_causal; eauto.
Qed.

(** a vertical last station has no misalignment error of its own *)
Lemma down_vertical : forall d, is_sing plumb (hanging d) = true.
Proof. intro d. apply is_sing_iff. unfold vertical, plumb, hanging. cbn. lra. Qed.

Lemma xym_end_refuted :
  exists e e', XYM3 true plumb [hanging 0; hanging 100] "XYM3" 1 "systematic" = Made e /\
    XYM3 true plumb ([hanging 0; hanging 100] ++ [hanging 200]) "XYM3" 1 "systematic" = Made e' /\
    nth_error (er_cov_NEV e) 1 = Some mzero /\
    nth_error (er_cov_NEV e') 1 = Some (outer (mkV 50 0 0) (mkV 50 0 0)).
Proof.
  assert (W : forall l, exists d, length d = length l /\ seq_opt (map (w_XYM3 plumb) l) = Some d).
  { induction l as [|s l [d [L E]]]; [exists []; auto|]. cbn [map seq_opt]. unfold w_XYM3 at 1. cbn [bind].
    rewrite E. cbn [bind]. eexists. split; [|reflexivity]. cbn. auto. }
  assert (M : forall l, existsb (is_sing plumb) l = true -> exists e, XYM3 true plumb l "XYM3" 1 "systematic" = Made e).
  { intros l E. destruct (W l) as [d [_ Ed]]. unfold XYM3, sing_error. rewrite Ed, E. eexists. reflexivity. }
  destruct (M [hanging 0; hanging 100]) as [e He]; [cbn [existsb]; rewrite down_vertical; reflexivity|].
  destruct (M ([hanging 0; hanging 100] ++ [hanging 200])) as [e' He']; [cbn [existsb app]; rewrite down_vertical; reflexivity|].
  exists e, e'. split; [exact He|split; [exact He'|]].
  assert (V : forall d, vertical plumb (hanging d)) by (intro; apply is_sing_iff, down_vertical).
  unfold XYM3 in He, He'.
  destruct (sing_error_generated _ _ _ _ _ _ _ _ _ _ He) as [d [ed [gv [G [X1 X2]]]]]; try (cbn; lia).
  destruct (sing_error_generated _ _ _ _ _ _ _ _ _ _ He') as [d' [ed' [gv' [G' [X1' X2']]]]]; try (cbn; lia).
  assert (Z : forall l x, XYM3 true plumb (hanging 0 :: l) "XYM3" 1 "systematic" = Made x -> nth_error (er_e_NEV x) 0 = Some vzero).
  { intros l x Hx. destruct (sing_error_rows _ _ _ _ _ _ _ _ _ _ Hx) as [dp [_ [_ [_ R]]]].
    destruct (R 0%nat (hanging 0) eq_refl) as [RV _]. apply (RV (V 0) vzero vzero); reflexivity. }
  pose proof (Z _ _ He) as Z1. pose proof (Z _ _ He') as Z2.
  assert (F1 : forall (l : list V3), nth_error l 0 = Some vzero -> firstn (Nat.max 1 1) l = [vzero]).
  { intros [|v l] E; cbn in *; [discriminate|congruence]. }
  destruct (xym3_rows _ _ _ _ _ _ _ He 0%nat (hanging 0) (hanging 100)) as [_ T1]; auto.
  destruct (xym3_rows _ _ _ _ _ _ _ He' 0%nat (hanging 0) (hanging 100)) as [T2 _]; auto.
  destruct (T2 (hanging 200)) as [_ T2']; auto.
  split.
  - rewrite (systematic_law _ _ _ _ _ _ _ vzero G); [|discriminate|congruence|apply T1; reflexivity].
    rewrite F1 by auto. f_equal. apply M3_eq; apply V3_eq; cbn; ring.
  - rewrite (systematic_law _ _ _ _ _ _ _ (mkV (1 / 2 * (w_md (hanging 100) - w_md (hanging 0)) * 1) 0 0) G'); [|discriminate|congruence|exact T2'].
    rewrite F1 by auto.
    f_equal. apply M3_eq; apply V3_eq; cbn; field.
Qed.
