(** Proofs about errors of the directions of a survey (C160). *)
Require Import Reals ZArith Bool String List Lra Lia Psatz.
Require Import Verif.Base Verif.NumPy Verif.Spec Verif.M_Utils Verif.M_Survey Verif.Spec_Length Verif.Spec_Stability.
Require Import Verif.P_Trig Verif.P_Utils Verif.P_Utils2 Verif.P_Survey Verif.P_Length Verif.M_Round Verif.Spec_Round Verif.P_Round Verif.P_Round2.
Import ListNotations.
Local Open Scope R_scope.

Lemma chord_le : forall u v t, is_unit u -> is_unit v -> angle_between u v t -> norm (vsub v u) <= t.
Proof.
  intros u v t U V [B C].
  assert (S0 : 0 <= sin (t / 2)) by (apply sin_ge_0; lra).
  assert (E : norm (vsub v u) = 2 * sin (t / 2)).
  { apply norm_from_sqr; [lra|]. assert (H := sin_half_sqr t). unfold is_unit in *.
    replace (dot (vsub v u) (vsub v u)) with (dot v v + dot u u - 2 * dot u v) by (unfold dot, vsub; simpl; ring).
    rewrite U, V, <- C. lra. }
  rewrite E. assert (sin (t / 2) <= t / 2) by (apply sin_le_x; lra). lra.
Qed.

(** * Directions *)
Lemma dogleg_same_azi : forall i a j, get_dogleg i a j a <= Rabs (j - i).
Proof.
  intros i a j. destruct (dogleg_angle i a j a) as [B C].
  destruct (Rle_dec (get_dogleg i a j a) (Rabs (j - i))) as [L | L]; [exact L |]. exfalso.
  assert (R0 := Rabs_pos (j - i)).
  assert (K : cos (get_dogleg i a j a) < cos (Rabs (j - i))) by (apply cos_decreasing_1; lra).
  assert (E : cos (Rabs (j - i)) = cos i * cos j + sin i * sin j).
  { replace (cos (Rabs (j - i))) with (cos (j - i)).
    - rewrite cos_minus. ring.
    - unfold Rabs. destruct Rcase_abs; [rewrite cos_neg |]; reflexivity. }
  rewrite C, E in K. unfold dot, direction_nev in K. simpl in K.
  replace (sin i * cos a * (sin j * cos a) + sin i * sin a * (sin j * sin a) + cos i * cos j)
    with (sin i * sin j * (sin a * sin a + cos a * cos a) + cos i * cos j) in K by ring.
  rewrite (sin2_cos2' a) in K. lra.
Qed.

Lemma stable_direction : forall inc azi inc' azi' t,
  angle_between (direction_nev inc azi) (direction_nev inc' azi') t ->
  t <= Rabs (inc' - inc) + Rabs (azi' - azi).
Proof.
  intros i a i' a' t H.
  assert (K := angles_add _ _ _ _ _ _ (dir_unit i a) (dir_unit i' a) (dir_unit i' a')
                 (dogleg_angle i a i' a) (dogleg_angle i' a i' a') H).
  assert (A := dogleg_same_azi i a i'). assert (B := dogleg_same_inc i' a a'). lra.
Qed.

(** * Turns *)
Lemma within_dir : forall e l l' k a a', directions_within e l l' -> nth_error l k = Some a -> nth_error l' k = Some a' ->
  get_dogleg (st_inc a) (st_azi a) (st_inc a') (st_azi a') <= e.
Proof. intros e l l' k a a' H A A'. apply (H k a a' _ A A'). apply dogleg_angle. Qed.

Lemma turn_stable : forall e a b a' b',
  get_dogleg (st_inc a) (st_azi a) (st_inc a') (st_azi a') <= e ->
  get_dogleg (st_inc b) (st_azi b) (st_inc b') (st_azi b') <= e ->
  Rabs (pair_dogleg a' b' - pair_dogleg a b) <= 2 * e.
Proof.
  intros e a b a' b' Ha Hb.
  set (ua := dir_unit (st_inc a) (st_azi a)). set (ub := dir_unit (st_inc b) (st_azi b)).
  set (ua' := dir_unit (st_inc a') (st_azi a')). set (ub' := dir_unit (st_inc b') (st_azi b')).
  assert (G := dogleg_angle).
  (* a' - a - b - b' *)
  assert (K1 := angles_add _ _ _ _ _ _ ua' ua ub (G (st_inc a') (st_azi a') (st_inc a) (st_azi a)) (G (st_inc a) (st_azi a) (st_inc b) (st_azi b)) (G (st_inc a') (st_azi a') (st_inc b) (st_azi b))).
  assert (K2 := angles_add _ _ _ _ _ _ ua' ub ub' (G (st_inc a') (st_azi a') (st_inc b) (st_azi b)) (G (st_inc b) (st_azi b) (st_inc b') (st_azi b')) (G (st_inc a') (st_azi a') (st_inc b') (st_azi b'))).
  assert (K3 := angles_add _ _ _ _ _ _ ua ua' ub' (G (st_inc a) (st_azi a) (st_inc a') (st_azi a')) (G (st_inc a') (st_azi a') (st_inc b') (st_azi b')) (G (st_inc a) (st_azi a) (st_inc b') (st_azi b'))).
  assert (K4 := angles_add _ _ _ _ _ _ ua ub' ub (G (st_inc a) (st_azi a) (st_inc b') (st_azi b')) (G (st_inc b') (st_azi b') (st_inc b) (st_azi b)) (G (st_inc a) (st_azi a) (st_inc b) (st_azi b))).
  rewrite (dogleg_sym (st_inc a') (st_azi a') (st_inc a) (st_azi a)) in K1.
  rewrite (dogleg_sym (st_inc b') (st_azi b') (st_inc b) (st_azi b)) in K4.
  unfold pair_dogleg. apply Rabs_le. lra.
Qed.

Lemma stable_turns : forall e l l' k a b a' b' t t', directions_within e l l' ->
  nth_error l k = Some a -> nth_error l (S k) = Some b -> nth_error l' k = Some a' -> nth_error l' (S k) = Some b' ->
  angle_between (heading a) (heading b) t -> angle_between (heading a') (heading b') t' ->
  Rabs (t' - t) <= 2 * e.
Proof.
  intros e l l' k a b a' b' t t' H A B A' B' T T'.
  rewrite (angle_between_unique _ _ _ _ T (dogleg_angle _ _ _ _)).
  rewrite (angle_between_unique _ _ _ _ T' (dogleg_angle _ _ _ _)).
  apply turn_stable; eapply within_dir; eauto.
Qed.

(** * Steps *)
Lemma step_stable : forall e a b a' b', st_md a <= st_md b -> st_md a' = st_md a -> st_md b' = st_md b ->
  pair_dogleg a b <= 71 / 50 -> pair_dogleg a' b' <= 71 / 50 ->
  get_dogleg (st_inc a) (st_azi a) (st_inc a') (st_azi a') <= e ->
  get_dogleg (st_inc b) (st_azi b) (st_inc b') (st_azi b') <= e ->
  norm (vsub (step_between a' b') (step_between a b)) <= 8 / 3 * e * (st_md b - st_md a).
Proof.
  intros e a b a' b' M Ma Mb T T' Ha Hb.
  assert (D0 : 0 <= pair_dogleg a b) by apply (proj1 (dogleg_angle (st_inc a) (st_azi a) (st_inc b) (st_azi b))).
  assert (D0' : 0 <= pair_dogleg a' b') by apply (proj1 (dogleg_angle (st_inc a') (st_azi a') (st_inc b') (st_azi b'))).
  assert (E0 : 0 <= e).
  { eapply Rle_trans; [apply (proj1 (dogleg_angle (st_inc a) (st_azi a) (st_inc a') (st_azi a')))|exact Ha]. }
  assert (TS := turn_stable e a b a' b' Ha Hb).
  assert (RF : Rabs (get_rf (pair_dogleg a' b') - get_rf (pair_dogleg a b)) <= 128 / 100 * e).
  { apply abs_inv in TS. destruct (Rle_dec (pair_dogleg a b) (pair_dogleg a' b')) as [L|L].
    - assert (K := rf_slope _ _ D0 L T'). rewrite Rabs_pos_eq by lra. lra.
    - assert (L' : pair_dogleg a' b' <= pair_dogleg a b) by lra.
      assert (K := rf_slope _ _ D0' L' T). apply Rabs_le. lra. }
  assert (R1 := rf_range _ (conj D0 T)).
  rewrite !step_between_disp, Ma, Mb. unfold mc_disp.
  set (d := st_md b - st_md a) in *. assert (Hd : 0 <= d) by (unfold d; lra).
  set (r := get_rf (pair_dogleg a b)) in *. set (r' := get_rf (pair_dogleg a' b')) in *.
  assert (Ua := dir_unit (st_inc a') (st_azi a')). assert (Ub := dir_unit (st_inc b') (st_azi b')).
  assert (Ca : norm (vsub (dir a') (dir a)) <= e).
  { eapply Rle_trans; [apply (chord_le (dir a) (dir a')); [apply dir_unit|apply dir_unit|apply dogleg_angle]|exact Ha]. }
  assert (Cb : norm (vsub (dir b') (dir b)) <= e).
  { eapply Rle_trans; [apply (chord_le (dir b) (dir b')); [apply dir_unit|apply dir_unit|apply dogleg_angle]|exact Hb]. }
  assert (Na : norm (dir a') = 1) by (apply norm_from_sqr; [lra|rewrite Rmult_1_r; exact Ua]).
  assert (Nb : norm (dir b') = 1) by (apply norm_from_sqr; [lra|rewrite Rmult_1_r; exact Ub]).
  replace (vsub (vscale (d * r' / 2) (vadd (dir a') (dir b'))) (vscale (d * r / 2) (vadd (dir a) (dir b))))
    with (vadd (vscale (d * (r' - r) / 2) (vadd (dir a') (dir b')))
               (vscale (d * r / 2) (vadd (vsub (dir a') (dir a)) (vsub (dir b') (dir b)))))
    by (apply V3_eq; unfold vadd, vsub, vscale; simpl; field).
  eapply Rle_trans; [apply norm_triangle|]. rewrite !norm_vscale.
  assert (N1 := norm_triangle (dir a') (dir b')).
  assert (N2 := norm_triangle (vsub (dir a') (dir a)) (vsub (dir b') (dir b))).
  assert (P1 : Rabs (d * (r' - r) / 2) <= d * (64 / 100 * e)).
  { unfold Rdiv. rewrite !Rabs_mult, (Rabs_pos_eq d), (Rabs_pos_eq (/ 2)) by lra.
    assert (d * Rabs (r' - r) <= d * (128 / 100 * e)) by (apply Rmult_le_compat_l; assumption). lra. }
  assert (P2 : Rabs (d * r / 2) <= d * (2 / 3)).
  { rewrite Rabs_pos_eq by (apply Rmult_le_pos; [apply Rmult_le_pos|]; lra).
    assert (d * r <= d * (4 / 3)) by (apply Rmult_le_compat_l; lra). lra. }
  assert (Q1 : Rabs (d * (r' - r) / 2) * norm (vadd (dir a') (dir b')) <= d * (64 / 100 * e) * 2)
    by (apply Rmult_le_compat; auto using Rabs_pos, norm_ge0; lra).
  assert (Q2 : Rabs (d * r / 2) * norm (vadd (vsub (dir a') (dir a)) (vsub (dir b') (dir b))) <= d * (2 / 3) * (2 * e))
    by (apply Rmult_le_compat; auto using Rabs_pos, norm_ge0; lra).
  assert (0 <= d * e) by (apply Rmult_le_pos; assumption). lra.
Qed.

(** * Positions *)
Lemma depth_at : forall l l' k a a', same_depths l l' -> nth_error l k = Some a -> nth_error l' k = Some a' -> st_md a' = st_md a.
Proof.
  intros l l' k a a' S A A'. unfold same_depths in S.
  assert (H := map_nth_error st_md _ _ A). rewrite S, (map_nth_error st_md _ _ A') in H. congruence.
Qed.

Lemma other_station : forall l l' k a, same_depths l l' -> nth_error l k = Some a -> exists a', nth_error l' k = Some a'.
Proof.
  intros l l' k a S A. apply (nth_other l l' k a); [|exact A].
  unfold same_depths in S. rewrite <- (map_length st_md l'), <- S, map_length. reflexivity.
Qed.

Lemma path_stable : forall e l l' ps ps', path l ps -> path l' ps' -> same_depths l l' -> not_back l ->
  turns_within (7 / 5) l -> turns_within (7 / 5) l' -> directions_within e l l' ->
  forall d a0 a p0 p p', nth_error l 0 = Some a0 -> nth_error l d = Some a ->
  nth_error ps 0 = Some p0 -> nth_error ps' 0 = Some p0 -> nth_error ps d = Some p -> nth_error ps' d = Some p' ->
  dist p' p <= 8 / 3 * e * (st_md a - st_md a0).
Proof.
  intros e l l' ps ps' [L P] [L' P'] SD N T T' W d.
  induction d as [|d IH]; intros a0 a p0 p p' A0 A P0 P0' HP HP'.
  - assert (a = a0) by congruence. assert (p = p0) by congruence. assert (p' = p0) by congruence. subst.
    unfold dist. replace (vsub p0 p0) with (vscale 0 p0) by (apply V3_eq; unfold vsub, vscale; simpl; ring).
    rewrite norm_vscale, Rabs_R0. lra.
  - destruct (nth_before l d (S d) a) as [c C]; [lia|exact A|].
    destruct (nth_other l ps _ _ L C) as [q Q]. destruct (other_station _ _ _ _ SD C) as [c' C'].
    destruct (other_station _ _ _ _ SD A) as [a' A']. destruct (nth_other l' ps' _ _ L' C') as [q' Q'].
    assert (I := IH a0 c p0 q q' A0 C P0 P0' Q Q').
    rewrite (P _ _ _ _ _ C A Q HP), (P' _ _ _ _ _ C' A' Q' HP').
    assert (SS : norm (vsub (step_between c' a') (step_between c a)) <= 8 / 3 * e * (st_md a - st_md c)).
    { apply step_stable.
      - apply (N d c a C A).
      - apply (depth_at l l' d); assumption.
      - apply (depth_at l l' (S d)); assumption.
      - assert (K := T d c a _ C A (dogleg_angle _ _ _ _)). unfold pair_dogleg. lra.
      - assert (K := T' d c' a' _ C' A' (dogleg_angle _ _ _ _)). unfold pair_dogleg. lra.
      - apply (within_dir e l l' d); assumption.
      - apply (within_dir e l l' (S d)); assumption. }
    unfold dist in *.
    replace (vsub (vadd q' (step_between c' a')) (vadd q (step_between c a)))
      with (vadd (vsub q' q) (vsub (step_between c' a') (step_between c a)))
      by (apply V3_eq; unfold vadd, vsub; simpl; ring).
    eapply Rle_trans; [apply norm_triangle|].
    replace (st_md a - st_md a0) with ((st_md c - st_md a0) + (st_md a - st_md c)) by ring. lra.
Qed.

Lemma stable_positions : forall h rows deg sx sn unit s h' rows' deg' sx' sn' unit' s' e k a0 a p0 p p',
  Survey h rows deg sx sn unit = Some s -> Survey h' rows' deg' sx' sn' unit' = Some s' ->
  same_depths (sv_rows s) (sv_rows s') -> not_back (sv_rows s) ->
  turns_within (7 / 5) (sv_rows s) -> turns_within (7 / 5) (sv_rows s') ->
  directions_within e (sv_rows s) (sv_rows s') ->
  nth_error (sv_rows s) 0 = Some a0 -> nth_error (sv_rows s) k = Some a ->
  nth_error (sv_nev s) 0 = Some p0 -> nth_error (sv_nev s') 0 = Some p0 ->
  nth_error (sv_nev s) k = Some p -> nth_error (sv_nev s') k = Some p' ->
  dist p' p <= 8 / 3 * e * (st_md a - st_md a0).
Proof.
  intros h rows deg sx sn unit s h' rows' deg' sx' sn' unit' s' e k a0 a p0 p p' H H' SD N T T' W.
  apply (path_stable e (sv_rows s) (sv_rows s')); auto; eapply survey_path; eauto.
Qed.

Lemma stable_angles : forall d l l', angles_within d l l' -> directions_within (2 * d) l l'.
Proof.
  intros d l l' H k a a' t A A' T. destruct (H k a a' A A') as [Hi Ha].
  assert (K := stable_direction _ _ _ _ _ T). lra.
Qed.

Lemma stable_straight : forall h rows deg sx sn unit s h' rows' deg' sx' sn' unit' s' k a0 a0' a p0 p p' t,
  Survey h rows deg sx sn unit = Some s -> Survey h' rows' deg' sx' sn' unit' = Some s' ->
  same_depths (sv_rows s) (sv_rows s') -> not_back (sv_rows s) -> straight (sv_rows s) -> straight (sv_rows s') ->
  nth_error (sv_rows s) 0 = Some a0 -> nth_error (sv_rows s') 0 = Some a0' -> angle_between (heading a0) (heading a0') t ->
  nth_error (sv_rows s) k = Some a ->
  nth_error (sv_nev s) 0 = Some p0 -> nth_error (sv_nev s') 0 = Some p0 ->
  nth_error (sv_nev s) k = Some p -> nth_error (sv_nev s') k = Some p' ->
  dist p' p = 2 * sin (t / 2) * (st_md a - st_md a0).
Proof.
  intros h rows deg sx sn unit s h' rows' deg' sx' sn' unit' s' k a0 a0' a p0 p p' t H H' SD N G G' A0 A0' T A P0 P0' HP HP'.
  destruct (other_station _ _ _ _ SD A) as [a' A'].
  assert (E := path_straight _ _ (survey_path _ _ _ _ _ _ _ H) 0 k a0 p0
    ltac:(intros j c _ C; apply (G j 0%nat c a0 C A0)) A0 P0 a p A HP).
  assert (E' := path_straight _ _ (survey_path _ _ _ _ _ _ _ H') 0 k a0' p0
    ltac:(intros j c _ C; apply (G' j 0%nat c a0' C A0')) A0' P0' a' p' A' HP').
  rewrite (depth_at _ _ _ _ _ SD A0 A0'), (depth_at _ _ _ _ _ SD A A') in E'.
  assert (M : st_md a0 <= st_md a) by (apply (md_mono (sv_rows s) N 0%nat k); [exact A0|exact A]).
  destruct T as [B C].
  assert (S0 : 0 <= sin (t / 2)) by (apply sin_ge_0; lra).
  subst p p'. unfold dist. apply norm_from_sqr; [apply Rmult_le_pos; lra|].
  assert (X := sin_half_sqr t).
  assert (U : dot (heading a0) (heading a0) = 1) by apply dir_unit.
  assert (U' : dot (heading a0') (heading a0') = 1) by apply dir_unit.
  set (m := st_md a - st_md a0) in *. set (u := heading a0) in *. set (v := heading a0') in *.
  replace (dot (vsub (vadd p0 (vscale m v)) (vadd p0 (vscale m u))) (vsub (vadd p0 (vscale m v)) (vadd p0 (vscale m u))))
    with (m * m * (dot v v + dot u u - 2 * dot u v)) by (unfold dot, vsub, vadd, vscale; simpl; ring).
  rewrite U, U', <- C. replace (2 * sin (t / 2) * m * (2 * sin (t / 2) * m)) with (m * m * (4 * (sin (t / 2) * sin (t / 2)))) by ring.
  f_equal. lra.
Qed.

(** the well that builds from vertical, and one surveyed with a wrong azimuth and inclination *)
Definition near_rows : list row := [(0, 1 / 100, 0); (100, 51 / 100, 0); (200, 1, 1 / 100)].
Lemma near_surveys : exists s s', Survey grid_header build_rows false vzero vzero "meters" = Some s /\
  Survey grid_header near_rows false vzero vzero "meters" = Some s' /\ sv_rows s = [mkSt 0 0 0; mkSt 100 (1/2) 0; mkSt 200 1 0] /\
  sv_rows s' = [mkSt 0 (1 / 100) 0; mkSt 100 (51 / 100) 0; mkSt 200 1 (1 / 100)] /\ nth_error (sv_nev s) 0 = nth_error (sv_nev s') 0.
Proof. do 2 eexists. split; [reflexivity|]. split; [reflexivity|]. split; [reflexivity|]. split; reflexivity. Qed.
Lemma stable_case : exists s s', Survey grid_header build_rows false vzero vzero "meters" = Some s /\
  Survey grid_header near_rows false vzero vzero "meters" = Some s' /\
  same_depths (sv_rows s) (sv_rows s') /\ not_back (sv_rows s) /\
  turns_within (7 / 5) (sv_rows s) /\ turns_within (7 / 5) (sv_rows s') /\
  angles_within (1 / 100) (sv_rows s) (sv_rows s') /\ directions_within (2 * (1 / 100)) (sv_rows s) (sv_rows s') /\
  nth_error (sv_nev s) 0 = nth_error (sv_nev s') 0.
Proof.
  destruct near_surveys as (s & s' & H & H' & E & E' & F').
  exists s, s'. split; [exact H|]. split; [exact H'|]. rewrite E, E'.
  assert (AW : angles_within (1 / 100) [mkSt 0 0 0; mkSt 100 (1/2) 0; mkSt 200 1 0] [mkSt 0 (1 / 100) 0; mkSt 100 (51 / 100) 0; mkSt 200 1 (1 / 100)]).
  { intros [|[|[|[|k]]]] a b A B; cbn in A, B; try discriminate A; injection A as <-; injection B as <-; cbn [st_inc st_azi]; split; apply Rabs_le; lra. }
  split; [reflexivity|]. split; [apply forward_back, build_ok|].
  split; [|split]; [| |split; [exact AW|split; [apply stable_angles, AW|]]].
  - intros [|[|[|[|k]]]] a b t A B T; cbn in A, B; try discriminate A; try discriminate B; injection A as <-; injection B as <-;
    apply stable_direction in T; cbn [st_inc st_azi] in T; revert T; unfold Rabs; repeat destruct Rcase_abs; lra.
  - intros [|[|[|[|k]]]] a b t A B T; cbn in A, B; try discriminate A; try discriminate B; injection A as <-; injection B as <-;
    apply stable_direction in T; cbn [st_inc st_azi] in T; revert T; unfold Rabs; repeat destruct Rcase_abs; lra.
  - exact F'.
Qed.
