(** Errors of rounded positions along a survey (C159). *)
Require Import Reals String List Lra Lia.
Require Import Verif.Base Verif.NumPy Verif.Spec Verif.M_Utils Verif.P_Trig Verif.P_Utils Verif.P_Length.
Require Import Verif.M_Round Verif.Spec_Round Verif.P_Round.
Import ListNotations.
Open Scope R_scope.

(** [x'] is [x] up to n errors relative to a bound B of [x] *)
Definition close (w : R) (n : nat) (x' x B : R) : Prop :=
  Rabs x <= B /\ Rabs (x' - x) <= (/ w ^ n - 1) * B.

Lemma close_bound : forall w n x' x B, close w n x' x B -> Rabs x' <= / w ^ n * B.
Proof.
  intros w n x' x B [H K]. replace x' with (x + (x' - x)) by ring.
  eapply Rle_trans; [apply Rabs_triang |]. lra.
Qed.

Lemma inv_pow_ge1 : forall w n, 0 < w <= 1 -> 1 <= / w ^ n.
Proof.
  intros w n Hw. assert (P := wpow_pos w n ltac:(lra)).
  assert (W : w ^ n <= 1) by (change 1 with (w ^ 0); apply wpow_le; [lra | lia]).
  rewrite <- Rinv_1. apply Rinv_le_contravar; lra.
Qed.

Lemma inv_pow_mono : forall w n m, 0 < w <= 1 -> (n <= m)%nat -> / w ^ n <= / w ^ m.
Proof.
  intros w n m Hw H. apply Rinv_le_contravar; [apply wpow_pos; lra | apply wpow_le; assumption].
Qed.

Lemma close_B : forall w n x' x B, close w n x' x B -> 0 <= B.
Proof. intros w n x' x B [H _]. assert (K := Rabs_pos x). lra. Qed.

Lemma close_weaken : forall w n m x' x B C, 0 < w <= 1 -> (n <= m)%nat -> B <= C ->
  close w n x' x B -> close w m x' x C.
Proof.
  intros w n m x' x B C Hw H HB Q. assert (B0 := close_B _ _ _ _ _ Q). destruct Q as [Q1 Q2].
  split; [lra |]. eapply Rle_trans; [exact Q2 |].
  assert (A := inv_pow_mono w n m Hw H). assert (A1 := inv_pow_ge1 w n Hw).
  apply Rmult_le_compat; lra.
Qed.

Lemma close_add : forall w n a' a b' b A B,
  close w n a' a A -> close w n b' b B -> close w n (a' + b') (a + b) (A + B).
Proof.
  intros w n a' a b' b A B [H1 H2] [K1 K2]. split.
  - eapply Rle_trans; [apply Rabs_triang |]. lra.
  - replace (a' + b' - (a + b)) with ((a' - a) + (b' - b)) by ring.
    eapply Rle_trans; [apply Rabs_triang |]. lra.
Qed.

Lemma close_mul : forall w n m a' a b' b A B, 0 < w <= 1 ->
  close w n a' a A -> close w m b' b B -> close w (n + m) (a' * b') (a * b) (A * B).
Proof.
  intros w n m a' a b' b A B Hw Ha Hb.
  assert (Ba := close_bound _ _ _ _ _ Ha). assert (A0 := close_B _ _ _ _ _ Ha).
  assert (B0 := close_B _ _ _ _ _ Hb).
  destruct Ha as [H1 H2]. destruct Hb as [K1 K2]. split.
  - rewrite Rabs_mult. apply Rmult_le_compat; auto using Rabs_pos.
  - replace (a' * b' - a * b) with (a' * (b' - b) + (a' - a) * b) by ring.
    eapply Rle_trans; [apply Rabs_triang |]. rewrite !Rabs_mult.
    assert (T1 : Rabs a' * Rabs (b' - b) <= / w ^ n * A * ((/ w ^ m - 1) * B))
      by (apply Rmult_le_compat; auto using Rabs_pos).
    assert (T2 : Rabs (a' - a) * Rabs b <= (/ w ^ n - 1) * A * B)
      by (apply Rmult_le_compat; auto using Rabs_pos).
    rewrite pow_add, Rinv_mult. lra.
Qed.

Lemma close_near : forall w n x' x B, 0 < w <= 1 -> Rabs x <= B -> near w n x' x -> close w n x' x B.
Proof.
  intros w n x' x B Hw HB [f [E [L U]]]. split; [exact HB |].
  assert (P := wpow_pos w n ltac:(lra)).
  replace (x' - x) with ((f - 1) * x) by (subst; ring). rewrite Rabs_mult.
  assert (G := inv_pow_ge1 w n Hw).
  assert (I : / w ^ n * w ^ n = 1) by (apply Rinv_l; lra).
  assert (F : f <= / w ^ n) by (apply Rmult_le_reg_r with (w ^ n); [exact P | lra]).
  assert (F2 : 1 - f <= / w ^ n - 1) by nra.
  apply Rmult_le_compat; auto using Rabs_pos. apply Rabs_le. split; lra.
Qed.

Lemma close_fl : forall u M n x' x B, 0 <= u < 1 -> accurate u M ->
  close (1 - u) n x' x B -> close (1 - u) (S n) (fl M x') x B.
Proof.
  intros u M n x' x B Hu A H. assert (Bd := close_bound _ _ _ _ _ H).
  destruct H as [H1 H2]. split; [exact H1 |].
  assert (N : near (1 - u) 1 (fl M x') x') by (apply near_error; [exact Hu | apply A]).
  destruct (close_near (1 - u) 1 _ _ _ ltac:(lra) (Rle_refl _) N) as [_ N2].
  replace (fl M x' - x) with ((fl M x' - x') + (x' - x)) by ring.
  eapply Rle_trans; [apply Rabs_triang |].
  assert (G := inv_pow_ge1 (1 - u) 1 ltac:(lra)).
  assert (T : (/ (1 - u) ^ 1 - 1) * Rabs x' <= (/ (1 - u) ^ 1 - 1) * (/ (1 - u) ^ n * B))
    by (apply Rmult_le_compat_l; lra).
  replace ((1 - u) ^ S n) with ((1 - u) ^ 1 * (1 - u) ^ n) by (simpl; ring).
  rewrite Rinv_mult. lra.
Qed.

(** * One step *)
Lemma rf_range : forall d, 0 <= d <= 71 / 50 -> 0 <= get_rf d <= 4 / 3.
Proof.
  intros d Hd. unfold get_rf. destruct (Req_EM_T d 0) as [Z | NZ]; [lra |].
  pose proof PI2_3_2 as P3. assert (Q : 0 < d) by lra.
  assert (T0 : 0 < tan (d / 2)) by (apply tan_gt_0; lra).
  assert (D0 : 0 < 2 / d) by (apply Rdiv_lt_0_compat; lra).
  split; [nra |].
  set (g := d / 2 / (PI / 4)).
  assert (G : 0 <= g <= 1).
  { unfold g. split.
    - apply Rlt_le, Rdiv_lt_0_compat; lra.
    - apply Rmult_le_reg_r with (PI / 4); [lra |].
      replace (d / 2 / (PI / 4) * (PI / 4)) with (d / 2) by (field; lra). lra. }
  assert (K := tan_chord g (PI / 4) G ltac:(lra)). rewrite tan_PI4 in K.
  replace (g * (PI / 4)) with (d / 2) in K by (unfold g; field; lra).
  apply Rle_trans with (2 / d * (g * 1)); [apply Rmult_le_compat_l; lra |].
  replace (2 / d * (g * 1)) with (4 / PI) by (unfold g; field; lra).
  apply Rmult_le_reg_r with PI; [lra |]. replace (4 / PI * PI) with 4 by (field; lra). lra.
Qed.

Lemma abs_trig : forall x, Rabs (sin x) <= 1 /\ Rabs (cos x) <= 1.
Proof.
  intro x. split; apply Rabs_le; [apply SIN_bound | apply COS_bound].
Qed.

Definition close_v (w : R) (n : nat) (p' p : V3) (B : R) : Prop :=
  close w n (vx p') (vx p) B /\ close w n (vy p') (vy p) B /\ close w n (vz p') (vz p) B.

Lemma close_sin : forall u M x, 0 <= u < 1 -> accurate u M -> close (1 - u) 1 (fsin M x) (sin x) 1.
Proof.
  intros. apply close_near; [lra | apply abs_trig |]. apply near_error; [assumption | apply H0].
Qed.
Lemma close_cos : forall u M x, 0 <= u < 1 -> accurate u M -> close (1 - u) 1 (fcos M x) (cos x) 1.
Proof.
  intros. apply close_near; [lra | apply abs_trig |]. apply near_error; [assumption | apply H0].
Qed.

Lemma step_close : forall u M dmd' dmd i1 a1 i2 a2 rf' rf, 0 <= u < 1 -> accurate u M ->
  0 <= dmd -> 0 <= rf -> near (1 - u) 1 dmd' dmd -> near (1 - u) 27 rf' rf ->
  close_v (1 - u) 35 (r_step M dmd' i1 a1 i2 a2 rf') (min_curve_step_rf dmd i1 a1 i2 a2 rf) (dmd * rf).
Proof.
  intros u M dmd' dmd i1 a1 i2 a2 rf' rf Hu A Hd Hr Nd Nr.
  assert (W : 0 < 1 - u <= 1) by lra.
  assert (DR : 0 <= dmd * rf) by (apply Rmult_le_pos; assumption).
  assert (Ns : close (1 - u) 30 (fl M (fl M (dmd' * rf') / 2)) (dmd * rf / 2) (dmd * rf / 2)).
  { apply close_near; [exact W | rewrite Rabs_pos_eq; lra |].
    apply near_fl; auto. apply near_half. apply near_fl; auto.
    apply (near_mul _ 1 27); [lra | exact Nd | exact Nr]. }
  assert (Pr : forall a' a b' b, close (1 - u) 1 a' a 1 -> close (1 - u) 1 b' b 1 ->
              close (1 - u) 3 (fl M (a' * b')) (a * b) 1).
  { intros a' a b' b Ka Kb. apply close_fl; auto.
    replace 1 with (1 * 1) at 2 by ring. apply (close_mul _ 1 1); assumption. }
  assert (Fin2 : forall s' s, close (1 - u) 4 s' s 2 ->
     close (1 - u) 35 (fl M (fl M (fl M (dmd' * rf') / 2) * s')) (dmd * rf / 2 * s) (dmd * rf)).
  { intros s' s Ks. apply close_fl; auto.
    replace (dmd * rf) with (dmd * rf / 2 * 2) at 2 by field.
    apply (close_mul _ 30 4); assumption. }
  unfold close_v, r_step, min_curve_step_rf. cbv zeta. simpl vx. simpl vy. simpl vz.
  split; [| split].
  - apply Fin2. apply close_fl; auto. replace 2 with (1 + 1) by ring.
    apply close_add; apply Pr; auto using close_sin, close_cos.
  - apply Fin2. apply close_fl; auto. replace 2 with (1 + 1) by ring.
    apply close_add; apply Pr; auto using close_sin, close_cos.
  - apply Fin2. apply (close_weaken _ 2 4 _ _ 2); [exact W | lia | lra |].
    apply close_fl; auto. replace 2 with (1 + 1) by ring.
    apply close_add; auto using close_cos.
Qed.

(** * The azimuth difference across north: an error of the azimuth *)
Lemma dir_unit : forall i a, is_unit (direction_nev i a).
Proof.
  intros i a. unfold is_unit, dot, direction_nev. simpl.
  pose proof (sin2_cos2' i). pose proof (sin2_cos2' a). nra.
Qed.

Lemma dogleg_same_inc : forall i a b, get_dogleg i a i b <= Rabs (b - a).
Proof.
  intros i a b. destruct (dogleg_angle i a i b) as [B C].
  destruct (Rle_dec (get_dogleg i a i b) (Rabs (b - a))) as [L | L]; [exact L |]. exfalso.
  assert (L2 : Rabs (b - a) < get_dogleg i a i b) by lra.
  assert (R0 := Rabs_pos (b - a)).
  assert (K : cos (get_dogleg i a i b) < cos (Rabs (b - a))) by (apply cos_decreasing_1; lra).
  assert (E : cos (Rabs (b - a)) = cos a * cos b + sin a * sin b).
  { replace (cos (Rabs (b - a))) with (cos (b - a)).
    - rewrite cos_minus. ring.
    - unfold Rabs. destruct Rcase_abs; [rewrite cos_neg |]; reflexivity. }
  rewrite C, E in K. unfold dot, direction_nev in K. simpl in K.
  assert (Ci := sin2_cos2' i).
  set (c := cos a * cos b + sin a * sin b) in *.
  assert (c <= 1) by (rewrite <- E; apply COS_bound).
  replace (sin i * cos a * (sin i * cos b) + sin i * sin a * (sin i * sin b) + cos i * cos i)
    with (sin i * sin i * c + cos i * cos i) in K by (unfold c; ring).
  assert (0 <= cos i * cos i) by nra. nra.
Qed.

Lemma azimuth_error : forall i1 a1 i2 a b,
  Rabs (get_dogleg i1 a1 i2 b - get_dogleg i1 a1 i2 a) <= Rabs (b - a).
Proof.
  intros i1 a1 i2 a b.
  assert (U1 := dir_unit i1 a1). assert (Ua := dir_unit i2 a). assert (Ub := dir_unit i2 b).
  assert (A1 := angles_add _ _ _ _ _ _ U1 Ua Ub (dogleg_angle i1 a1 i2 a) (dogleg_angle i2 a i2 b) (dogleg_angle i1 a1 i2 b)).
  assert (A2 := angles_add _ _ _ _ _ _ U1 Ub Ua (dogleg_angle i1 a1 i2 b) (dogleg_angle i2 b i2 a) (dogleg_angle i1 a1 i2 a)).
  assert (S1 := dogleg_same_inc i2 a b). assert (S2 := dogleg_same_inc i2 b a).
  rewrite (Rabs_minus_sym a b) in S2. apply Rabs_le. lra.
Qed.

(** the rounded dogleg is the exact dogleg of a station whose azimuth is off by a
    few roundings, up to 12 relative errors *)
Lemma dogleg_back : forall u M i1 a1 i2 a2, 0 <= u <= 1 / 1000 -> accurate u M ->
  0 <= i1 <= PI -> 0 <= i2 <= PI -> Rabs (i2 - i1) <= 29 / 10 -> Rabs (a2 - a1) <= 7 ->
  get_dogleg i1 a1 i2 a2 <= 7 / 5 ->
  exists b, Rabs (b - a2) <= 702 / 50 * u /\
    near (1 - u) 12 (r_dogleg M i1 a1 i2 a2) (get_dogleg i1 a1 i2 b).
Proof.
  intros u M i1 a1 i2 a2 Hu A I1 I2 DI DA TT.
  assert (Hu1 : 0 <= u < 1) by lra. assert (W : 0 < 1 - u <= 1) by lra.
  pose proof PI_RGT_0. pose proof PI2_3_2 as P32.
  set (x' := fl M (fl M (a2 - a1) / 2)).
  assert (N : near (1 - u) 2 x' ((a2 - a1) / 2)).
  { apply near_fl; auto. apply near_half. apply near_fl; auto. apply near_refl. }
  assert (X : Rabs (x' - (a2 - a1) / 2) <= 351 / 50 * u).
  { assert (HB : Rabs ((a2 - a1) / 2) <= 7 / 2).
    { unfold Rdiv at 1. rewrite Rabs_mult, (Rabs_pos_eq (/ 2)) by lra. lra. }
    destruct (close_near (1 - u) 2 _ _ (7 / 2) W HB N) as [_ K].
    { assert (G := gamma_bound u 2 ltac:(lra)). simpl INR in G.
      assert (G1 := G ltac:(lra)). unfold gamma in G1. simpl INR in G1.
      assert (G2 : (1 + 1) * u / (1 - (1 + 1) * u) <= 2005 / 1000 * u).
      { apply Rmult_le_reg_r with (1 - (1 + 1) * u); [lra |].
        replace ((1 + 1) * u / (1 - (1 + 1) * u) * (1 - (1 + 1) * u)) with ((1 + 1) * u) by (field; lra).
        nra. }
      lra. } }
  exists (a1 + 2 * x'). split.
  { replace (a1 + 2 * x' - a2) with (2 * (x' - (a2 - a1) / 2)) by field.
    rewrite Rabs_mult, (Rabs_pos_eq 2) by lra. lra. }
  assert (TT2 : get_dogleg i1 a1 i2 (a1 + 2 * x') <= 71 / 50).
  { assert (K := azimuth_error i1 a1 i2 a2 (a1 + 2 * x')).
    replace (a1 + 2 * x' - a2) with (2 * (x' - (a2 - a1) / 2)) in K by field.
    rewrite Rabs_mult, (Rabs_pos_eq 2) in K by lra. apply abs_inv in K. lra. }
  set (h := sin ((i2 - i1) / 2) ^ 2 + sin i1 * sin i2 * sin x' ^ 2).
  assert (Eg : get_dogleg i1 a1 i2 (a1 + 2 * x') = 2 * asin (sqrt h)).
  { unfold get_dogleg, h. replace ((a1 + 2 * x' - a1) / 2) with x' by field. reflexivity. }
  assert (S1 : 0 <= sin i1) by (apply sin_ge_0; lra).
  assert (S2 : 0 <= sin i2) by (apply sin_ge_0; lra).
  assert (SS : 0 <= sin i1 * sin i2) by (apply Rmult_le_pos; assumption).
  assert (H0 : 0 <= h) by (unfold h; apply Rplus_le_le_0_compat; [| apply Rmult_le_pos]; try assumption; apply pow2_ge_0).
  unfold r_dogleg. fold x'.
  assert (Na := near_sqr u M 3 _ _ Hu1 A (near_half_diff u M i1 i2 Hu A DI)).
  assert (Nx : near (1 - u) 1 (fsin M x') (sin x')) by (apply near_error; [lra | apply A]).
  assert (Nb := near_sqr u M 1 _ _ Hu1 A Nx).
  assert (N1 : near (1 - u) 1 (fsin M i1) (sin i1)) by (apply near_error; [lra | apply A]).
  assert (N2 : near (1 - u) 1 (fsin M i2) (sin i2)) by (apply near_error; [lra | apply A]).
  assert (N3 : near (1 - u) 3 (fl M (fsin M i1 * fsin M i2)) (sin i1 * sin i2)).
  { apply near_fl; auto. apply (near_mul _ 1 1); [lra | exact N1 | exact N2]. }
  assert (N4 : near (1 - u) 7 (fl M (fl M (fsin M i1 * fsin M i2) * fsqr M (fsin M x')))
    (sin i1 * sin i2 * (sin x' * sin x'))).
  { apply near_fl; auto. apply (near_mul _ 3 3); [lra | exact N3 | exact Nb]. }
  set (a := fsqr M (fsin M (fl M (fl M (i2 - i1) / 2)))) in *.
  set (b := fl M (fl M (fsin M i1 * fsin M i2) * fsqr M (fsin M x'))) in *.
  assert (N5 : near (1 - u) 8 (fl M (a + b)) h).
  { apply near_fl; auto. unfold h. simpl pow. rewrite !Rmult_1_r.
    apply near_add; [lra | nra | apply Rmult_le_pos; [assumption | nra] | exact Na | exact N4]. }
  assert (Hab : 0 <= fl M (a + b)).
  { destruct N5 as [f [E [L U]]]. rewrite E. apply Rmult_le_pos; [assumption |].
    assert (P := wpow_pos (1 - u) 8 ltac:(lra)). lra. }
  assert (N6 : near (1 - u) 5 (fsqrt M (fl M (a + b))) (sqrt h)).
  { apply (near_trans _ 1 4 _ (sqrt (fl M (a + b)))); [lra | |].
    - apply near_error; [lra | apply A; exact Hab].
    - apply near_sqrt; [lra | assumption | exact N5]. }
  assert (SB : sqrt h <= 1).
  { destruct (Rle_dec (sqrt h) 1) as [K | K]; [exact K |]. exfalso.
    assert (E1 : asin (sqrt h) = PI / 2).
    { unfold asin. destruct Rle_dec; [lra |]. destruct Rle_dec; [reflexivity | lra]. }
    rewrite Eg, E1 in TT2. lra. }
  assert (Sq0 := sqrt_pos h).
  assert (SA : sin (asin (sqrt h)) = sqrt h) by (apply sin_asin; lra).
  assert (A0 : 0 <= asin (sqrt h)) by (apply asin_nonneg; lra).
  rewrite <- SA in N6.
  assert (W10 : 1 - 10 / 1000 <= (1 - u) ^ 10).
  { assert (B := bernoulli u 10 ltac:(lra)). simpl INR in B. lra. }
  assert (TB : asin (sqrt h) <= (1 - u) ^ (2 * 5) * (PI / 4)).
  { change (2 * 5)%nat with 10%nat. rewrite Eg in TT2.
    apply Rle_trans with ((1 - 10 / 1000) * (3 / 4)); [lra |].
    apply Rmult_le_compat; lra. }
  destruct (near_asin (1 - u) 5 _ _ ltac:(lra) A0 TB N6) as [N7 B7].
  rewrite Eg. apply (near_fl u M 11); auto. apply near_scale.
  apply (near_trans _ 1 10 _ (asin (fsqrt M (fl M (a + b))))); [lra | | exact N7].
  apply near_error; [lra |]. apply A. lra.
Qed.

(** the ratio factor hardly depends on the dogleg *)
Lemma tan_le : forall x, 0 <= x <= 71 / 100 -> tan x <= 4 / 3 * x.
Proof.
  intros x Hx. pose proof PI2_3_2.
  set (g := x / (PI / 4)).
  assert (G : 0 <= g <= 1).
  { unfold g. split.
    - apply Rmult_le_pos; [lra |]. apply Rlt_le, Rinv_0_lt_compat. lra.
    - apply Rmult_le_reg_r with (PI / 4); [lra |].
      replace (x / (PI / 4) * (PI / 4)) with x by (field; lra). lra. }
  assert (K := tan_chord g (PI / 4) G ltac:(lra)). rewrite tan_PI4 in K.
  replace (g * (PI / 4)) with x in K by (unfold g; field; lra).
  apply Rle_trans with (g * 1); [exact K |]. unfold g.
  apply Rmult_le_reg_r with (PI / 4); [lra |].
  replace (x / (PI / 4) * 1 * (PI / 4)) with x by (field; lra). nra.
Qed.

Lemma ratio_slope : forall a b, 0 < a -> a < b -> b <= 71 / 100 ->
  0 <= tan b / b - tan a / a <= 128 / 100 * (b - a).
Proof.
  intros a b Ha Hab Hb. pose proof PI2_3_2.
  destruct (MVT_cor2 (fun x => tan x / x) (fun x => (/ (cos x * cos x) * x - 1 * tan x) / Rsqr x) a b Hab)
    as [c [E B]].
  { intros c Hc. assert (0 < cos c) by (apply cos_gt_0; lra).
    apply (derivable_pt_lim_div tan id); [apply tan_slope; lra | apply derivable_pt_lim_id | unfold id; lra]. }
  rewrite E. assert (Cc : 0 < cos c) by (apply cos_gt_0; lra).
  assert (Sc : 0 < sin c) by (apply sin_gt_0; lra).
  assert (S1 : sin c <= c) by (apply sin_le_x; lra).
  assert (C1 := COS_bound c). assert (SC := sin2_cos2' c).
  assert (T4 := tan_le c ltac:(lra)). assert (T0 : 0 < tan c) by (apply tan_gt_0; lra).
  assert (T1 : c <= tan c).
  { (* chord from 0: the slope of tan is at least 1 *)
    destruct (MVT_cor2 tan (fun x => / (cos x * cos x)) 0 c ltac:(lra)) as [d [E2 B2]].
    { intros d Hd. apply tan_slope. assert (0 < cos d) by (apply cos_gt_0; lra). lra. }
    rewrite tan_0 in E2. assert (Cd : 0 < cos d) by (apply cos_gt_0; lra). assert (Cd1 := COS_bound d).
    assert (1 <= / (cos d * cos d)). { rewrite <- Rinv_1. apply Rinv_le_contravar; nra. }
    nra. }
  assert (Ts : tan c * cos c = sin c) by (unfold tan; field; lra).
  assert (D : (/ (cos c * cos c) * c - 1 * tan c) / Rsqr c = (c - sin c * cos c) / (c * c * (cos c * cos c))).
  { unfold Rsqr, tan. field. split; lra. }
  assert (Dlo : 0 <= (c - sin c * cos c) / (c * c * (cos c * cos c))).
  { apply Rmult_le_pos; [nra |]. apply Rlt_le, Rinv_0_lt_compat.
    apply Rmult_lt_0_compat; nra. }
  assert (Dhi : (c - sin c * cos c) / (c * c * (cos c * cos c)) <= 128 / 100).
  { assert (Pc : 0 < c * c * (cos c * cos c)) by (apply Rmult_lt_0_compat; nra).
    apply Rmult_le_reg_r with (c * c * (cos c * cos c)); [exact Pc |].
    replace ((c - sin c * cos c) / (c * c * (cos c * cos c)) * (c * c * (cos c * cos c)))
      with (c - sin c * cos c) by (field; lra).
    (* sin c >= c cos c, so the difference is at most c sin c ^ 2 = c (tan c cos c)^2 *)
    assert (SL : c * cos c <= sin c) by (rewrite <- Ts; nra).
    assert (E1 : c - sin c * cos c <= c * (sin c * sin c)) by nra.
    assert (E2 : sin c * sin c = tan c * tan c * (cos c * cos c)) by (rewrite <- Ts; ring).
    assert (E3 : tan c * tan c <= 16 / 9 * (c * c)).
    { replace (16 / 9 * (c * c)) with (4 / 3 * c * (4 / 3 * c)) by field. apply Rmult_le_compat; lra. }
    assert (E4 : c * (sin c * sin c) <= c * (16 / 9 * (c * c) * (cos c * cos c))).
    { apply Rmult_le_compat_l; [lra |]. rewrite E2. apply Rmult_le_compat_r; nra. }
    eapply Rle_trans; [exact E1 |]. eapply Rle_trans; [exact E4 |].
    replace (c * (16 / 9 * (c * c) * (cos c * cos c))) with (16 / 9 * c * (c * c * (cos c * cos c))) by ring.
    apply Rmult_le_compat_r; lra. }
  rewrite D. split; [apply Rmult_le_pos; lra |]. apply Rmult_le_compat_r; lra.
Qed.

Lemma ratio_at_zero : forall b, 0 < b <= 71 / 100 -> 0 <= tan b / b - 1 <= 128 / 100 * b.
Proof.
  intros b Hb. pose proof PI2_3_2.
  assert (Cb : 0 < cos b) by (apply cos_gt_0; lra).
  assert (S1 : sin b <= b) by (apply sin_le_x; lra).
  assert (H2 := sin_half_sqr b).
  assert (S2 : sin (b / 2) <= b / 2) by (apply sin_le_x; lra).
  assert (S3 : 0 <= sin (b / 2)) by (apply sin_ge_0; lra).
  assert (C2 : 1 - b * b / 2 <= cos b) by nra.
  assert (T1 : b <= tan b).
  { destruct (MVT_cor2 tan (fun x => / (cos x * cos x)) 0 b ltac:(lra)) as [d [E2 B2]].
    { intros d Hd. apply tan_slope. assert (0 < cos d) by (apply cos_gt_0; lra). lra. }
    rewrite tan_0 in E2. assert (Cd : 0 < cos d) by (apply cos_gt_0; lra). assert (Cd1 := COS_bound d).
    assert (1 <= / (cos d * cos d)). { rewrite <- Rinv_1. apply Rinv_le_contravar; nra. }
    nra. }
  split.
  - apply Rmult_le_reg_r with b; [lra |]. replace ((tan b / b - 1) * b) with (tan b - b) by (field; lra). lra.
  - apply Rmult_le_reg_r with (b * cos b); [nra |].
    replace ((tan b / b - 1) * (b * cos b)) with (sin b - b * cos b) by (unfold tan; field; lra).
    assert (Q : 1 - cos b <= b * b / 2) by lra.
    assert (Q2 : 74 / 100 <= cos b) by nra.
    assert (Q3 : b * (1 - cos b) <= b * (b * b / 2)) by (apply Rmult_le_compat_l; lra).
    assert (Q4 : b * (b * b / 2) <= 128 / 100 * b * (b * (74 / 100))) by nra.
    assert (Q5 : 128 / 100 * b * (b * (74 / 100)) <= 128 / 100 * b * (b * cos b)).
    { apply Rmult_le_compat_l; [lra |]. apply Rmult_le_compat_l; lra. }
    lra.
Qed.

Lemma rf_slope : forall d e, 0 <= d -> d <= e -> e <= 71 / 50 ->
  0 <= get_rf e - get_rf d <= 64 / 100 * (e - d).
Proof.
  intros d e Hd Hde He.
  destruct (Req_dec d e) as [E | N]; [subst; lra |].
  assert (V : forall t, t <> 0 -> get_rf t = tan (t / 2) / (t / 2)).
  { intros t Ht. unfold get_rf. destruct (Req_EM_T t 0); [contradiction |]. field. exact Ht. }
  rewrite (V e) by lra.
  destruct (Req_dec d 0) as [Z | NZ].
  - subst d. unfold get_rf. destruct (Req_EM_T 0 0) as [_ | K]; [| lra].
    assert (K := ratio_at_zero (e / 2) ltac:(lra)). lra.
  - rewrite (V d) by lra.
    assert (K := ratio_slope (d / 2) (e / 2) ltac:(lra) ltac:(lra) ltac:(lra)). lra.
Qed.

Lemma rf_ge1 : forall d, 0 <= d <= 71 / 50 -> 1 <= get_rf d.
Proof.
  intros d Hd. assert (K := rf_slope 0 d ltac:(lra) ltac:(lra) ltac:(lra)).
  assert (E : get_rf 0 = 1) by (unfold get_rf; destruct (Req_EM_T 0 0); [reflexivity | lra]). lra.
Qed.

Lemma near_small : forall u x' x, 0 <= u <= 1 / 1000 -> 1 <= x -> Rabs (x' - x) <= 9 * u ->
  near (1 - u) 10 x' x.
Proof.
  intros u x' x Hu Hx H.
  assert (P : (1 - u) ^ 10 * (1 + 10 * u) <= 1).
  { assert (B := poly 10 u). assert (Q : (1 - u) ^ 10 * (1 + u) ^ 10 <= 1).
    { rewrite <- Rpow_mult_distr. eapply Rle_trans; [apply (pow_incr _ 1); nra |]. rewrite pow1. lra. }
    assert (W := wpow_pos (1 - u) 10 ltac:(lra)).
    destruct (Req_dec u 0) as [Z | NZ].
    - subst. replace (1 - 0) with 1 by ring. rewrite pow1. lra.
    - assert (B2 := B ltac:(lra)). simpl INR in B2.
      apply Rle_trans with ((1 - u) ^ 10 * (1 + u) ^ 10); [| exact Q].
      apply Rmult_le_compat_l; lra. }
  assert (W := wpow_pos (1 - u) 10 ltac:(lra)).
  exists (x' / x). split; [field; lra |].
  assert (F : Rabs (x' / x - 1) <= 9 * u).
  { replace (x' / x - 1) with ((x' - x) * / x) by (field; lra).
    rewrite Rabs_mult, (Rabs_pos_eq (/ x)) by (apply Rlt_le, Rinv_0_lt_compat; lra).
    assert (I : / x <= 1) by (rewrite <- Rinv_1; apply Rinv_le_contravar; lra).
    assert (I0 : 0 < / x) by (apply Rinv_0_lt_compat; lra).
    replace (9 * u) with (9 * u * 1) by ring.
    apply Rmult_le_compat; auto using Rabs_pos; lra. }
  apply abs_inv in F. split.
  - apply Rle_trans with (1 - 9 * u); [| lra].
    apply Rmult_le_reg_r with (1 + 10 * u); [lra |]. eapply Rle_trans; [exact P |]. nra.
  - apply Rle_trans with ((1 + 10 * u) * (1 - u) ^ 10); [| lra].
    apply Rmult_le_compat_r; lra.
Qed.

Lemma pair_rf_near : forall u M a b, 0 <= u <= 1 / 1000 -> accurate u M -> mild_pair a b ->
  near (1 - u) 27 (r_rf M (r_dogleg M (st_inc a) (st_azi a) (st_inc b) (st_azi b)))
                  (get_rf (pair_dogleg a b)) /\
  0 <= pair_dogleg a b <= 7 / 5.
Proof.
  intros u M a b Hu A [Hmd [I1 [I2 [DI [DA T]]]]].
  assert (Ang := dogleg_angle (st_inc a) (st_azi a) (st_inc b) (st_azi b)).
  assert (TB := T _ Ang). fold (pair_dogleg a b) in *.
  assert (D0 : 0 <= pair_dogleg a b) by (destruct Ang; lra).
  split; [| lra].
  destruct (dogleg_back u M _ _ _ _ Hu A I1 I2 DI DA TB) as [c [Bc Nc]].
  assert (AE := azimuth_error (st_inc a) (st_azi a) (st_inc b) (st_azi b) c).
  fold (pair_dogleg a b) in AE.
  assert (Angc := dogleg_angle (st_inc a) (st_azi a) (st_inc b) c).
  set (d := get_dogleg (st_inc a) (st_azi a) (st_inc b) c) in *.
  assert (Dd : Rabs (d - pair_dogleg a b) <= 702 / 50 * u) by lra.
  assert (Dr : 0 <= d <= 71 / 50).
  { destruct Angc as [Q _]. apply abs_inv in Dd. lra. }
  assert (K12 : (12 <= 20)%nat) by lia.
  assert (Nr := rf_near u M 12 _ _ Hu A K12 Dr Nc). simpl plus in Nr.
  apply (near_trans _ 17 10 _ (get_rf d)); [lra | exact Nr |].
  assert (Dp : 0 <= pair_dogleg a b <= 71 / 50) by lra.
  apply near_small; [exact Hu | apply rf_ge1; exact Dp |].
  apply abs_inv in Dd.
  destruct (Rle_dec (pair_dogleg a b) d) as [L | L].
  - assert (K := rf_slope (pair_dogleg a b) d ltac:(lra) L ltac:(lra)).
    rewrite Rabs_pos_eq by lra. lra.
  - assert (K := rf_slope d (pair_dogleg a b) ltac:(lra) ltac:(lra) ltac:(lra)).
    apply Rabs_le. lra.
Qed.

Lemma delta_close : forall u M a b, 0 <= u <= 1 / 1000 -> accurate u M -> mild_pair a b ->
  close_v (1 - u) 35 (r_delta M a b) (pair_delta a b) (4 / 3 * (st_md b - st_md a)).
Proof.
  intros u M a b Hu A T. assert (Hu1 : 0 <= u < 1) by lra.
  destruct (pair_rf_near u M a b Hu A T) as [Nr D1].
  destruct T as [Hmd _].
  assert (D2 : 0 <= pair_dogleg a b <= 71 / 50) by lra.
  assert (Rp := rf_range (pair_dogleg a b) D2).
  assert (N1 : near (1 - u) 1 (fl M (st_md b - st_md a)) (st_md b - st_md a))
    by (apply near_error; [lra | apply A]).
  assert (Hd : 0 <= st_md b - st_md a) by lra.
  destruct (step_close u M _ _ (st_inc a) (st_azi a) (st_inc b) (st_azi b) _ _ Hu1 A
              Hd (proj1 Rp) N1 Nr) as [Kx [Ky Kz]].
  assert (Le : (st_md b - st_md a) * get_rf (pair_dogleg a b) <= 4 / 3 * (st_md b - st_md a)) by nra.
  unfold close_v, r_delta, pair_delta. simpl vx. simpl vy. simpl vz.
  assert (W : 0 < 1 - u <= 1) by lra.
  split; [| split].
  - exact (close_weaken _ 35 35 _ _ _ _ W (le_n _) Le Ky).
  - exact (close_weaken _ 35 35 _ _ _ _ W (le_n _) Le Kx).
  - exact (close_weaken _ 35 35 _ _ _ _ W (le_n _) Le Kz).
Qed.

Lemma vadd_close : forall u M n a' a b' b A B, 0 <= u < 1 -> accurate u M ->
  close_v (1 - u) n a' a A -> close_v (1 - u) n b' b B ->
  close_v (1 - u) (S n) (r_vadd M a' b') (vadd a b) (A + B).
Proof.
  intros u M n a' a b' b A B Hu HM [K1 [K2 K3]] [L1 [L2 L3]].
  unfold close_v, r_vadd, vadd. simpl vx. simpl vy. simpl vz.
  split; [| split]; apply close_fl; auto; apply close_add; auto.
Qed.

Lemma close_v_weaken : forall w n m p' p B C, 0 < w <= 1 -> (n <= m)%nat -> B <= C ->
  close_v w n p' p B -> close_v w m p' p C.
Proof.
  intros w n m p' p B C Hw H HB [K1 [K2 K3]].
  split; [| split]; eapply close_weaken; eauto.
Qed.

Lemma cumsum_close : forall u M rest a acc' acc B n, 0 <= u <= 1 / 1000 -> accurate u M ->
  (35 <= n)%nat -> close_v (1 - u) n acc' acc B -> mild_survey (a :: rest) ->
  forall k s, nth_error rest k = Some s ->
  exists p' p,
    nth_error (r_cumsum M acc' (pairwise (r_delta M) (a :: rest))) k = Some p' /\
    nth_error (vcumsum_from acc (pairwise pair_delta (a :: rest))) k = Some p /\
    close_v (1 - u) (n + S k) p' p (B + 4 / 3 * (st_md s - st_md a)).
Proof.
  intros u M rest. induction rest as [| b rest IH]; intros a acc' acc B n Hu A Hn Hc Hs k s Hk.
  - destruct k; discriminate.
  - destruct Hs as [Ht Hs].
    assert (D := delta_close u M a b Hu A Ht).
    assert (W : 0 < 1 - u <= 1) by lra. assert (Hu1 : 0 <= u < 1) by lra.
    assert (V := vadd_close u M n _ _ _ _ _ _ Hu1 A Hc
                   (close_v_weaken _ 35 n _ _ _ _ W Hn (Rle_refl _) D)).
    destruct k as [| k].
    + simpl in Hk. injection Hk as <-.
      exists (r_vadd M acc' (r_delta M a b)), (vadd acc (pair_delta a b)).
      split; [reflexivity |]. split; [reflexivity |].
      replace (n + 1)%nat with (S n) by lia. exact V.
    + simpl in Hk.
      destruct (IH b (r_vadd M acc' (r_delta M a b)) (vadd acc (pair_delta a b)) _ (S n) Hu A
                  ltac:(lia) V Hs k s Hk) as [p' [p [E1 [E2 E3]]]].
      exists p', p. split; [exact E1 |]. split; [exact E2 |].
      replace (n + S (S k))%nat with (S n + S k)%nat by lia.
      replace (B + 4 / 3 * (st_md s - st_md a))
        with (B + 4 / 3 * (st_md b - st_md a) + 4 / 3 * (st_md s - st_md b)) by ring.
      exact E3.
Qed.

Lemma largest_spec : forall p, Rabs (vx p) <= largest p /\ Rabs (vy p) <= largest p /\ Rabs (vz p) <= largest p.
Proof.
  intro p. unfold largest.
  assert (A := Rmax_l (Rabs (vx p)) (Rmax (Rabs (vy p)) (Rabs (vz p)))).
  assert (B := Rmax_r (Rabs (vx p)) (Rmax (Rabs (vy p)) (Rabs (vz p)))).
  assert (C := Rmax_l (Rabs (vy p)) (Rabs (vz p))).
  assert (D := Rmax_r (Rabs (vy p)) (Rabs (vz p))). lra.
Qed.

Lemma close_same : forall w x B, 0 < w <= 1 -> Rabs x <= B -> close w 0 x x B.
Proof. intros w x B Hw H. apply close_near; [exact Hw | exact H | apply near_refl]. Qed.

Lemma close_v_within : forall u n p' p B, 0 <= u < 1 -> INR n * u < 1 ->
  close_v (1 - u) n p' p B -> within (gamma u n * B) p' p.
Proof.
  intros u n p' p B Hu Hn [K1 [K2 K3]].
  assert (G := gamma_bound u n ltac:(lra) Hn).
  assert (B0 := close_B _ _ _ _ _ K1).
  assert (L : (/ (1 - u) ^ n - 1) * B <= gamma u n * B) by (apply Rmult_le_compat_r; lra).
  destruct K1 as [_ K1]. destruct K2 as [_ K2]. destruct K3 as [_ K3].
  unfold within. repeat split; lra.
Qed.

(** * Rounded positions *)
Lemma positions_rounded : forall u M svy start unit mc first k s,
  0 <= u <= 1 / 1000 -> accurate u M -> mild_survey svy -> INR (36 + k) * u < 1 ->
  MinCurve svy start unit = Some mc ->
  nth_error svy 0 = Some first -> nth_error svy k = Some s ->
  exists p' p,
    nth_error (r_poss M svy start) k = Some p' /\
    nth_error (mc_poss mc) k = Some p /\
    within (gamma u (36 + k) * (4 / 3 * (st_md s - st_md first) + largest start)) p' p.
Proof.
  intros u M svy start unit mc first k s Hu A Hs Hk Hm H0 Hks.
  assert (Hu1 : 0 <= u < 1) by lra. assert (W : 0 < 1 - u <= 1) by lra.
  unfold MinCurve in Hm. destruct (unit_coeff unit) as [c |]; [| discriminate].
  destruct (length svy <=? 1)%nat; [discriminate |]. injection Hm as <-. simpl mc_poss.
  destruct svy as [| a rest]; [destruct k; discriminate |].
  simpl in H0. injection H0 as <-.
  assert (LS := largest_spec start).
  assert (St : close_v (1 - u) 0 start start (largest start)).
  { split; [| split]; apply close_same; tauto. }
  assert (Z : close_v (1 - u) 0 vzero vzero 0).
  { split; [| split]; apply close_same; auto; simpl; rewrite Rabs_R0; lra. }
  unfold r_poss, vcumsum. destruct k as [| k].
  - simpl in Hks. injection Hks as <-.
    exists (r_vadd M vzero start), (vadd (vadd vzero vzero) start).
    split; [reflexivity |]. split; [reflexivity |].
    replace (vadd vzero vzero) with vzero by (unfold vadd, vzero; simpl; f_equal; lra).
    replace (4 / 3 * (st_md a - st_md a) + largest start) with (0 + largest start) by ring.
    apply close_v_within; [exact Hu1 | exact Hk |].
    apply (close_v_weaken _ 1 _ _ _ (0 + largest start)); [exact W | lia | lra |].
    apply vadd_close; assumption.
  - simpl in Hks.
    assert (Z0 : vadd vzero vzero = vzero) by (unfold vadd, vzero; simpl; f_equal; lra).
    destruct (cumsum_close u M rest a vzero vzero 0 35 Hu A ltac:(lia)
                (close_v_weaken _ 0 35 _ _ 0 0 W ltac:(lia) ltac:(lra) Z) Hs k s Hks)
      as [p' [p [E1 [E2 E3]]]].
    exists (r_vadd M p' start), (vadd p start).
    split; [| split].
    + apply (map_nth_error (fun p => r_vadd M p start)). exact E1.
    + apply (map_nth_error (fun p => vadd p start)). simpl vcumsum_from. rewrite Z0. exact E2.
    + apply close_v_within; [exact Hu1 | exact Hk |].
      replace (36 + S k)%nat with (S (35 + S k)) by lia.
      apply vadd_close; [exact Hu1 | exact A | |].
      * eapply close_v_weaken; [exact W | apply le_n | | exact E3]. lra.
      * eapply close_v_weaken; [exact W | | | exact St]; [lia | lra].
Qed.
