(** Binary floating point as an accurate machine; where relative accuracy ends (C158, C159). *)
Require Import Reals ZArith String List Lra Lia.
From Flocq Require Import Core Relative.
Require Import Verif.Base Verif.NumPy Verif.Spec Verif.M_Utils Verif.P_Trig Verif.P_Utils.
Require Import Verif.M_Round Verif.Spec_Round Verif.Spec_Binary Verif.P_Round Verif.P_Round2.
Import ListNotations.
Open Scope R_scope.

(** * binary64 *)
Lemma bpow53 : bpow radix2 (-53) = roundoff.
Proof. unfold roundoff. simpl. f_equal. Qed.

Lemma nearest_error : forall x, relative_error roundoff (nearest x) x.
Proof.
  intro x. unfold relative_error, nearest.
  assert (K := relative_error_N_FLX radix2 53 eq_refl (fun z => negb (Z.even z)) x).
  assert (E : / 2 * bpow radix2 (- (53) + 1) = roundoff) by (unfold roundoff; simpl; lra).
  rewrite E in K. exact K.
Qed.

Lemma binary64_accurate : accurate roundoff binary64.
Proof.
  repeat split; intros; simpl; apply nearest_error.
Qed.

Lemma roundoff_small : 0 <= roundoff <= 1 / 1000.
Proof. unfold roundoff. lra. Qed.

Lemma one_format : generic_format radix2 (FLX_exp 53) 1.
Proof. change 1 with (bpow radix2 0). apply generic_format_bpow. unfold FLX_exp. simpl. lia. Qed.

Lemma nearest_1 : nearest 1 = 1.
Proof. apply round_generic; [apply valid_rnd_N | apply one_format]. Qed.

Lemma nearest_0 : nearest 0 = 0.
Proof. apply round_0. apply valid_rnd_N. Qed.

Lemma nearest_near_1 : forall x, 1 - roundoff / 2 < x <= 1 -> nearest x = 1.
Proof.
  intros x Hx. apply Rle_antisym.
  - rewrite <- nearest_1. apply round_le; [apply FLX_exp_valid; reflexivity | apply valid_rnd_N | lra].
  - apply round_N_ge_midp; [apply FLX_exp_valid; reflexivity | apply one_format |].
    change 1 with (bpow radix2 0) at 2. rewrite pred_bpow. change (FLX_exp 53 0) with (-53)%Z.
    rewrite bpow53. change (bpow radix2 0) with 1. lra.
Qed.

Lemma cos_near_1 : forall t, 0 <= t <= 1 / 100000000 -> 1 - roundoff / 2 < cos t <= 1.
Proof.
  intros t Ht. split; [| apply COS_bound].
  assert (H := sin_half_sqr t).
  assert (S2 : sin (t / 2) <= t / 2) by (apply sin_le_x; lra).
  pose proof PI2_3_2.
  assert (S3 : 0 <= sin (t / 2)) by (apply sin_ge_0; lra).
  assert (sin (t / 2) * sin (t / 2) <= t / 2 * (t / 2)) by (apply Rmult_le_compat; lra).
  assert (t / 2 * (t / 2) <= 1 / 200000000 * (1 / 200000000)) by (apply Rmult_le_compat; lra).
  unfold roundoff. lra.
Qed.

(** * Relative accuracy of the turn *)
Lemma dogleg_relative : forall u M inc1 azi1 inc2 azi2 A, 0 <= u <= 1 / 1000 -> accurate u M ->
  angle_between (direction_nev inc1 azi1) (direction_nev inc2 azi2) A ->
  mild_turn A inc1 azi1 inc2 azi2 ->
  relative_error (gamma u 16) (r_dogleg M inc1 azi1 inc2 azi2) A.
Proof.
  intros u M i1 a1 i2 a2 A Hu HM HA T.
  assert (E : A = get_dogleg i1 a1 i2 a2)
    by (apply (angle_between_unique (direction_nev i1 a1) (direction_nev i2 a2)); [exact HA | apply dogleg_angle]).
  subst A. apply near_gamma; [lra | simpl INR; lra |]. apply dogleg_near; assumption.
Qed.

Lemma dogleg_zero : forall u M inc1 azi1 inc2 azi2 A, 0 <= u <= 1 / 1000 -> accurate u M ->
  angle_between (direction_nev inc1 azi1) (direction_nev inc2 azi2) A ->
  mild_turn A inc1 azi1 inc2 azi2 ->
  (r_dogleg M inc1 azi1 inc2 azi2 = 0 <-> A = 0) /\ 0 <= r_dogleg M inc1 azi1 inc2 azi2.
Proof.
  intros u M i1 a1 i2 a2 A Hu HM HA T.
  assert (E : A = get_dogleg i1 a1 i2 a2)
    by (apply (angle_between_unique (direction_nev i1 a1) (direction_nev i2 a2)); [exact HA | apply dogleg_angle]).
  subst A. destruct (dogleg_near u M i1 a1 i2 a2 Hu HM T) as [f [E [L U]]].
  assert (P := wpow_pos (1 - u) 16 ltac:(lra)). destruct HA as [HA _].
  rewrite E. split; [split; intro K |].
  - apply Rmult_integral in K. destruct K; [assumption | lra].
  - rewrite K. ring.
  - apply Rmult_le_pos; lra.
Qed.

(** any azimuths: an absolute error *)
Lemma dogleg_absolute : forall u M inc1 azi1 inc2 azi2 A, 0 <= u <= 1 / 1000 -> accurate u M ->
  angle_between (direction_nev inc1 azi1) (direction_nev inc2 azi2) A ->
  0 <= inc1 <= PI -> 0 <= inc2 <= PI -> Rabs (inc2 - inc1) <= 29 / 10 -> Rabs (azi2 - azi1) <= 7 -> A <= 7 / 5 ->
  Rabs (r_dogleg M inc1 azi1 inc2 azi2 - A) <= gamma u 12 * A + 15 * u.
Proof.
  intros u M i1 a1 i2 a2 A Hu HM HA I1 I2 DI DA TA.
  assert (E : A = get_dogleg i1 a1 i2 a2)
    by (apply (angle_between_unique (direction_nev i1 a1) (direction_nev i2 a2)); [exact HA | apply dogleg_angle]).
  rewrite E in TA. destruct (dogleg_back u M i1 a1 i2 a2 Hu HM I1 I2 DI DA TA) as [b [Bb Nb]].
  assert (H12 : INR 12 * u < 1) by (simpl INR; lra).
  assert (Hu1 : 0 <= u < 1) by lra.
  assert (R := near_gamma u 12 _ _ Hu1 H12 Nb). unfold relative_error in R.
  assert (AE := azimuth_error i1 a1 i2 a2 b). rewrite <- E in AE.
  set (d := get_dogleg i1 a1 i2 b) in *.
  assert (D0 : 0 <= d) by (apply (proj1 (dogleg_angle i1 a1 i2 b))).
  rewrite (Rabs_pos_eq d D0) in R.
  assert (G0 : 0 <= gamma u 12 <= 13 / 1000).
  { unfold gamma. simpl INR in *. split.
    - apply Rmult_le_pos; [lra |]. apply Rlt_le, Rinv_0_lt_compat. lra.
    - apply Rmult_le_reg_r with (1 - (1 + 1 + 1 + 1 + 1 + 1 + 1 + 1 + 1 + 1 + 1 + 1) * u); [lra |].
      unfold Rdiv at 1. rewrite Rmult_assoc, Rinv_l by lra. lra. }
  assert (AE2 : Rabs (d - A) <= 702 / 50 * u) by lra.
  apply abs_inv in AE2. apply abs_inv in R.
  assert (gamma u 12 * d <= gamma u 12 * A + 13 / 1000 * (702 / 50 * u)).
  { replace (gamma u 12 * d) with (gamma u 12 * A + gamma u 12 * (d - A)) by ring.
    assert (gamma u 12 * (d - A) <= gamma u 12 * (702 / 50 * u)) by (apply Rmult_le_compat_l; lra).
    assert (gamma u 12 * (702 / 50 * u) <= 13 / 1000 * (702 / 50 * u)) by (apply Rmult_le_compat_r; lra).
    lra. }
  apply Rabs_le. split; lra.
Qed.

(** across north a rounding of the difference of the azimuths can lose a small
    turn altogether *)
Definition north_machine (e : R) : machine :=
  mkMachine (fun x => if Req_EM_T x (2 * PI - e) then 2 * PI else x) sin cos tan asin acos sqrt.

Lemma exact_error : forall u x, 0 <= u -> relative_error u x x.
Proof.
  intros u x Hu. unfold relative_error. rewrite Rminus_diag_eq by reflexivity. rewrite Rabs_R0.
  apply Rmult_le_pos; [exact Hu | apply Rabs_pos].
Qed.

Lemma north_accurate : forall u e, 0 < u <= 1 / 1000 -> 0 < e <= u -> accurate u (north_machine e).
Proof.
  intros u e Hu He. pose proof PI2_3_2. unfold accurate, north_machine; simpl.
  repeat split; intros; try (apply exact_error; lra).
  destruct (Req_EM_T x (2 * PI - e)) as [E | N]; [| apply exact_error; lra].
  unfold relative_error. subst x. replace (2 * PI - (2 * PI - e)) with e by ring.
  rewrite !Rabs_pos_eq by lra. nra.
Qed.

Lemma north_refuted : forall u, 0 < u <= 1 / 1000 -> exists M azi2 A, accurate u M /\
  0 <= azi2 < 2 * PI /\ angle_between (direction_nev (PI / 2) 0) (direction_nev (PI / 2) azi2) A /\
  0 < A <= u /\ r_dogleg M (PI / 2) 0 (PI / 2) azi2 = 0.
Proof.
  intros u Hu. pose proof PI2_3_2.
  exists (north_machine u), (2 * PI - u), u.
  split; [apply north_accurate; lra |]. split; [lra |]. split.
  { split; [lra |]. unfold dot, direction_nev. simpl. rewrite sin_PI2, cos_PI2, cos_0, sin_0.
    replace (2 * PI - u) with (- u + 2 * 1 * PI) by ring.
    assert (C := cos_period (- u) 1). simpl INR in C. rewrite C, cos_neg. ring. }
  split; [lra |].
  assert (Z : fl (north_machine u) (2 * PI - u - 0) = 2 * PI).
  { simpl. destruct (Req_EM_T (2 * PI - u - 0) (2 * PI - u)) as [_ | N]; [reflexivity | exfalso; apply N; ring]. }
  assert (Id : forall x, x <> 2 * PI - u -> fl (north_machine u) x = x).
  { intros x Hx. simpl. destruct (Req_EM_T x (2 * PI - u)); [contradiction | reflexivity]. }
  unfold r_dogleg, fsqr. rewrite Z.
  replace (PI / 2 - PI / 2) with 0 by ring.
  rewrite (Id 0) by lra. replace (0 / 2) with 0 by field. rewrite (Id 0) by lra.
  replace (2 * PI / 2) with PI by field. rewrite (Id PI) by lra.
  change (fsin (north_machine u)) with sin. rewrite sin_0, sin_PI, sin_PI2.
  rewrite !Rmult_0_l, !(Id 0) by lra. rewrite Rmult_0_r, (Id 0) by lra.
  rewrite Rplus_0_r, (Id 0) by lra. change (fsqrt (north_machine u)) with sqrt. rewrite sqrt_0.
  change (fasin (north_machine u)) with asin. rewrite asin_0, Rmult_0_r. apply Id. lra.
Qed.

(** the angle by np.arccos of a dot product loses every small angle *)
Lemma arccos_loses : forall t, 0 < t <= 1 / 100000000 ->
  angle_between (direction_nev 0 0) (direction_nev t 0) t /\
  r_angle_arccos binary64 (mkV 0 0 1) (mkV (nearest (sin t)) 0 (nearest (cos t))) = 0 /\
  relative_error (gamma roundoff 16) (r_dogleg binary64 0 0 t 0) t /\
  r_dogleg binary64 0 0 t 0 <> 0.
Proof.
  intros t Ht. pose proof PI2_3_2.
  assert (HA : angle_between (direction_nev 0 0) (direction_nev t 0) t).
  { split; [lra |]. unfold dot, direction_nev. simpl. rewrite sin_0, cos_0. ring. }
  assert (MT : mild_turn t 0 0 t 0).
  { unfold mild_turn. replace (t - 0) with t by ring. replace (0 - 0) with 0 by ring.
    rewrite Rabs_R0, Rabs_pos_eq by lra. repeat split; lra. }
  split; [exact HA |]. split; [| split].
  - rewrite (nearest_near_1 (cos t)) by (apply cos_near_1; lra).
    unfold r_angle_arccos, r_dot. simpl. rewrite !Rmult_0_l, Rmult_0_r || rewrite !Rmult_0_l.
    rewrite ?Rmult_1_l, !nearest_0, ?Rplus_0_l, ?nearest_0, ?Rplus_0_l, !nearest_1.
    rewrite Rmax_right by lra. rewrite Rmin_left by lra. rewrite acos_1. apply nearest_0.
  - apply dogleg_relative; [apply roundoff_small | apply binary64_accurate | exact HA | exact MT].
  - intro K. destruct (dogleg_zero roundoff binary64 0 0 t 0 t roundoff_small binary64_accurate HA MT) as [Q _].
    apply Q in K. lra.
Qed.

(** * The ratio factor *)
Lemma rf_relative : forall u M a b, 0 <= u <= 1 / 1000 -> accurate u M -> mild_pair a b ->
  relative_error (gamma u 27)
    (r_rf M (r_dogleg M (st_inc a) (st_azi a) (st_inc b) (st_azi b))) (get_rf (pair_dogleg a b)).
Proof.
  intros u M a b Hu HM T. destruct (pair_rf_near u M a b Hu HM T) as [N _].
  apply near_gamma; [lra | simpl INR; lra | exact N].
Qed.

(** * A well of ten kilometres and a thousand stations *)
Lemma positions_length : forall M svy start, length (r_poss M svy start) = Nat.max 1 (length svy).
Proof.
  intros M svy start. unfold r_poss. rewrite map_length. simpl.
  assert (C : forall l acc, length (r_cumsum M acc l) = length l).
  { induction l as [| d t IH]; intro acc; [reflexivity | simpl; rewrite IH; reflexivity]. }
  rewrite C. destruct svy as [| a t]; [reflexivity |].
  assert (P : forall (t : list station) a, length (pairwise (r_delta M) (a :: t)) = length t).
  { induction t0 as [| b t0 IH]; intro a0; [reflexivity |]. simpl length. f_equal. apply IH. }
  rewrite P. simpl. reflexivity.
Qed.

Lemma binary64_positions : forall svy start unit mc first k s,
  mild_survey svy -> (k <= 1000)%nat -> MinCurve svy start unit = Some mc ->
  nth_error svy 0 = Some first -> nth_error svy k = Some s ->
  st_md s - st_md first <= 10000 -> largest start <= 10000000 ->
  exists p' p,
    nth_error (r_poss binary64 svy start) k = Some p' /\
    nth_error (mc_poss mc) k = Some p /\
    within (2 / 1000000) p' p.
Proof.
  intros svy start unit mc first k s Hs Hk Hm H0 Hks HL HS.
  assert (K36 : INR (36 + k) <= 1036).
  { replace 1036 with (INR 1036) by (simpl; lra). apply le_INR. lia. }
  assert (Kp := pos_INR (36 + k)).
  assert (Ku : INR (36 + k) * roundoff <= 1036 * roundoff)
    by (apply Rmult_le_compat_r; [unfold roundoff; lra | exact K36]).
  assert (Ku0 : 0 <= INR (36 + k) * roundoff)
    by (apply Rmult_le_pos; [exact Kp | unfold roundoff; lra]).
  assert (K1 : INR (36 + k) * roundoff < 1) by (unfold roundoff in *; lra).
  destruct (positions_rounded roundoff binary64 svy start unit mc first k s roundoff_small
              binary64_accurate Hs K1 Hm H0 Hks) as [p' [p [E1 [E2 E3]]]].
  exists p', p. split; [exact E1 |]. split; [exact E2 |].
  assert (G : 0 <= gamma roundoff (36 + k) <= 116 / 1000 / 1000000000000).
  { unfold gamma. set (x := INR (36 + k) * roundoff) in *. split.
    - apply Rmult_le_pos; [lra |]. apply Rlt_le, Rinv_0_lt_compat. lra.
    - apply Rmult_le_reg_r with (1 - x); [lra |].
      replace (x / (1 - x) * (1 - x)) with x by (field; lra). unfold roundoff in *. lra. }
  assert (LS : 0 <= largest start).
  { unfold largest. eapply Rle_trans; [apply (Rabs_pos (vx start)) | apply Rmax_l]. }
  assert (B : gamma roundoff (36 + k) * (4 / 3 * (st_md s - st_md first) + largest start) <= 2 / 1000000).
  { apply Rle_trans with (gamma roundoff (36 + k) * (4 / 3 * 10000 + 10000000)).
    - apply Rmult_le_compat_l; lra.
    - apply Rle_trans with (116 / 1000 / 1000000000000 * (4 / 3 * 10000 + 10000000)); [apply Rmult_le_compat_r; lra | lra]. }
  destruct E3 as [X [Y Z]]. unfold within. repeat split; lra.
Qed.

(** a survey that meets the hypotheses: a build and a turn across north *)
Definition turn_survey : list station := [mkSt 0 0 0; mkSt 100 (1 / 2) 6; mkSt 200 (1 / 2) (1 / 10)].

Lemma turn_mild : mild_survey turn_survey.
Proof.
  pose proof PI2_3_2. pose proof PI_4.
  assert (C12 : 7 / 8 <= cos (1 / 2)).
  { assert (H1 := sin_half_sqr (1 / 2)).
    assert (S2 : sin (1 / 2 / 2) <= 1 / 2 / 2) by (apply sin_le_x; lra).
    assert (S3 : 0 <= sin (1 / 2 / 2)) by (apply sin_ge_0; lra). nra. }
  assert (S12 : 0 <= sin (1 / 2) <= 1 / 2) by (split; [apply sin_ge_0; lra | apply sin_le_x; lra]).
  assert (Cap : forall A c, 0 <= A <= PI -> cos A = c -> 1 / 2 <= c -> A <= 7 / 5).
  { intros A c HA E Hc. destruct (Rle_dec A (7 / 5)) as [L | L]; [exact L |]. exfalso.
    assert (cos A < cos (PI / 3)) by (apply cos_decreasing_1; lra).
    rewrite cos_PI3 in H1. lra. }
  unfold turn_survey, mild_survey, mild_pair. simpl. repeat split; try lra.
  1-2, 4-5: unfold Rabs; destruct Rcase_abs; lra.
  - intros A [HA E]. apply (Cap A _ HA E). unfold dot, direction_nev. simpl. rewrite sin_0, cos_0. lra.
  - intros A [HA E]. apply (Cap A _ HA E). unfold dot, direction_nev. simpl.
    assert (B1 := COS_bound 6). assert (B2 := COS_bound (1 / 10)).
    assert (D : sin (1 / 2) * cos 6 * (sin (1 / 2) * cos (1 / 10)) + sin (1 / 2) * sin 6 * (sin (1 / 2) * sin (1 / 10))
                = sin (1 / 2) * sin (1 / 2) * cos (6 - 1 / 10)) by (rewrite cos_minus; ring).
    rewrite D. assert (B := COS_bound (6 - 1 / 10)). nra.
Qed.

(** the cosine of the angle that arccos gives is accurate, whatever becomes of the angle *)
Lemma abs_products : forall a b, is_unit a -> is_unit b -> Rabs (vx a * vx b) + Rabs (vy a * vy b) + Rabs (vz a * vz b) <= 1.
Proof.
  intros [a1 a2 a3] [b1 b2 b3] Ha Hb. unfold is_unit, dot in *. cbn [vx vy vz] in *.
  assert (P : forall x y, Rabs (x * y) <= (x * x + y * y) / 2).
  { intros x y. unfold Rabs. destruct (Rcase_abs (x * y)); pose proof (Rle_0_sqr (x + y)); pose proof (Rle_0_sqr (x - y)); unfold Rsqr in *; lra. }
  pose proof (P a1 b1). pose proof (P a2 b2). pose proof (P a3 b3). lra.
Qed.
Lemma fl_abs : forall (f : R -> R) u p q t s, 0 <= u -> (forall x, relative_error u (f x) x) -> Rabs (p - q) <= t -> Rabs q <= s ->
  Rabs (f p - q) <= t + u * (s + t).
Proof.
  intros f u p q t s Hu Hf Ht Hs. pose proof (Hf p) as H. unfold relative_error in H.
  assert (Rabs p <= s + t). { replace p with (q + (p - q)) by ring. eapply Rle_trans; [apply Rabs_triang|]. lra. }
  replace (f p - q) with ((f p - p) + (p - q)) by ring. eapply Rle_trans; [apply Rabs_triang|].
  assert (u * Rabs p <= u * (s + t)) by (apply Rmult_le_compat_l; assumption). lra.
Qed.
Lemma dot_close : forall u M a b, 0 <= u <= 1 / 1000 -> (forall x, relative_error u (fl M x) x) -> is_unit a -> is_unit b ->
  Rabs (r_dot M a b - dot a b) <= 4 * u.
Proof.
  intros u M a b Hu Hf Ha Hb. pose proof (abs_products a b Ha Hb) as P. unfold r_dot, dot.
  set (p := vx a * vx b) in *. set (q := vy a * vy b) in *. set (r := vz a * vz b) in *.
  assert (F : forall x, Rabs (fl M x - x) <= u * Rabs x) by (intros x; apply (Hf x)).
  set (sp := Rabs p) in *. set (sq := Rabs q) in *. set (sr := Rabs r) in *.
  assert (0 <= sp /\ 0 <= sq /\ 0 <= sr) as (Np & Nq & Nr) by (repeat split; apply Rabs_pos).
  assert (H12 : Rabs (fl M (fl M p + fl M q) - (p + q)) <= u * (sp + sq) + u * ((sp + sq) + u * (sp + sq))).
  { apply fl_abs; [lra|exact Hf| |apply Rabs_triang].
    replace (fl M p + fl M q - (p + q)) with ((fl M p - p) + (fl M q - q)) by ring. eapply Rle_trans; [apply Rabs_triang|].
    assert (Rabs (fl M p - p) <= u * sp) by apply F. assert (Rabs (fl M q - q) <= u * sq) by apply F. lra. }
  set (e := u * (sp + sq) + u * (sp + sq + u * (sp + sq))) in *.
  assert (H3 : Rabs (fl M (fl M (fl M p + fl M q) + fl M r) - (p + q + r)) <= (e + u * sr) + u * ((sp + sq + sr) + (e + u * sr))).
  { apply fl_abs; [lra|exact Hf| |].
    - replace (fl M (fl M p + fl M q) + fl M r - (p + q + r)) with ((fl M (fl M p + fl M q) - (p + q)) + (fl M r - r)) by ring.
      eapply Rle_trans; [apply Rabs_triang|]. assert (Rabs (fl M r - r) <= u * sr) by apply F. lra.
    - eapply Rle_trans; [apply Rabs_triang|]. assert (Rabs (p + q) <= sp + sq) by apply Rabs_triang. assert (Rabs r <= sr) by (unfold sr; lra). lra. }
  eapply Rle_trans; [exact H3|]. assert (E : e <= (2 * u + u * u) * (sp + sq)) by (unfold e; right; ring).
  assert (T : e + u * sr <= (2 * u + u * u)).
  { assert (u * sr <= (2 * u + u * u) * sr) by (apply Rmult_le_compat_r; [exact Nr|]; nra).
    assert ((2 * u + u * u) * (sp + sq + sr) <= (2 * u + u * u) * 1) by (apply Rmult_le_compat_l; [nra|lra]). lra. }
  assert (u * (sp + sq + sr + (e + u * sr)) <= u * (1 + (2 * u + u * u))) by (apply Rmult_le_compat_l; lra).
  assert (u * u <= u * (1 / 1000)) by (apply Rmult_le_compat_l; lra).
  assert (u * (u * u) <= u * (1 / 1000)) by (apply Rmult_le_compat_l; nra). lra.
Qed.
Lemma arccos_cosine : forall u M a b A, 0 <= u <= 1 / 1000 -> (forall x, relative_error u (fl M x) x) -> (forall x, -1 <= x <= 1 -> facos M x = acos x) ->
  is_unit a -> is_unit b -> angle_between a b A ->
  0 <= r_angle_arccos M a b <= PI /\ Rabs (cos (r_angle_arccos M a b) - cos A) <= 4 * u.
Proof.
  intros u M a b A Hu Hf Hc Ua Ub (HA & HD). pose proof (dot_close u M a b Hu Hf Ua Ub) as D. unfold r_angle_arccos.
  pose proof (COS_bound A) as CA. rewrite HD in CA. rewrite HD.
  set (x := r_dot M a b) in *. set (d := dot a b) in *. set (y := Rmin 1 (Rmax (-1) x)).
  assert (Y : -1 <= y <= 1 /\ Rabs (y - d) <= Rabs (x - d)).
  { unfold y. unfold Rmin, Rmax. destruct (Rle_dec (-1) x); destruct (Rle_dec 1 _); split; try lra; unfold Rabs; repeat destruct Rcase_abs; lra. }
  destruct Y as (Y1 & Y2). rewrite (Hc y Y1). split; [apply acos_bound|]. rewrite cos_acos by exact Y1. lra.
Qed.
