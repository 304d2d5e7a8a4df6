(** Semi-axes and symmetry of the rings. *)
Require Import Reals ZArith Bool String List Permutation Lra Lia Psatz.
Require Import Verif.Base Verif.NumPy Verif.Spec Verif.P_Trig Verif.M_Utils Verif.M_Mesh Verif.Spec_Mesh Verif.P_Mesh Verif.P_Mesh2.
Import ListNotations.
Open Scope R_scope.

Lemma across_radius : forall inc azi nev x y, dist (across inc azi nev x y) nev = sqrt (x ^ 2 + y ^ 2).
Proof. intros. rewrite <- (across_0 inc azi nev) at 2. rewrite across_dist, !Rminus_0_r. reflexivity. Qed.
Lemma semi_axes_spec : forall m k s_major s_minor radius Sm sigma_pa e0 e1 inc azi nev,
  (0 < m)%nat -> e0 ^ 2 + e1 ^ 2 = 1 -> 0 <= k -> 0 <= s_major -> 0 <= s_minor -> 0 <= radius -> 0 <= Sm -> 0 <= sigma_pa ->
  let ring := ellipse_ring (4 * m) (semi_axis k s_major radius Sm sigma_pa) (semi_axis k s_minor radius Sm sigma_pa) e0 e1 inc azi nev in
  exists p q, nth_error ring 0 = Some p /\ nth_error ring m = Some q /\
    dist p nev - sigma_pa / 2 - radius - Sm = k * s_major /\
    dist q nev - sigma_pa / 2 - radius - Sm = k * s_minor /\
    p = across inc azi nev (dist p nev * e0) (dist p nev * e1) /\
    q = across inc azi nev (- dist q nev * e1) (dist q nev * e0).
Proof.
  intros m k sM sm radius Sm spa e0 e1 inc azi nev Hm U Hk HM Hs Hr HS Hp ring.
  assert (CS : cos (arctan2 e1 e0) = e0 /\ sin (arctan2 e1 e0) = e1).
  { destruct (arctan2_cos_sin e1 e0) as [A B].
    replace (e0 * e0 + e1 * e1) with 1 in * by (rewrite <- U; ring). rewrite sqrt_1 in *. lra. }
  assert (P1 : 0 <= semi_axis k sM radius Sm spa) by (unfold semi_axis; nra).
  assert (P2 : 0 <= semi_axis k sm radius Sm spa) by (unfold semi_axis; nra).
  assert (S1 : semi_axis k sM radius Sm spa - spa / 2 - radius - Sm = k * sM) by (unfold semi_axis; ring).
  assert (S2 : semi_axis k sm radius Sm spa - spa / 2 - radius - Sm = k * sm) by (unfold semi_axis; ring).
  unfold ring, ellipse_ring. rewrite !nth_error_map, !linspace_nth by lia.
  set (h := semi_axis k sM radius Sm spa) in *. set (l := semi_axis k sm radius Sm spa) in *. clearbody h l.
  assert (Mp : 0 < INR m) by (apply lt_0_INR; auto).
  replace (0 + INR 0 * ((2 * PI - 0) / INR (4 * m))) with 0 by (simpl; ring).
  replace (0 + INR m * ((2 * PI - 0) / INR (4 * m))) with (PI / 2).
  2: { rewrite mult_INR. change (INR 4) with (1 + 1 + 1 + 1). field. lra. }
  cbn [option_map]. unfold ellipse_point. cbv beta zeta. destruct CS as [-> ->]. rewrite cos_0, sin_0, cos_PI2, sin_PI2.
  eexists; eexists. split; [reflexivity|]. split; [reflexivity|].
  rewrite !place_across, !across_radius.
  replace ((h * 1 * e0 - l * 0 * e1) ^ 2 + (h * 1 * e1 + l * 0 * e0) ^ 2) with (h * h * (e0 ^ 2 + e1 ^ 2)) by ring.
  replace ((h * 0 * e0 - l * 1 * e1) ^ 2 + (h * 0 * e1 + l * 1 * e0) ^ 2) with (l * l * (e0 ^ 2 + e1 ^ 2)) by ring.
  rewrite U, !Rmult_1_r, !sqrt_square by auto.
  split; [auto|]. split; [auto|]. split; f_equal; ring.
Qed.

Lemma pedal_opposite : forall n h l inc azi nev k, 0 < h -> 0 < l -> (k < Nat.div n 2)%nat ->
  exists p q x y lam, nth_error (pedal_ring n h l inc azi nev) k = Some p /\
    nth_error (pedal_ring n h l inc azi nev) (k + Nat.div n 2) = Some q /\
    p = across inc azi nev x y /\ vsub q nev = vsub nev p /\ p <> q /\
    0 <= lam < PI /\ cos lam = 1 - 2 * INR k / INR (Nat.div n 2) /\
    0 <= y /\ x * (h * sin lam) = y * (l * cos lam).
Proof.
  intros n h l inc azi nev k Hh Hl Hk. unfold pedal_ring, pedal_lams. set (m := Nat.div n 2) in *.
  assert (Mp : 0 < INR m) by (apply lt_0_INR; lia).
  set (c := 1 + INR k * ((-1 - 1) / INR m)).
  assert (Ec : c = 1 - 2 * INR k / INR m) by (unfold c; field; lra).
  assert (Kb : 0 <= INR k / INR m < 1).
  { split. apply Rmult_le_pos; [apply pos_INR|left; apply Rinv_0_lt_compat; auto].
    apply Rmult_lt_reg_r with (INR m); auto. unfold Rdiv. rewrite Rmult_assoc, Rinv_l by lra.
    rewrite Rmult_1_r, Rmult_1_l. apply lt_INR. auto. }
  assert (Cb : -1 < c <= 1) by (rewrite Ec; unfold Rdiv in *; lra).
  assert (Lb : 0 <= acos c < PI).
  { pose proof (acos_bound c) as B. split; [lra|]. destruct (Req_dec (acos c) PI) as [E|E]; [|lra].
    assert (cos (acos c) = -1) by (rewrite E; apply cos_PI). rewrite cos_acos in H; lra. }
  assert (Cc : cos (acos c) = c) by (apply cos_acos; lra).
  assert (Sn : 0 <= sin (acos c)) by (apply sin_ge_0; lra).
  rewrite !map_app, !nth_error_app1, nth_error_app2 by (rewrite ?map_length, ?linspace_len; lia).
  rewrite !map_length, linspace_len. replace (k + m - m)%nat with k by lia.
  rewrite !nth_error_map, linspace_nth by auto. fold c. cbn [option_map].
  set (lam := acos c) in *. rewrite <- Ec.
  unfold pedal_point. rewrite neg_cos, neg_sin.
  set (d := l ^ 2 * cos lam ^ 2 + h ^ 2 * sin lam ^ 2).
  pose proof (sin2_cos2 lam) as P. unfold Rsqr in P.
  assert (D : 0 < d) by (apply pedal_den; auto).
  replace (l ^ 2 * (- cos lam) ^ 2 + h ^ 2 * (- sin lam) ^ 2) with d by (unfold d; ring).
  set (x := h * (l ^ 2 * cos lam / d)). set (y := l * (h ^ 2 * sin lam / d)).
  assert (O : vsub (place inc azi nev (h * (l ^ 2 * - cos lam / d), l * (h ^ 2 * - sin lam / d))) nev =
    vsub nev (place inc azi nev (x, y))).
  { rewrite !place_across.
    replace (h * (l ^ 2 * - cos lam / d)) with (- x) by (unfold x; field; lra).
    replace (l * (h ^ 2 * - sin lam / d)) with (- y) by (unfold y; field; lra).
    unfold across. destruct (high_side inc azi), (lateral azi), nev. unf. apply V3_eq; simpl; ring. }
  exists (place inc azi nev (x, y)), (place inc azi nev (h * (l ^ 2 * - cos lam / d), l * (h ^ 2 * - sin lam / d))), x, y, lam.
  split; [reflexivity|]. split; [reflexivity|]. split; [apply place_across|]. split; [exact O|].
  split; [|split; [exact Lb|split; [auto|split]]].
  - intro E. rewrite <- E, place_across in O.
    assert (R0 : dist (across inc azi nev x y) nev = 0).
    { unfold dist. set (w := across inc azi nev x y) in *.
      assert (vsub w nev = vzero). { destruct w, nev. unf. injection O as A1 A2 A3. apply V3_eq; simpl in *; lra. }
      rewrite H. apply norm_from_sqr; [lra|]. unf. ring. }
    rewrite across_radius in R0.
    assert (x ^ 2 + y ^ 2 = h ^ 2 * l ^ 2 / d).
    { unfold x, y. transitivity (h ^ 2 * l ^ 2 * d / (d * d)); [unfold d at 3; field; lra|field; lra]. }
    assert (0 < x ^ 2 + y ^ 2).
    { rewrite H. apply Rdiv_lt_0_compat; auto. apply Rmult_lt_0_compat; apply pow_lt; auto. }
    apply sqrt_eq_0 in R0; lra.
  - unfold y. apply Rmult_le_pos; [lra|]. apply Rmult_le_pos; [|left; apply Rinv_0_lt_compat; auto].
    apply Rmult_le_pos; [apply pow2_ge_0|auto].
  - unfold x, y. field. lra.
Qed.
