(** C158 and C159: rounding in the minimum curvature code. *)
Require Import Reals ZArith String List Bool Lra Lia.
Require Import Verif.Base Verif.NumPy Verif.Spec Verif.M_Utils Verif.M_Round Verif.Spec_Round Verif.Spec_Binary.
Require Import Verif.P_Round Verif.P_Round2 Verif.P_Round3.
Import ListNotations.
Local Open Scope R_scope.

(** * C158 *)
Theorem C158_binary64 : accurate roundoff binary64.
Proof. exact binary64_accurate. Qed.
Print Assumptions C158_binary64.
Theorem C158_relative : forall u M inc1 azi1 inc2 azi2 A, 0 <= u <= 1 / 1000 -> accurate u M ->
  angle_between (direction_nev inc1 azi1) (direction_nev inc2 azi2) A ->
  mild_turn A inc1 azi1 inc2 azi2 ->
  relative_error (gamma u 16) (r_dogleg M inc1 azi1 inc2 azi2) A.
Proof. exact dogleg_relative. Qed.
Print Assumptions C158_relative.
Example C158_relative_case : 0 <= roundoff <= 1 / 1000 /\ accurate roundoff binary64 /\
  angle_between (direction_nev 0 0) (direction_nev (1 / 1000000000) 0) (1 / 1000000000) /\
  mild_turn (1 / 1000000000) 0 0 (1 / 1000000000) 0.
Proof.
  pose proof PI2_3_2. split; [apply roundoff_small |]. split; [apply binary64_accurate |]. split.
  - apply arccos_loses. lra.
  - unfold mild_turn. rewrite !Rminus_0_r, Rabs_R0, Rabs_pos_eq by lra. lra.
Qed.
Theorem C158_zero : forall u M inc1 azi1 inc2 azi2 A, 0 <= u <= 1 / 1000 -> accurate u M ->
  angle_between (direction_nev inc1 azi1) (direction_nev inc2 azi2) A ->
  mild_turn A inc1 azi1 inc2 azi2 ->
  (r_dogleg M inc1 azi1 inc2 azi2 = 0 <-> A = 0) /\ 0 <= r_dogleg M inc1 azi1 inc2 azi2.
Proof. exact dogleg_zero. Qed.
Print Assumptions C158_zero.
Theorem C158_absolute : forall u M inc1 azi1 inc2 azi2 A, 0 <= u <= 1 / 1000 -> accurate u M ->
  angle_between (direction_nev inc1 azi1) (direction_nev inc2 azi2) A ->
  0 <= inc1 <= PI -> 0 <= inc2 <= PI -> Rabs (inc2 - inc1) <= 29 / 10 -> Rabs (azi2 - azi1) <= 7 -> A <= 7 / 5 ->
  Rabs (r_dogleg M inc1 azi1 inc2 azi2 - A) <= gamma u 12 * A + 15 * u.
Proof. exact dogleg_absolute. Qed.
Print Assumptions C158_absolute.
Example C158_absolute_case : 0 <= 1 / 2 <= PI /\ Rabs (1 / 2 - 1 / 2) <= 29 / 10 /\ Rabs (1 / 10 - 6) <= 7 /\
  forall A, angle_between (direction_nev (1 / 2) 6) (direction_nev (1 / 2) (1 / 10)) A -> A <= 7 / 5.
Proof.
  destruct turn_mild as [_ [[_ [H [_ [D [Z T]]]]] _]]. exact (conj H (conj D (conj Z T))).
Qed.
Theorem C158_north_refuted : forall u, 0 < u <= 1 / 1000 -> exists M azi2 A, accurate u M /\
  0 <= azi2 < 2 * PI /\ angle_between (direction_nev (PI / 2) 0) (direction_nev (PI / 2) azi2) A /\
  0 < A <= u /\ r_dogleg M (PI / 2) 0 (PI / 2) azi2 = 0.
Proof. exact north_refuted. Qed.
Print Assumptions C158_north_refuted.
Example C158_north_case : 0 < roundoff <= 1 / 1000.
Proof. unfold roundoff. lra. Qed.
Theorem C158_arccos : forall t, 0 < t <= 1 / 100000000 ->
  angle_between (direction_nev 0 0) (direction_nev t 0) t /\
  r_angle_arccos binary64 (mkV 0 0 1) (mkV (nearest (sin t)) 0 (nearest (cos t))) = 0 /\
  relative_error (gamma roundoff 16) (r_dogleg binary64 0 0 t 0) t /\
  r_dogleg binary64 0 0 t 0 <> 0.
Proof. exact arccos_loses. Qed.
Print Assumptions C158_arccos.
Example C158_arccos_case : 0 < 1 / 1000000000 <= 1 / 100000000.
Proof. lra. Qed.
Theorem C158_arccos_cosine : forall u M a b A, 0 <= u <= 1 / 1000 -> (forall x, relative_error u (fl M x) x) -> (forall x, -1 <= x <= 1 -> facos M x = acos x) ->
  is_unit a -> is_unit b -> angle_between a b A ->
  0 <= r_angle_arccos M a b <= PI /\ Rabs (cos (r_angle_arccos M a b) - cos A) <= 4 * u.
Proof. exact arccos_cosine. Qed.
Print Assumptions C158_arccos_cosine.
Example C158_arccos_cosine_case : exists M, (forall x, relative_error roundoff (fl M x) x) /\ (forall x, facos M x = acos x) /\ 0 <= roundoff <= 1 / 1000 /\
  is_unit (mkV 0 0 1) /\ is_unit (mkV 1 0 0) /\ angle_between (mkV 0 0 1) (mkV 1 0 0) (PI / 2).
Proof.
  exists (mkMachine nearest sin cos tan asin acos sqrt). split; [exact (proj1 binary64_accurate)|]. split; [reflexivity|]. split; [unfold roundoff; lra|].
  unfold is_unit, angle_between, dot. simpl. rewrite cos_PI2. pose proof PI_RGT_0. repeat split; lra.
Qed.
Theorem C158_ratio_factor : forall u M a b, 0 <= u <= 1 / 1000 -> accurate u M -> mild_pair a b ->
  relative_error (gamma u 27)
    (r_rf M (r_dogleg M (st_inc a) (st_azi a) (st_inc b) (st_azi b))) (get_rf (pair_dogleg a b)).
Proof. exact rf_relative. Qed.
Print Assumptions C158_ratio_factor.
Example C158_ratio_factor_case : mild_pair (mkSt 100 (1 / 2) 6) (mkSt 200 (1 / 2) (1 / 10)).
Proof. apply turn_mild. Qed.

(** * C159 *)
Theorem C159_positions : forall u M svy start unit mc first k s,
  0 <= u <= 1 / 1000 -> accurate u M -> mild_survey svy -> INR (36 + k) * u < 1 ->
  MinCurve svy start unit = Some mc ->
  nth_error svy 0 = Some first -> nth_error svy k = Some s ->
  exists p' p,
    nth_error (r_poss M svy start) k = Some p' /\
    nth_error (mc_poss mc) k = Some p /\
    within (gamma u (36 + k) * (4 / 3 * (st_md s - st_md first) + largest start)) p' p.
Proof. exact positions_rounded. Qed.
Print Assumptions C159_positions.
Example C159_positions_case : mild_survey turn_survey /\ accurate roundoff binary64 /\ INR (36 + 2) * roundoff < 1 /\
  nth_error turn_survey 2 = Some (mkSt 200 (1 / 2) (1 / 10)) /\
  exists mc, MinCurve turn_survey vzero "meters" = Some mc.
Proof.
  split; [apply turn_mild |]. split; [apply binary64_accurate |].
  split; [unfold roundoff; simpl INR; lra |]. split; [reflexivity |]. eexists. reflexivity.
Qed.
Theorem C159_length : forall M svy start, length (r_poss M svy start) = Nat.max 1 (length svy).
Proof. exact positions_length. Qed.
Print Assumptions C159_length.
Theorem C159_binary64 : forall svy start unit mc first k s,
  mild_survey svy -> (k <= 1000)%nat -> MinCurve svy start unit = Some mc ->
  nth_error svy 0 = Some first -> nth_error svy k = Some s ->
  st_md s - st_md first <= 10000 -> largest start <= 10000000 ->
  exists p' p,
    nth_error (r_poss binary64 svy start) k = Some p' /\
    nth_error (mc_poss mc) k = Some p /\
    within (2 / 1000000) p' p.
Proof. exact binary64_positions. Qed.
Print Assumptions C159_binary64.
Example C159_binary64_case : mild_survey turn_survey /\ 200 - 0 <= 10000 /\ largest (mkV 500000 6000000 0) <= 10000000.
Proof.
  split; [apply turn_mild |]. split; [lra |]. unfold largest. simpl.
  rewrite Rabs_R0, !Rabs_pos_eq by lra. repeat apply Rmax_lub; lra.
Qed.
