(** C169: target directions opposite to the start. *)
Require Import Reals ZArith Bool String List Lra Lia Psatz.
Require Import Verif.Base Verif.NumPy Verif.P_Trig Verif.Spec Verif.M_Utils Verif.P_Utils
  Verif.M_Survey Verif.M_Torque Verif.M_Connector Verif.Spec_Connector Verif.Spec_Connector2 Verif.P_Connector
  Verif.P_Connector2 Verif.P_Connector3 Verif.P_Connector4 Verif.P_Connector5 Verif.Spec_Opposite.
Import ListNotations.
Open Scope R_scope.

Lemma reduced_nonzero : forall v e, is_unit v -> 0 < e < 1 -> mkV (vx v) (vy v) (vz v * (1 - e)) <> vzero.
Proof.
  intros [x y z] e U E H. unfold is_unit, dot in U. cbn in *. injection H as -> -> Z.
  apply Rmult_integral in Z. destruct Z as [->|Z]; lra.
Qed.
Lemma mod_unit : forall v e, is_unit v -> 0 < e < 1 -> is_unit (mod_vec v e).
Proof. intros v e U E. unfold mod_vec. apply vunit_is_unit. apply reduced_nonzero; auto. Qed.
Lemma mod_flattened : forall v e, is_unit v -> 0 < e < 1 -> flattened e v (mod_vec v e).
Proof.
  intros v e U E. split; [apply mod_unit; auto|]. exists (/ norm (mkV (vx v) (vy v) (vz v * (1 - e)))). split.
  - apply Rinv_0_lt_compat. apply norm_pos. apply reduced_nonzero; auto.
  - unfold mod_vec, vunit. f_equal. f_equal. ring.
Qed.
Lemma flattened_fun : forall e v w, 0 < e < 1 -> is_unit v -> flattened e v w -> w = mod_vec v e.
Proof.
  intros e v w E U (W & k & K & ->). destruct (mod_flattened v e U E) as (M & j & J & EQ). rewrite EQ in *.
  set (u := mkV (vx v) (vy v) ((1 - e) * vz v)) in *. assert (S : k * k = j * j).
  { unfold is_unit in W, M. rewrite dot_vscale_l, dot_vscale_r in W, M.
    assert (D : dot u u <> 0) by (intro Z; rewrite Z in W; lra). apply (Rmult_eq_reg_r (dot u u)); [|exact D]. lra. }
  replace k with j; [reflexivity|]. nra.
Qed.
Lemma mod_same : forall v e, is_unit v -> 0 < e < 1 -> vertical v \/ level v -> mod_vec v e = v.
Proof.
  intros v e U E H. symmetry. apply flattened_fun; [exact E|exact U|]. split; [exact U|]. destruct v as [x y z]. unfold vertical, level in H. cbn in *.
  destruct H as [(-> & ->)| ->].
  - exists (/ (1 - e)). split; [apply Rinv_0_lt_compat; lra|]. unfold vscale. cbn. f_equal; try ring. field. lra.
  - exists 1. split; [lra|]. unfold vscale. cbn. f_equal; ring.
Qed.
Lemma mod_dot : forall v e, is_unit v -> 0 < e < 1 -> ~ vertical v -> ~ level v -> 0 < dot v (mod_vec v e) < 1.
Proof.
  intros v e U E NV NL. destruct (mod_flattened v e U E) as (W & k & K & EQ). rewrite EQ in *.
  destruct v as [x y z]. unfold vertical, level, is_unit, dot, vscale in *. cbn in *.
  assert (Z : 0 < z * z) by (destruct (Rtotal_order z 0) as [H|[H|H]]; [nra|contradiction|nra]).
  assert (H : 0 < x * x + y * y).
  { destruct (Req_EM_T x 0) as [->|X]; [destruct (Req_EM_T y 0) as [->|Y]; [tauto|nra]|nra]. }
  split; [nra|].
  set (h := x * x + y * y) in *. set (q := z * z) in *.
  assert (A : h + q = 1) by exact U.
  assert (B : k * k * (h + (1 - e) * (1 - e) * q) = 1) by (eapply eq_trans; [|exact W]; unfold h, q; ring).
  replace (x * (k * x) + y * (k * y) + z * (k * ((1 - e) * z))) with (k * (h + (1 - e) * q)) by (unfold h, q; ring).
  clearbody h q. clear EQ W U NV NL x y z.
  assert (C : (k * (h + (1 - e) * q)) ^ 2 < 1).
  { replace ((k * (h + (1 - e) * q)) ^ 2) with (k * k * ((h + (1 - e) * q) * (h + (1 - e) * q))) by ring. eapply Rlt_le_trans; [|apply Req_le; exact B].
    apply Rmult_lt_compat_l; [nra|]. assert (D : h + (1 - e) * (1 - e) * q - (h + (1 - e) * q) * (h + (1 - e) * q) = h * q * e * e).
    { replace h with (1 - q) by lra. ring. }
    assert (0 < h * q * e * e) by (repeat apply Rmult_lt_0_compat; lra). lra. }
  assert (0 < h + (1 - e) * q) by nra. assert (0 < k * (h + (1 - e) * q)) by nra. nra.
Qed.
Lemma mod_miss : forall v e, is_unit v -> 0 < e < 1 -> norm (vsub (mod_vec v e) v) <= 2 * e * Rabs (vz v).
Proof.
  intros v e U E. set (u := mkV (vx v) (vy v) (vz v * (1 - e))).
  assert (N : u <> vzero) by (apply reduced_nonzero; auto).
  assert (D : norm (vsub u v) = e * Rabs (vz v)).
  { apply norm_from_sqr; [apply Rmult_le_pos; [lra|apply Rabs_pos]|].
    assert (S : Rabs (vz v) * Rabs (vz v) = vz v * vz v) by (rewrite <- Rabs_mult; apply Rabs_pos_eq; nra).
    replace (e * Rabs (vz v) * (e * Rabs (vz v))) with (e * e * (Rabs (vz v) * Rabs (vz v))) by ring. rewrite S.
    unfold u, dot, vsub. cbn. ring. }
  assert (V1 : norm v = 1) by (apply norm_from_sqr; [lra|]; unfold is_unit in U; lra).
  assert (T1 : norm u <= norm v + norm (vsub u v)).
  { replace u with (vadd v (vsub u v)) at 1 by (unfold vadd, vsub; destruct v; unfold u; cbn; f_equal; ring). apply norm_triangle. }
  assert (T2 : norm v <= norm u + norm (vsub v u)).
  { replace v with (vadd u (vsub v u)) at 1 by (unfold vadd, vsub; destruct v; unfold u; cbn; f_equal; ring). apply norm_triangle. }
  assert (SW : norm (vsub v u) = norm (vsub u v)).
  { apply norm_from_sqr; [apply norm_ge0|]. rewrite norm_sqr. unfold dot, vsub. cbn. ring. }
  rewrite SW in T2. rewrite D, V1 in *.
  assert (W : norm (vsub (mod_vec v e) u) = Rabs (1 - norm u)).
  { pose proof (norm_pos u N) as P. apply norm_from_sqr; [apply Rabs_pos|]. rewrite <- Rabs_mult, Rabs_pos_eq by exact (Rle_0_sqr (1 - norm u)).
    unfold mod_vec. fold u. unfold vunit. replace (vsub (vscale (/ norm u) u) u) with (vscale (/ norm u - 1) u) by (unfold vsub, vscale; destruct u; cbn; f_equal; ring).
    rewrite dot_vscale_l, dot_vscale_r, <- norm_sqr. field. lra. }
  replace (vsub (mod_vec v e) v) with (vadd (vsub (mod_vec v e) u) (vsub u v)) by (unfold vadd, vsub; destruct (mod_vec v e), v; unfold u; cbn; f_equal; ring).
  eapply Rle_trans; [apply norm_triangle|]. rewrite W, D. unfold Rabs at 1. destruct (Rcase_abs (1 - norm u)); lra.
Qed.

Lemma reversed_target : forall a v, reversed a v -> target_vec a = mod_vec v (a_min_error a).
Proof.
  intros a v (V & U & S & E). unfold target_vec. assert (T : target_vec0 a = v) by (unfold target_vec0; rewrite V; reflexivity).
  rewrite T. destruct (v3_eq_dec v (vneg (start_vec a))) as [_|N]; [reflexivity|]. exfalso. apply N. rewrite S.
  destruct v. unfold vneg. cbn. f_equal; ring.
Qed.
Lemma neg_unit : forall v, is_unit v -> is_unit (vneg v).
Proof. intros v U. unfold is_unit, dot, vneg in *. cbn. lra. Qed.
Lemma min_curve_target : forall bump a c, connector bump a = inl c -> k_method c = MinCurve -> a_pos2 a = None ->
  do_min_curve a = inl c.
Proof.
  intros bump a c H M P. destruct (connector_cases bump a c H) as (C & [D|[D|(q & Q & D)]]); [|exact D|congruence].
  rewrite (hold_method a c D) in M. discriminate.
Qed.
Lemma min_curve_fields : forall a c, check_args a = None -> is_unit (start_vec a) -> is_unit (target_vec a) -> do_min_curve a = inl c ->
  k_vec_target c = target_vec a /\ angle_between (start_vec a) (target_vec a) (k_dogleg c).
Proof.
  intros a c C U UT D. unfold do_min_curve in D. cbv zeta in D.
  pose proof (start_angles_dir a C U) as SD. pose proof (target_angles_dir a C U UT) as TD.
  destruct (start_angles a) as [i1 z1], (target_angles' a) as [i2 z2]. cbn [fst snd] in SD, TD.
  pose proof (dogleg_angle i1 z1 i2 z2) as DA. rewrite SD, TD in DA.
  assert (E : check_dogleg (get_dogleg i1 z1 i2 z2) = get_dogleg i1 z1 i2 z2).
  { unfold check_dogleg. destruct DA as ((DA & _) & _). destruct (Rlt_dec (get_dogleg i1 z1 i2 z2) 0); lra. }
  rewrite E in D. set (t := get_dogleg i1 z1 i2 z2) in *. clearbody t. clear E SD TD.
  repeat match goal with
  | H : (match ?x with _ => _ end) = inl _ |- _ => destruct x
  | H : inr _ = inl _ |- _ => discriminate
  | H : inl _ = inl _ |- _ => injection H as <-
  end; cbn; auto.
Qed.
Theorem reversed_turn : forall bump a c v, reversed a v -> a_pos2 a = None -> connector bump a = inl c -> k_method c = MinCurve ->
  flattened (a_min_error a) v (k_vec_target c) /\ norm (vsub (k_vec_target c) v) <= 2 * a_min_error a * Rabs (vz v) /\
  angle_between (start_vec a) (k_vec_target c) (k_dogleg c) /\ PI / 2 < k_dogleg c /\
  (k_vec_target c = v <-> vertical v \/ level v) /\ (k_dogleg c = PI <-> vertical v \/ level v).
Proof.
  intros bump a c v RV P H M. pose proof RV as (V & U & S & E). pose proof (reversed_target a v RV) as T.
  destruct (connector_cases bump a c H) as (C & _). assert (US : is_unit (start_vec a)) by (rewrite S; apply neg_unit; exact U).
  assert (UT : is_unit (target_vec a)) by (rewrite T; apply mod_unit; auto).
  destruct (min_curve_fields a c C US UT (min_curve_target _ _ _ H M P)) as (KT & KD). rewrite <- KT in T, KD. pose proof PI_RGT_0 as PP.
  rewrite T in *. split; [apply mod_flattened; auto|]. split; [apply mod_miss; auto|]. split; [exact KD|].
  destruct KD as (KR & KC). rewrite S in KC.
  assert (KC' : cos (k_dogleg c) = - dot v (mod_vec v (a_min_error a))) by (rewrite KC; unfold dot, vneg; cbn; ring). clear KC.
  assert (X : (vertical v \/ level v) \/ ~ (vertical v \/ level v)).
  { unfold vertical, level. destruct (Req_EM_T (vx v) 0), (Req_EM_T (vy v) 0), (Req_EM_T (vz v) 0); tauto. }
  assert (Half : PI / 2 < k_dogleg c).
  { destruct (Rlt_le_dec (PI / 2) (k_dogleg c)) as [L|L]; [exact L|]. exfalso. assert (0 <= cos (k_dogleg c)) by (apply cos_ge_0; lra).
    destruct X as [X|X].
    - rewrite mod_same in KC' by auto. unfold is_unit in U. lra.
    - assert (B := mod_dot v (a_min_error a) U E ltac:(tauto) ltac:(tauto)). lra. }
  split; [exact Half|]. destruct X as [X|X].
  - rewrite mod_same in * by auto. split; [tauto|]. split; [tauto|]. intros _. apply cos_inj_0_PI; [lra|lra|]. rewrite KC', cos_PI. unfold is_unit in U. lra.
  - assert (B := mod_dot v (a_min_error a) U E ltac:(tauto) ltac:(tauto)). split; (split; [|tauto]); intro Z; exfalso.
    + rewrite Z in B. unfold is_unit in U. lra.
    + rewrite Z, cos_PI in KC'. lra.
Qed.

(** ** examples *)
Definition back_args (v : V3) : cargs :=
  mkArgs vzero (Some (vneg v)) None None 0 (Some 1) None None (Some v) None None true (1 / 100000) false.
Lemma back_reversed : forall v, is_unit v -> reversed (back_args v) v.
Proof. intros v U. split; [reflexivity|]. split; [exact U|]. split; [reflexivity|]. cbn. lra. Qed.
Lemma back_connects : forall v, is_unit v -> exists c, connector vzero (back_args v) = inl c /\ k_method c = MinCurve.
Proof.
  intros v U. pose proof (back_reversed v U) as RV. set (a := back_args v) in *.
  assert (C : check_args a = None).
  { unfold check_args, a, back_args. cbn. destruct (Rlt_dec 0 1); [|lra]. destruct (Rlt_dec (1 / 100000) 1); [reflexivity|lra]. }
  assert (US : is_unit (start_vec a)) by (apply neg_unit; exact U).
  assert (NE : target_vec a <> start_vec a).
  { rewrite (reversed_target a v RV). intro Z. assert (D : dot v (mod_vec v (a_min_error a)) = -1).
    { rewrite Z. change (start_vec a) with (vneg v). unfold is_unit, dot, vneg in *. cbn. lra. }
    assert (E : 0 < a_min_error a < 1) by apply RV. destruct (mod_flattened v (a_min_error a) U E) as (_ & k & K & EQ). rewrite EQ in D.
    destruct v as [x y z]. unfold dot, vscale in D. cbn in D. nra. }
  destruct (dispatch a C US) as [_ D2].
  assert (M : get_method a = inl "min_curve"%string).
  { rewrite D2; [reflexivity|]. left. intros (Z & _). apply NE. exact Z. }
  destruct (connector vzero a) as [c|e] eqn:H.
  - exists c. split; [reflexivity|]. unfold connector in H. rewrite C, M in H. cbn -[do_min_curve] in H. eapply min_curve_method; eauto.
  - exfalso. unfold connector in H. rewrite C, M in H. cbn -[do_min_curve] in H.
    apply min_curve_errors in H. cbn in H. destruct H as [(_ & _ & Z)|(_ & _ & Z)]; discriminate.
Qed.
Theorem nudged_refuted : ~ forall bump a c v, reversed a v -> a_pos2 a = None -> connector bump a = inl c -> k_method c = MinCurve ->
  k_vec_target c <> v /\ k_dogleg c < PI.
Proof.
  intro X. assert (U : is_unit (mkV 0 0 (-1))) by (unfold is_unit, dot; cbn; lra).
  destruct (back_connects _ U) as (c & H & M). destruct (X vzero _ c _ (back_reversed _ U) eq_refl H M) as (NE & _). apply NE.
  apply (reversed_turn vzero _ c _ (back_reversed _ U) eq_refl H M). left. split; reflexivity.
Qed.
Lemma back_example : exists a c v, reversed a v /\ a_pos2 a = None /\ connector vzero a = inl c /\ k_method c = MinCurve /\ ~ vertical v /\ ~ level v.
Proof.
  assert (U : is_unit (mkV (3 / 5) 0 (4 / 5))) by (unfold is_unit, dot; cbn; lra).
  destruct (back_connects _ U) as (c & H & M). exists (back_args (mkV (3 / 5) 0 (4 / 5))), c, (mkV (3 / 5) 0 (4 / 5)).
  split; [apply back_reversed; exact U|]. split; [reflexivity|]. split; [exact H|]. split; [exact M|]. unfold vertical, level. cbn. split; lra.
Qed.
