(** Proofs about the option closest_approach of a connection. *)
Require Import Reals ZArith Bool String List Lra Lia Psatz.
Require Import Verif.Base Verif.Spec Verif.NumPy Verif.M_Utils Verif.M_Connector Verif.Spec_Connector Verif.Spec_Connector2 Verif.P_Utils Verif.P_Connector Verif.P_Connector2 Verif.P_Connector5.
Require Import Verif.M_Approach Verif.Spec_Approach.
Import ListNotations.
Local Open Scope R_scope.

(** ** one component *)
Lemma factor_some : forall c u, c <> 0 -> u <> 0 -> c * (c / u / Rabs (c / u)) = with_sign c u.
Proof.
  intros c u C U. unfold with_sign. assert (N : c / u <> 0) by (unfold Rdiv; apply Rmult_integral_contrapositive_currified; [exact C|apply Rinv_neq_0_compat; exact U]).
  destruct (Rlt_dec u 0) as [L|L]; destruct (Rtotal_order c 0) as [P|[P|P]]; try contradiction.
  - rewrite (Rabs_left c) by exact P. rewrite Rabs_pos_eq; [field; auto|]. unfold Rdiv. assert (/ u < 0) by (apply Rinv_lt_0_compat; exact L). nra.
  - rewrite (Rabs_pos_eq c) by lra. rewrite Rabs_left; [field; auto|]. unfold Rdiv. assert (/ u < 0) by (apply Rinv_lt_0_compat; exact L). nra.
  - rewrite (Rabs_left c) by exact P. rewrite Rabs_left; [field; auto|]. unfold Rdiv. assert (0 < / u) by (apply Rinv_0_lt_compat; lra). nra.
  - rewrite (Rabs_pos_eq c) by lra. rewrite Rabs_pos_eq; [field; auto|]. unfold Rdiv. assert (0 < / u) by (apply Rinv_0_lt_compat; lra). nra.
Qed.
Lemma offset_spec : forall c u r, offset c u r = if Req_EM_T u 0 then None else if Req_EM_T c 0 then None else Some (with_sign c u * r).
Proof.
  intros c u r. unfold offset, factor. destruct (Req_EM_T u 0) as [U|U]; [reflexivity|]. cbv zeta.
  destruct (Req_EM_T c 0) as [C|C].
  - subst c. destruct (Req_EM_T (0 / u) 0) as [_|N]; [reflexivity|]. elim N. field. exact U.
  - destruct (Req_EM_T (c / u) 0) as [Z|_]; [|rewrite factor_some by assumption; reflexivity].
    exfalso. apply C. replace c with (c / u * u) by (field; exact U). rewrite Z. ring.
Qed.
Lemma with_sign_scale : forall a b k, 0 < k -> with_sign a (k * b) = with_sign a b.
Proof. intros a b k K. unfold with_sign. destruct (Rlt_dec (k * b) 0), (Rlt_dec b 0); try reflexivity; nra. Qed.
Lemma with_sign_mul : forall a b k, 0 < k -> with_sign (k * a) b = k * with_sign a b.
Proof. intros a b k K. unfold with_sign. rewrite Rabs_mult, (Rabs_pos_eq k) by lra. destruct (Rlt_dec b 0); ring. Qed.
Lemma with_sign_sqr : forall a b, with_sign a b * with_sign a b = a * a.
Proof. intros a b. unfold with_sign. pose proof (Rsqr_abs a) as S1. unfold Rsqr in S1. destruct (Rlt_dec b 0); lra. Qed.

(** ** the pivot *)
Lemma normalised_some : forall v, v <> vzero -> normalised v = Some (vunit v).
Proof. intros v N. unfold normalised. destruct (Req_EM_T (norm v) 0) as [Z|Z]; [|reflexivity]. elim N. apply norm_eq0. exact Z. Qed.
Lemma normalised_none : normalised vzero = None.
Proof. unfold normalised. rewrite norm_vzero. destruct (Req_EM_T 0 0); [reflexivity|lra]. Qed.
Lemma vzero_dec : forall v : V3, v = vzero \/ v <> vzero.
Proof. intro v. destruct (v3_eq_dec v vzero); auto. Qed.
Lemma unit_of : forall v, v <> vzero -> exists k, 0 < k /\ vunit v = vscale k v.
Proof.
  intros v N. exists (/ norm v). split; [|reflexivity]. apply Rinv_0_lt_compat. pose proof (norm_ge0 v). assert (norm v <> 0) by (intro Z; apply N; apply norm_eq0; exact Z). lra.
Qed.
Lemma cross_scale_l : forall k a b, cross (vscale k a) b = vscale k (cross a b).
Proof. intros. vring. Qed.
Lemma centre_spec : forall p v t r, approach_centre p v t r =
  if v3_eq_dec (vsub t p) vzero then None
  else if v3_eq_dec (cross (vsub t p) v) vzero then None
  else let w := vsub t p in let c := cross w v in
    if Req_EM_T (vx w) 0 then None else if Req_EM_T (vx c) 0 then None else
    if Req_EM_T (vy w) 0 then None else if Req_EM_T (vy c) 0 then None else
    if Req_EM_T (vz w) 0 then None else if Req_EM_T (vz c) 0 then None else Some (pivot p v t r).
Proof.
  intros p v t r. unfold approach_centre, pivot. destruct (v3_eq_dec (vsub t p) vzero) as [Z|N]; [rewrite Z, normalised_none; reflexivity|].
  rewrite (normalised_some _ N). destruct (unit_of _ N) as (k & K & ->). rewrite cross_scale_l.
  set (w := vsub t p) in *. clearbody w. cbv zeta. destruct (v3_eq_dec (cross w v) vzero) as [Z|NC].
  { rewrite Z. replace (vscale k vzero) with vzero by vring. rewrite normalised_none. reflexivity. }
  assert (NK : vscale k (cross w v) <> vzero).
  { intro Z. apply NC. apply norm_eq0. assert (E : norm (vscale k (cross w v)) = 0) by (rewrite Z; apply norm_vzero).
    rewrite norm_vscale, Rabs_pos_eq in E by lra. apply Rmult_integral in E. destruct E; lra. }
  rewrite (normalised_some _ NK), (vunit_scale k _ K NC). unfold vunit.
  assert (M : 0 < / norm (cross w v)) by (apply Rinv_0_lt_compat; pose proof (norm_ge0 (cross w v)); assert (norm (cross w v) <> 0) by (intro Z; apply NC; apply norm_eq0; exact Z); lra).
  unfold Rdiv. set (m := / norm (cross w v)) in *. clearbody m.
  set (c := cross w v) in *. clearbody c. rewrite !offset_spec. cbn [vscale vx vy vz].
  assert (ZE : forall j x, 0 < j -> (j * x = 0 <-> x = 0)).
  { intros j x J. split; intro H; [apply Rmult_integral in H; destruct H; lra|rewrite H; ring]. }
  assert (DD : forall j x (A : Type) (a b : A), 0 < j -> (if Req_EM_T (j * x) 0 then a else b) = if Req_EM_T x 0 then a else b).
  { intros j x A a b J. specialize (ZE j x J). destruct (Req_EM_T (j * x) 0), (Req_EM_T x 0); tauto. }
  rewrite !(DD k) by exact K. rewrite !(DD m) by exact M.
  destruct (Req_EM_T (vx w) 0); [reflexivity|]. destruct (Req_EM_T (vx c) 0); [reflexivity|].
  destruct (Req_EM_T (vy w) 0); [reflexivity|]. destruct (Req_EM_T (vy c) 0); [reflexivity|].
  destruct (Req_EM_T (vz w) 0); [reflexivity|]. destruct (Req_EM_T (vz c) 0); [reflexivity|].
  rewrite !(with_sign_scale _ _ k K). f_equal. f_equal. unfold vscale. cbn [vx vy vz]. rewrite !(with_sign_mul _ _ m M). f_equal; ring.
Qed.
Lemma no_zero_nonzero : forall w, no_zero w -> w <> vzero.
Proof. intros w (N & _) Z. apply N. rewrite Z. reflexivity. Qed.
Lemma centre_cases : forall p v t r,
  (no_zero (vsub t p) /\ no_zero (cross (vsub t p) v) /\ approach_centre p v t r = Some (pivot p v t r)) \/
  (~ (no_zero (vsub t p) /\ no_zero (cross (vsub t p) v)) /\ approach_centre p v t r = None).
Proof.
  intros p v t r. rewrite centre_spec. cbv zeta. unfold no_zero.
  destruct (v3_eq_dec (vsub t p) vzero) as [Z|_]; [right; split; [|reflexivity]; rewrite Z; cbn; tauto|].
  destruct (v3_eq_dec (cross (vsub t p) v) vzero) as [Z|_]; [right; split; [|reflexivity]; rewrite Z; cbn; tauto|].
  repeat match goal with |- context [if ?d then _ else _] => destruct d; [right; split; [tauto|reflexivity]|] end. left. tauto.
Qed.
Lemma sub_zero : forall a b : V3, vsub a b = vzero -> a = b.
Proof. intros a b Z. apply V3_eq; [apply (f_equal vx) in Z|apply (f_equal vy) in Z|apply (f_equal vz) in Z]; cbn in Z; lra. Qed.
(** when the option gives a point, and which *)
Lemma target_point : forall p v t r q, approach_target p v t r = Some q <->
  approachable p v t r /\ q = vadd (pivot p v t r) (vscale r (vunit (vsub t (pivot p v t r)))).
Proof.
  intros p v t r q. unfold approach_target, approachable. destruct (centre_cases p v t r) as [(A & B & ->)|(N & ->)]; [|split; [discriminate|tauto]].
  destruct (vzero_dec (vsub t (pivot p v t r))) as [Z|NZ].
  - rewrite Z, normalised_none. split; [discriminate|]. intros [(_ & _ & X) _]. elim X. apply sub_zero. exact Z.
  - rewrite (normalised_some _ NZ). split.
    + intro H. injection H as <-. split; [|reflexivity]. split; [exact A|]. split; [exact B|]. intro E. apply NZ. rewrite <- E. vring.
    + intros [_ ->]. reflexivity.
Qed.
Lemma target_none : forall p v t r, approach_target p v t r = None <-> ~ approachable p v t r.
Proof.
  intros p v t r. destruct (approach_target p v t r) as [q|] eqn:E.
  - apply target_point in E. split; [discriminate|tauto].
  - split; [|reflexivity]. intros _ A. assert (X : approach_target p v t r = Some (vadd (pivot p v t r) (vscale r (vunit (vsub t (pivot p v t r)))))) by (apply target_point; auto). congruence.
Qed.

(** ** where the pivot and the new target lie *)
Lemma pivot_dist : forall p v t r, 0 < r -> cross (vsub t p) v <> vzero -> dist (pivot p v t r) p = r.
Proof.
  intros p v t r R0 N. unfold dist, pivot. cbv zeta. set (w := vsub t p) in *. set (c := cross w v) in *. clearbody c w.
  assert (P : 0 < norm c) by (pose proof (norm_ge0 c); assert (norm c <> 0) by (intro Z; apply N; apply norm_eq0; exact Z); lra).
  match goal with |- norm (vsub (vadd p (vscale _ ?x)) p) = _ => set (s := x); replace (vsub (vadd p (vscale (r / norm c) s)) p) with (vscale (r / norm c) s) by vring end.
  rewrite norm_vscale. assert (E : norm s = norm c).
  { unfold norm. f_equal. unfold s, dot. cbn [vx vy vz]. rewrite !with_sign_sqr. reflexivity. }
  rewrite E, Rabs_pos_eq; [field; lra|]. apply Rlt_le, Rdiv_lt_0_compat; lra.
Qed.
Lemma dist_to_sphere : forall c t r, 0 < r -> t <> c -> nearest_on_sphere c t r (vadd c (vscale r (vunit (vsub t c)))).
Proof.
  intros c t r R0 N. assert (D : vsub t c <> vzero).
  { intro Z. apply N. apply sub_zero. exact Z. }
  pose proof (vunit_is_unit _ D) as U. assert (NU : norm (vunit (vsub t c)) = 1) by (unfold norm; rewrite U; apply sqrt_1).
  assert (P : 0 < norm (vsub t c)) by (pose proof (norm_ge0 (vsub t c)); assert (norm (vsub t c) <> 0) by (intro Z; apply D; apply norm_eq0; exact Z); lra).
  assert (E : vsub t c = vscale (norm (vsub t c)) (vunit (vsub t c))).
  { unfold vunit. set (w := vsub t c) in *. clearbody w. set (k := norm w) in *. clearbody k. apply V3_eq; cbn; field; lra. }
  split.
  - unfold dist. replace (vsub (vadd c (vscale r (vunit (vsub t c)))) c) with (vscale r (vunit (vsub t c))) by vring.
    rewrite norm_vscale, NU, Rabs_pos_eq; lra.
  - intros x X. unfold dist in *. set (d := norm (vsub t c)) in *. set (u := vunit (vsub t c)) in *.
    assert (L : norm (vsub t (vadd c (vscale r u))) = Rabs (d - r)).
    { replace (vsub t (vadd c (vscale r u))) with (vsub (vsub t c) (vscale r u)) by vring. rewrite E.
      replace (vsub (vscale d u) (vscale r u)) with (vscale (d - r) u) by vring. rewrite norm_vscale, NU. ring. }
    rewrite L. pose proof (norm_triangle (vsub t x) (vsub x c)) as T1. replace (vadd (vsub t x) (vsub x c)) with (vsub t c) in T1 by vring.
    pose proof (norm_triangle (vsub x t) (vsub t c)) as T2. replace (vadd (vsub x t) (vsub t c)) with (vsub x c) in T2 by vring.
    assert (S : norm (vsub x t) = norm (vsub t x)) by (replace (vsub x t) with (vneg (vsub t x)) by vring; unfold norm; f_equal; unfold dot; cbn; ring).
    fold d in T1, T2. apply Rabs_le. lra.
Qed.
Lemma target_place : forall p v t r q, 0 < r -> approach_target p v t r = Some q ->
  dist (pivot p v t r) p = r /\ nearest_on_sphere (pivot p v t r) t r q.
Proof.
  intros p v t r q R0 H. apply target_point in H. destruct H as [(A & B & C) ->]. split.
  - apply pivot_dist; [exact R0|apply no_zero_nonzero; exact B].
  - apply dist_to_sphere; assumption.
Qed.
(** the nearest point is unique *)
Lemma nearest_unique : forall c t r x y, 0 < r -> t <> c -> nearest_on_sphere c t r x -> nearest_on_sphere c t r y -> x = y.
Proof.
  intros c t r x y R0 N [X1 X2] [Y1 Y2]. assert (E : dist t x = dist t y) by (apply Rle_antisym; auto).
  destruct (dist_to_sphere c t r R0 N) as [Q1 Q2].
  assert (D : vsub t c <> vzero) by (intro Z; apply N; apply sub_zero; exact Z).
  assert (P : 0 < norm (vsub t c)) by (apply norm_pos; exact D).
  assert (AL : forall z, dist z c = r -> dist t z <= dist t (vadd c (vscale r (vunit (vsub t c)))) -> z = vadd c (vscale r (vunit (vsub t c)))).
  { intros z Z L. unfold dist in *. set (w := vsub z c) in *. set (u := vsub t c) in *. unfold vunit in *.
    assert (A : dot w u = r * norm u).
    { assert (LL : norm (vsub u w) * norm (vsub u w) <= norm (vsub u (vscale r (vscale (/ norm u) u))) * norm (vsub u (vscale r (vscale (/ norm u) u)))).
      { replace (vsub t z) with (vsub u w) in L by (unfold u, w; vring).
        replace (vsub t (vadd c (vscale r (vscale (/ norm u) u)))) with (vsub u (vscale r (vscale (/ norm u) u))) in L by (unfold u at 1; vring).
        pose proof (norm_ge0 (vsub u w)). nra. }
      rewrite !norm_sqr in LL. pose proof (norm_sqr w) as W2. pose proof (norm_sqr u) as U2. rewrite Z in W2.
      set (k := norm u) in *. assert (IK : / k * k = 1) by (field; lra). set (i := / k) in *. clearbody i k.
      assert (C1 : dot (vsub u w) (vsub u w) = dot u u - 2 * dot w u + dot w w) by (unfold dot; cbn; ring).
      assert (C2 : dot (vsub u (vscale r (vscale i u))) (vsub u (vscale r (vscale i u))) = dot u u - 2 * r * i * dot u u + (r * i) * (r * i) * dot u u) by (unfold dot; cbn; ring).
      rewrite C1, C2, <- W2, <- U2 in LL. replace (2 * r * i * (k * k)) with (2 * r * k * (i * k)) in LL by ring. replace (r * i * (r * i) * (k * k)) with (r * r * (i * k) * (i * k)) in LL by ring. rewrite IK in LL.
      assert (CS : dot w u <= r * k).
      { assert (S2 : 0 <= dot (vsub (vscale k w) (vscale r u)) (vsub (vscale k w) (vscale r u))) by apply dot_self_ge0.
        assert (C3 : dot (vsub (vscale k w) (vscale r u)) (vsub (vscale k w) (vscale r u)) = k * k * dot w w - 2 * k * r * dot w u + r * r * dot u u) by (unfold dot; cbn; ring).
        rewrite C3, <- W2, <- U2 in S2. assert (k * r * dot w u <= k * r * (r * k)) by nra. apply Rmult_le_reg_l with (k * r); nra. }
      lra. }
    assert (S2 : vsub (vscale (norm u) w) (vscale r u) = vzero).
    { apply norm_eq0. unfold norm at 1. match goal with |- sqrt ?e = 0 => replace e with 0; [apply sqrt_0|] end.
      assert (C3 : forall k, dot (vsub (vscale k w) (vscale r u)) (vsub (vscale k w) (vscale r u)) = k * k * dot w w - 2 * k * r * dot w u + r * r * dot u u) by (intro k; unfold dot; cbn; ring).
      rewrite C3, A, <- (norm_sqr w), Z, <- (norm_sqr u). ring. }
    apply sub_zero in S2. assert (WE : w = vscale r (vscale (/ norm u) u)).
    { apply V3_eq; [apply (f_equal vx) in S2|apply (f_equal vy) in S2|apply (f_equal vz) in S2]; cbn in S2 |- *;
        apply Rmult_eq_reg_l with (norm u); try lra; rewrite S2; field; lra. }
    rewrite <- WE. unfold w. vring. }
  rewrite (AL x X1 (X2 _ Q1)), (AL y Y1 (Y2 _ Q1)). reflexivity.
Qed.
(** the target itself when it is on the sphere *)
Lemma target_on_sphere : forall p v t r, 0 < r -> approachable p v t r -> dist t (pivot p v t r) = r ->
  approach_target p v t r = Some t.
Proof.
  intros p v t r R0 A D. apply target_point. split; [exact A|]. unfold dist in D. unfold vunit. rewrite D.
  generalize (pivot p v t r). intro c. apply V3_eq; cbn; field; lra.
Qed.

(** ** a start along an axis, or start and target in one plane of the axes *)
Lemma flat_start : forall p v t r, vx v = 0 -> vy v = 0 -> ~ approachable p v t r.
Proof. intros p v t r X Y (_ & (_ & _ & Z) & _). apply Z. unfold cross. cbn. rewrite X, Y. ring. Qed.
Lemma plane_start : forall p v t r,
  (vx v = 0 /\ vx t = vx p) \/ (vy v = 0 /\ vy t = vy p) \/ (vz v = 0 /\ vz t = vz p) -> ~ approachable p v t r.
Proof. intros p v t r H ((X & Y & Z) & _). cbn in X, Y, Z. destruct H as [[_ H]|[[_ H]|[_ H]]]; [apply X|apply Y|apply Z]; lra. Qed.

(** ** the connection *)
Lemma hold_or_approach_off : forall bump bump' e rd p v m t,
  do_curve_hold_or_approach false bump bump' e rd p v m t = do_curve_hold bump e rd p v m t.
Proof.
  intros bump bump' e rd p v m t. unfold do_curve_hold_or_approach, do_curve_hold. destruct (get_distances bump p v t) as [q ds].
  destruct rd as [r|]; cbn [radius_le]; [|reflexivity]. unfold radius_le. destruct (Rle_dec r (get_radius_critical ds e)); reflexivity.
Qed.
Lemma approach_off : forall bump bump' a, approach_connector false bump bump' a = connector bump a.
Proof.
  intros bump bump' a. unfold approach_connector, connector. destruct (check_args a); [reflexivity|]. destruct (get_method a) as [m|e]; [|reflexivity].
  destruct (a_pos2 a) as [q|]; [|reflexivity]. rewrite hold_or_approach_off. reflexivity.
Qed.
(** the cases of a call with the option: as without it, or by way of the new target *)
Lemma approach_cases : forall bump bump' a,
  (approach_connector true bump bump' a = connector bump a /\ (forall c, connector bump a = inl c -> k_method c <> MinCurveToTarget)) \/
  (exists q q' ds, a_pos2 a = Some q /\ check_args a = None /\
     get_distances bump (a_pos1 a) (start_vec a) q = (q', ds) /\
     radius_le (radius_design a) (get_radius_critical ds (a_min_error a)) = false /\
     approach_connector true bump bump' a =
       match do_closest_approach bump' (radius_design a) (a_pos1 a) (start_vec a) (a_md1 a) q' with Some c => inl c | None => inr NaNResult end /\
     connector bump a =
       match do_min_curve_to_target (radius_design a) ds (a_pos1 a) (start_vec a) (a_md1 a) q' with Some c => inl c | None => inr NaNResult end).
Proof.
  intros bump bump' a. unfold approach_connector, connector. destruct (check_args a) eqn:CK; [left; split; [reflexivity|discriminate]|].
  destruct (get_method a) as [m|e] eqn:G; [|left; split; [reflexivity|discriminate]].
  destruct (String.eqb m "hold"); [left; split; [reflexivity|]; intros c H; rewrite (hold_method a c H); discriminate|].
  destruct (String.eqb m "min_curve"); [left; split; [reflexivity|]; intros c H; rewrite (min_curve_method a c H); discriminate|].
  destruct (String.eqb m "curve_hold_curve"); [left; split; [reflexivity|discriminate]|].
  destruct (a_pos2 a) as [q|] eqn:Q; [|left; split; [reflexivity|discriminate]].
  unfold do_curve_hold_or_approach, do_curve_hold. destruct (get_distances bump (a_pos1 a) (start_vec a) q) as [q' ds] eqn:D.
  destruct (radius_design a) as [r|] eqn:RD; cbn [radius_le].
  - destruct (Rle_dec r (get_radius_critical ds (a_min_error a))) as [L|L].
    + left. split; [reflexivity|]. intros c H. destruct (do_min_dist r ds _ _ _ q') as [c'|] eqn:X; [|discriminate]. injection H as ->.
      rewrite (min_dist_method _ _ _ _ _ _ _ X). discriminate.
    + right. exists q, q', ds. repeat split; auto. cbn [radius_le]. destruct (Rle_dec _ _); [contradiction|reflexivity].
  - right. exists q, q', ds. repeat split; auto.
Qed.
(** the option only matters for a target the design curvature cannot reach *)
Lemma approach_reachable : forall bump bump' a c, connector bump a = inl c -> k_method c <> MinCurveToTarget ->
  approach_connector true bump bump' a = inl c.
Proof.
  intros bump bump' a c H M. destruct (approach_cases bump bump' a) as [[E _]|(q & q' & ds & _ & _ & _ & _ & _ & E)]; [congruence|].
  rewrite E in H. destruct (do_min_curve_to_target _ _ _ _ _ _) as [c'|] eqn:X; [|discriminate]. injection H as ->.
  elim M. eapply min_curve_to_method; eauto.
Qed.
Lemma approach_rejected : forall bump bump' a e, connector bump a = inr e -> e <> NaNResult ->
  approach_connector true bump bump' a = inr e.
Proof.
  intros bump bump' a e H M. destruct (approach_cases bump bump' a) as [[E _]|(q & q' & ds & _ & _ & _ & _ & _ & E)]; [congruence|].
  rewrite E in H. destruct (do_min_curve_to_target _ _ _ _ _ _) as [c'|] eqn:X; congruence.
Qed.
Lemma no_bump : forall bump p v t, v <> vunit (vsub t p) -> fst (get_distances bump p v t) = t.
Proof.
  intros bump p v t N. unfold get_distances. cbn [fst]. unfold normalised. destruct (Req_EM_T _ 0); [reflexivity|].
  destruct (v3_eq_dec v _); [contradiction|reflexivity].
Qed.
Lemma off_axis_not_unit : forall p v t, 0 < off_axis p v t -> v <> vunit (vsub t p).
Proof.
  intros p v t O E. unfold off_axis in O. rewrite E in O. unfold vunit in O.
  replace (cross (vsub t p) (vscale (/ norm (vsub t p)) (vsub t p))) with vzero in O by (generalize (/ norm (vsub t p)); intro k; vring).
  rewrite norm_vzero in O. lra.
Qed.
(** where the option ends in nan *)
Lemma approach_axis : forall bump bump' a c, connector bump a = inl c -> k_method c = MinCurveToTarget ->
  vx (start_vec a) = 0 -> vy (start_vec a) = 0 ->
  approach_connector true bump bump' a = inr NaNResult.
Proof.
  intros bump bump' a c H M X Y. destruct (approach_cases bump bump' a) as [[_ E]|(q & q' & ds & _ & _ & _ & _ & -> & _)]; [elim (E c H M)|].
  unfold do_closest_approach. destruct (radius_design a) as [r|]; [|reflexivity].
  assert (Z : approach_target (a_pos1 a) (start_vec a) q' r = None) by (apply target_none, flat_start; assumption).
  rewrite Z. reflexivity.
Qed.
Lemma approach_fails : forall bump bump' a c t r, connector bump a = inl c -> k_method c = MinCurveToTarget ->
  a_pos2 a = Some t -> 0 < off_axis (a_pos1 a) (start_vec a) t -> radius_design a = Some r ->
  ~ approachable (a_pos1 a) (start_vec a) t r -> approach_connector true bump bump' a = inr NaNResult.
Proof.
  intros bump bump' a c t r H M P O RD N. destruct (approach_cases bump bump' a) as [[_ E]|(q & q' & ds & Q & _ & D & _ & -> & _)]; [elim (E c H M)|].
  rewrite P in Q. injection Q as <-. pose proof (no_bump bump _ _ _ (off_axis_not_unit _ _ _ O)) as F. rewrite D in F. cbn in F. subst q'.
  unfold do_closest_approach. rewrite RD. assert (Z : approach_target (a_pos1 a) (start_vec a) t r = None) by (apply target_none; assumption). rewrite Z. reflexivity.
Qed.
(** what the option aims at, and how it gets there *)
Lemma approach_by : forall bump bump' a c0 c t r, connector bump a = inl c0 -> k_method c0 = MinCurveToTarget ->
  a_pos2 a = Some t -> 0 < off_axis (a_pos1 a) (start_vec a) t -> radius_design a = Some r ->
  approach_connector true bump bump' a = inl c ->
  exists q, approach_target (a_pos1 a) (start_vec a) t r = Some q /\ 0 < r /\
    let '(q', ds) := get_distances bump' (a_pos1 a) (start_vec a) q in
    do_min_curve_to_target (Some r) ds (a_pos1 a) (start_vec a) (a_md1 a) q' = Some c.
Proof.
  intros bump bump' a c0 c t r H M P O RD A. destruct (approach_cases bump bump' a) as [[_ E]|(q & q' & ds & Q & CK & D & _ & E & _)]; [elim (E c0 H M)|].
  rewrite P in Q. injection Q as <-. pose proof (no_bump bump _ _ _ (off_axis_not_unit _ _ _ O)) as F. rewrite D in F. cbn in F. subst q'.
  rewrite A in E. unfold do_closest_approach in E. rewrite RD in E. destruct (approach_target _ _ t r) as [q|] eqn:T; [|discriminate].
  exists q. split; [reflexivity|]. split; [eapply radius_pos; eauto|]. destruct (get_distances bump' _ _ q) as [q' ds']. destruct (do_min_curve_to_target _ _ _ _ _ _); congruence.
Qed.
Lemma approach_end : forall bump bump' a c0 c t r, connector bump a = inl c0 -> k_method c0 = MinCurveToTarget ->
  a_pos2 a = Some t -> 0 < off_axis (a_pos1 a) (start_vec a) t -> radius_design a = Some r ->
  approach_connector true bump bump' a = inl c ->
  approachable (a_pos1 a) (start_vec a) t r /\ k_method c = MinCurveToTarget /\
  dist (pivot (a_pos1 a) (start_vec a) t r) (a_pos1 a) = r /\
  exists q, nearest_on_sphere (pivot (a_pos1 a) (start_vec a) t r) t r q /\
    (k_pos_target c = q \/ (off_axis (a_pos1 a) (start_vec a) q = 0 /\ k_pos_target c = vadd q bump')).
Proof.
  intros bump bump' a c0 c t r H M P O RD A. destruct (approach_by bump bump' a c0 c t r H M P O RD A) as (q & T & R0 & G).
  pose proof (proj1 (target_point _ _ _ _ _) T) as [AP _]. destruct (target_place _ _ _ _ _ R0 T) as [PD NS].
  destruct (get_distances bump' (a_pos1 a) (start_vec a) q) as [q' ds] eqn:D. split; [exact AP|]. split; [eapply min_curve_to_method; eauto|]. split; [exact PD|].
  exists q. split; [exact NS|]. rewrite (min_curve_to_pos _ _ _ _ _ _ _ G). unfold get_distances in D. injection D as D _.
  unfold normalised in D. destruct (Req_EM_T _ 0); [auto|]. destruct (v3_eq_dec _ _) as [V|V]; [|auto]. right. split; [|auto].
  unfold off_axis. rewrite V. unfold vunit. generalize (/ norm (vsub q (a_pos1 a))). intro k.
  replace (cross (vsub q (a_pos1 a)) (vscale k (vsub q (a_pos1 a)))) with vzero by vring. apply norm_vzero.
Qed.
(** the turn, and by how much it misses *)
Lemma approach_turn : forall bump bump' a c0 c t r, is_unit (start_vec a) -> connector bump a = inl c0 -> k_method c0 = MinCurveToTarget ->
  a_pos2 a = Some t -> 0 < off_axis (a_pos1 a) (start_vec a) t -> radius_design a = Some r ->
  approach_connector true bump bump' a = inl c ->
  ~ allclose (a_pos1 a) (k_pos_target c) ->
  0 < off_axis (a_pos1 a) (start_vec a) (k_pos_target c) ->
  ahead (a_pos1 a) (start_vec a) (k_pos_target c) <> 0 ->
  let rc := tangent_circle_radius (a_pos1 a) (start_vec a) (k_pos_target c) in
  (rc <= r -> turn_then_straight (a_pos1 a) (start_vec a) rc (k_dogleg c) 0 (k_pos_target c) (k_pos_target c) (k_vec_target c) /\
     k_md_target c = a_md1 a + rc * k_dogleg c) /\
  (r <= rc -> exists n, is_unit n /\ orthogonal (start_vec a) n /\ k_md_target c = a_md1 a + r * k_dogleg c /\
     dist (k_pos_target c) (arc_point (a_pos1 a) (start_vec a) n r (k_dogleg c)) = (1 - r / rc) * dist (k_pos_target c) (a_pos1 a)).
Proof.
  intros bump bump' a c0 c t r U H M P O RD A NC N AH rc. destruct (approach_by bump bump' a c0 c t r H M P O RD A) as (q & _ & R0 & G).
  destruct (get_distances bump' (a_pos1 a) (start_vec a) q) as [q' ds] eqn:D.
  pose proof (min_curve_to_pos _ _ _ _ _ _ _ G) as T. rewrite T in NC, N, AH. unfold rc in *. clear rc. rewrite T.
  assert (DS : ds = dist_triple (a_pos1 a) (start_vec a) q').
  { unfold get_distances in D. injection D as G1 G2. rewrite G1 in G2. destruct (allclose_dec (a_pos1 a) q'); [tauto|]. auto. }
  destruct (arc_solve _ _ _ U N AH) as (d & v & S0 & Et & V & Hc & Bt & W).
  set (rc := tangent_circle_radius (a_pos1 a) (start_vec a) q') in *.
  unfold do_min_curve_to_target in G. rewrite DS, S0, Et in G. cbn [rmin_inf] in G. split; intro L.
  - rewrite Rmin_right in G by exact L. cbn [get_curve_hold_data] in G. rewrite V in G. injection G as <-. cbn. split; [exact W|ring].
  - destruct W as (n & Nn & On & Wn & Wq & Wv & _). exists n. rewrite Rmin_left in G by exact L. cbn [get_curve_hold_data] in G.
    destruct (get_vec_target _ _ _ _ _ _) as [w|]; [|discriminate]. injection G as <-. cbn. repeat split; auto; try ring.
    set (x := arc_point (a_pos1 a) (start_vec a) n r d).
    assert (Ex : vsub q' x = vscale (1 - r / rc) (vsub q' (a_pos1 a))).
    { rewrite Wq at 1 2. unfold x, arc_point. replace r with (r / rc * rc) at 1 2 by (field; lra). vring. }
    unfold dist. rewrite Ex, norm_vscale, Rabs_pos_eq; auto.
    assert (r / rc <= 1); [|lra]. apply Rmult_le_reg_r with rc; [lra|]. replace (r / rc * rc) with r by (field; lra). lra.
Qed.
(** a target on the sphere around the pivot is its own closest point *)
Lemma approach_same : forall bump bump' a t r, a_pos2 a = Some t -> radius_design a = Some r -> 0 < r ->
  0 < off_axis (a_pos1 a) (start_vec a) t -> approachable (a_pos1 a) (start_vec a) t r ->
  dist t (pivot (a_pos1 a) (start_vec a) t r) = r ->
  approach_connector true bump bump' a = connector bump a.
Proof.
  intros bump bump' a t r P RD R0 O AP D. destruct (approach_cases bump bump' a) as [[E _]|(q & q' & ds & Q & _ & G & _ & E1 & E2)]; [exact E|].
  rewrite E1, E2. rewrite P in Q. injection Q as <-. pose proof (no_bump bump _ _ _ (off_axis_not_unit _ _ _ O)) as F.
  pose proof (no_bump bump' _ _ _ (off_axis_not_unit _ _ _ O)) as F'. rewrite G in F. cbn in F. subst q'.
  unfold do_closest_approach. rewrite RD, (target_on_sphere _ _ _ _ R0 AP D).
  assert (G' : get_distances bump' (a_pos1 a) (start_vec a) t = (t, ds)).
  { unfold get_distances in *. cbn [fst] in F'. rewrite F'. injection G as G1 G2. rewrite G1 in G2. rewrite G2. reflexivity. }
  rewrite G'. reflexivity.
Qed.
(** whenever there is a new target, off the line of the start and not level with it, it is connected *)
Lemma vec_target_some : forall p u q k rc d f v, 0 < k -> rc <> 0 -> d <> 0 -> 0 < off_axis p u q ->
  get_vec_target p u q 0 (rc * d) f = Some v -> get_vec_target p u q 0 (k * d) f <> None.
Proof.
  intros p u q k rc d f v K RC D O H. unfold get_vec_target in *. destruct (Req_EM_T (rc * d) 0) as [Z|_]; [apply Rmult_integral in Z; tauto|].
  destruct (Req_EM_T (k * d) 0) as [Z|_]; [discriminate|]. destruct (Req_EM_T (rc * d * f / 2 + 0) 0) as [Z|N]; [discriminate|].
  assert (F : f <> 0) by (intro Z; apply N; rewrite Z; field). destruct (Req_EM_T (k * d * f / 2 + 0) 0) as [Z|N'].
  - exfalso. assert (Y : k * d * f = 0) by lra. apply Rmult_integral in Y. destruct Y as [Y|Y]; [|tauto]. apply Rmult_integral in Y. destruct Y; lra.
  - rewrite normalised_some; [discriminate|]. intro Z. set (h := k * d * f / 2) in *. clearbody h.
    assert (W : vsub (vsub q p) (vscale h u) = vzero).
    { assert (I : / (h + 0) <> 0) by (apply Rinv_neq_0_compat; exact N'). set (i := / (h + 0)) in *. clearbody i.
      apply V3_eq; [apply (f_equal vx) in Z|apply (f_equal vy) in Z|apply (f_equal vz) in Z]; cbn in Z |- *; apply Rmult_integral in Z; destruct Z; tauto. }
    apply sub_zero in W. unfold off_axis in O. rewrite W in O. replace (cross (vscale h u) u) with vzero in O by vring. rewrite norm_vzero in O. lra.
Qed.
Lemma approach_succeeds : forall bump bump' a c0 t r q, is_unit (start_vec a) -> connector bump a = inl c0 -> k_method c0 = MinCurveToTarget ->
  a_pos2 a = Some t -> 0 < off_axis (a_pos1 a) (start_vec a) t -> radius_design a = Some r ->
  approachable (a_pos1 a) (start_vec a) t r -> nearest_on_sphere (pivot (a_pos1 a) (start_vec a) t r) t r q ->
  ~ allclose (a_pos1 a) q -> 0 < off_axis (a_pos1 a) (start_vec a) q -> ahead (a_pos1 a) (start_vec a) q <> 0 ->
  exists c, approach_connector true bump bump' a = inl c /\ k_pos_target c = q.
Proof.
  intros bump bump' a c0 t r q U H M P O RD AP NS NC N AH.
  destruct (approach_cases bump bump' a) as [[_ E]|(t0 & q' & ds & Q & CK & D & _ & E & _)]; [elim (E c0 H M)|].
  rewrite P in Q. injection Q as <-. pose proof (no_bump bump _ _ _ (off_axis_not_unit _ _ _ O)) as F. rewrite D in F. cbn in F. subst q'.
  assert (R0 : 0 < r) by (eapply radius_pos; eauto).
  assert (T : approach_target (a_pos1 a) (start_vec a) t r = Some q).
  { destruct (approach_target (a_pos1 a) (start_vec a) t r) as [q2|] eqn:T; [|apply target_none in T; contradiction].
    f_equal. apply (nearest_unique (pivot (a_pos1 a) (start_vec a) t r) t r); [exact R0|apply AP| |exact NS]. apply (target_place _ _ _ _ _ R0 T). }
  rewrite E. unfold do_closest_approach. rewrite RD, T.
  pose proof (no_bump bump' _ _ _ (off_axis_not_unit _ _ _ N)) as F'.
  destruct (get_distances bump' (a_pos1 a) (start_vec a) q) as [q' ds'] eqn:G. cbn in F'. subst q'.
  assert (DS : ds' = dist_triple (a_pos1 a) (start_vec a) q).
  { unfold get_distances in G. injection G as G1 G2. rewrite G1 in G2. destruct (allclose_dec (a_pos1 a) q); [tauto|]. auto. }
  destruct (arc_solve _ _ _ U N AH) as (d & v & S0 & Et & V & Hc & Bt & W).
  set (rc := tangent_circle_radius (a_pos1 a) (start_vec a) q) in *.
  unfold do_min_curve_to_target. rewrite DS, S0, Et. cbn [rmin_inf get_curve_hold_data].
  assert (K : 0 < Rmin r rc) by (apply Rmin_glb_lt; lra). 
  pose proof (vec_target_some _ _ _ (Rmin r rc) rc d _ v K ltac:(lra) ltac:(lra) N V) as X.
  destruct (get_vec_target (a_pos1 a) (start_vec a) q 0 (Rmin r rc * d) (get_rf d)) as [w|]; [|contradiction].
  eexists. split; reflexivity.
Qed.
