(** A refined run that hides a factor below one. *)
Require Import Reals ZArith Bool String List Lra Lia Psatz.
Require Import Verif.Base Verif.NumPy Verif.P_Trig Verif.Spec Verif.Spec_Lists Verif.Spec_Clearance Verif.Spec_Refine Verif.M_Utils Verif.P_Utils Verif.P_Utils2
  Verif.M_Survey Verif.P_Survey Verif.P_Survey2 Verif.P_Survey3 Verif.P_Survey4 Verif.P_Survey5 Verif.M_Error Verif.M_Clearance Verif.P_Clearance Verif.P_Clearance2 Verif.P_Clearance3 Verif.M_MaxCurve
  Verif.M_Refine Verif.P_Refine Verif.P_Refine2 Verif.P_Refine3 Verif.P_Refine5.
Import ListNotations.
Open Scope R_scope.

Definition wit_h (u : string) : header := mkHeader RefGrid 0 0 1 None u.
Definition wit_opt : optimiser := fun f x0 ub => if Rlt_dec (f 0) (f x0) then (0, f 0) else (x0, f x0).
Definition wit_mini : minimiser := fun f lo hi =>
  if elt (f 15) (f 0) then if Rle_dec lo 15 then if Rle_dec 15 hi then 15 else 0 else 0 else 0.
Definition wit_c : settings := mkSettings (7/2) (1/2) (3/10).
Definition wit_cov : M3 := mscale 9 mid.

Lemma wit_opt_ok : never_worse wit_opt.
Proof. intros f x0 ub H. unfold wit_opt. destruct (Rlt_dec (f 0) (f x0)); repeat split; lra. Qed.
Lemma lower_irrefl : forall a, ~ lower a a.
Proof. intros a H. exact (lower_asym a a H H). Qed.
Lemma wit_mini_ok : descends wit_mini.
Proof.
  intros f lo hi H. unfold wit_mini. destruct (elt (f 15) (f 0)) eqn:E; [|split; [lra|apply lower_irrefl]].
  destruct (Rle_dec lo 15); [|split; [lra|apply lower_irrefl]]. destruct (Rle_dec 15 hi); [|split; [lra|apply lower_irrefl]].
  split; [lra|]. apply elt_lower in E. intro L. exact (lower_asym _ _ E L).
Qed.
Lemma qform_wit : forall v, qform wit_cov v = 9 * dot v v.
Proof. intros []. unfold wit_cov, qform. unf. ring. Qed.
Lemma psd_wit : psd wit_cov.
Proof. intro v. rewrite qform_wit. destruct v; unf; nra. Qed.

(** straight intervals *)
Lemma straight_interp : forall p m1 m2 inc azi x,
  interpolate_pos_nev p (mkSt m1 inc azi) (mkSt m2 inc azi) x = vadd p (vscale x (direction_nev inc azi)).
Proof.
  intros. rewrite interpolate_pos_nev_step.
  assert (D : pair_dogleg (mkSt m1 inc azi) (mkSt m2 inc azi) = 0) by (apply dogleg_0_iff; reflexivity).
  unfold interp_station, interp_angles. destruct (Req_EM_T _ 0); [|contradiction]. cbn [st_inc st_azi st_md].
  rewrite step_straight' by (apply dogleg_0_iff; reflexivity). cbn [st_md dir st_inc st_azi]. unfold dir. cbn [st_inc st_azi]. do 2 f_equal. ring.
Qed.
Lemma straight_next : forall m1 m2 inc azi, step_between (mkSt m1 inc azi) (mkSt m2 inc azi) = vscale (m2 - m1) (direction_nev inc azi).
Proof. intros. rewrite step_straight' by (apply dogleg_0_iff; reflexivity). reflexivity. Qed.
Lemma down : direction_nev 0 0 = mkV 0 0 1.
Proof. unfold direction_nev. rewrite sin_0, cos_0. apply V3_eq; simpl; ring. Qed.
Lemma north : direction_nev (PI/2) 0 = mkV 1 0 0.
Proof. unfold direction_nev. rewrite sin_PI2, cos_PI2, sin_0, cos_0. apply V3_eq; simpl; ring. Qed.
Lemma nth_ext_list : forall A (l : list A) n, length l = n -> forall l', length l' = n ->
  (forall i x, nth_error l' i = Some x -> nth_error l i = Some x) -> l = l'.
Proof.
  intros A l n H l' H' E. apply list_ext. intro i. destruct (nth_error l' i) as [x|] eqn:Q; [apply E; exact Q|].
  apply nth_error_None. apply nth_error_None in Q. lia.
Qed.

Lemma wit_ref : forall u, u = "meters"%string \/ u = "feet"%string -> exists s, Survey (wit_h u) [(0, 0, 0); (100, 0, 0); (200, 0, 0)] false vzero vzero u = Some s /\
  sv_rows s = [mkSt 0 0 0; mkSt 100 0 0; mkSt 200 0 0] /\ sv_nev s = [vzero; mkV 0 0 100; mkV 0 0 200].
Proof.
  intros un UN. destruct (Survey_total (wit_h un) [(0, 0, 0); (100, 0, 0); (200, 0, 0)] false vzero vzero) as [s HS]; [exact UN|simpl; lia|]. change (h_unit (wit_h un)) with un in HS.
  exists s. split; auto. pose proof (Survey_rows _ _ _ _ _ _ _ HS) as RW. simpl in RW. split; auto.
  pose proof (Survey_stations _ _ _ _ _ _ _ HS) as (_ & _ & _ & _ & _ & _ & _ & LN & _).
  destruct (sv_nev s) as [|p0 [|p1 [|p2 [|]]]] eqn:N; try discriminate.
  assert (F : p0 = vzero). { pose proof (Survey_intervals _ _ _ _ _ _ _ HS) as (_ & F & _). rewrite N in F. simpl in F. congruence. }
  assert (F1 : p1 = vadd p0 (step_between (mkSt 0 0 0) (mkSt 100 0 0))) by (apply (Survey_nev_step _ _ _ _ _ _ s 0 _ _ _ _ HS); rewrite ?RW, ?N; reflexivity).
  assert (F2 : p2 = vadd p1 (step_between (mkSt 100 0 0) (mkSt 200 0 0))) by (apply (Survey_nev_step _ _ _ _ _ _ s 1 _ _ _ _ HS); rewrite ?RW, ?N; reflexivity).
  rewrite straight_next, down in F1, F2. subst. unf. do 2 f_equal; [|f_equal]; apply V3_eq; simpl; ring.
Qed.
Lemma wit_off : forall u, u = "meters"%string \/ u = "feet"%string -> exists s, Survey (wit_h u) [(0, PI/2, 0); (100, PI/2, 0)] false vzero (mkV 8 0 115) u = Some s /\
  sv_rows s = [mkSt 0 (PI/2) 0; mkSt 100 (PI/2) 0] /\ sv_nev s = [mkV 8 0 115; mkV 108 0 115].
Proof.
  intros un UN. destruct (Survey_total (wit_h un) [(0, PI/2, 0); (100, PI/2, 0)] false vzero (mkV 8 0 115)) as [s HS]; [exact UN|simpl; lia|]. change (h_unit (wit_h un)) with un in HS.
  exists s. split; auto. pose proof (Survey_rows _ _ _ _ _ _ _ HS) as RW. simpl in RW. split; auto.
  pose proof (Survey_stations _ _ _ _ _ _ _ HS) as (_ & _ & _ & _ & _ & _ & _ & LN & _).
  destruct (sv_nev s) as [|p0 [|p1 [|]]] eqn:N; try discriminate.
  assert (F : p0 = mkV 8 0 115). { pose proof (Survey_intervals _ _ _ _ _ _ _ HS) as (_ & F & _). rewrite N in F. simpl in F. congruence. }
  assert (F1 : p1 = vadd p0 (step_between (mkSt 0 (PI/2) 0) (mkSt 100 (PI/2) 0))) by (apply (Survey_nev_step _ _ _ _ _ _ s 0 _ _ _ _ HS); rewrite ?RW, ?N; reflexivity).
  rewrite straight_next, north in F1. subst. unf. do 2 f_equal; apply V3_eq; simpl; ring.
Qed.

Definition wit_holes (n : nat) : list R := repeat 0.3048 n.
Lemma dist_sq : forall a b c a' b' c', dist (mkV a b c) (mkV a' b' c') * dist (mkV a b c) (mkV a' b' c') = (a - a') ^ 2 + (b - b') ^ 2 + (c - c') ^ 2.
Proof. intros. unfold dist. rewrite norm_sqr. unf. ring. Qed.
Lemma dist_pos : forall p q, 0 <= dist p q.
Proof. intros. unfold dist, norm. apply sqrt_pos. Qed.

Lemma root_le : forall x y, 0 <= y -> x * x <= y * y -> x <= y.
Proof. intros x y Y H. destruct (Rle_dec x y) as [L|L]; auto. nra. Qed.
Lemma wit_bounds : forall z d, 0 <= d -> 8 ^ 2 + (z - 115) ^ 2 <= d ^ 2 -> 8 <= d /\ 115 - z <= d /\ z - 115 <= d.
Proof. intros z d D H. pose proof (pow2_ge_0 (z - 115)) as Q. repeat split; apply root_le; auto; simpl in *; lra. Qed.

Section Wit.
  Variable un : string.
  Variable so : survey.
  Hypothesis HO : Survey (wit_h un) [(0, PI/2, 0); (100, PI/2, 0)] false vzero (mkV 8 0 115) un = Some so.
  Hypothesis RO : sv_rows so = [mkSt 0 (PI/2) 0; mkSt 100 (PI/2) 0].
  Hypothesis NO : sv_nev so = [mkV 8 0 115; mkV 108 0 115].
  Let off := mkWell so [mzero; mzero] (wit_holes 2).

  Lemma wit_si : strictly_increasing (map st_md (sv_rows so)).
  Proof. rewrite RO. simpl. repeat constructor; lra. Qed.
  Lemma wit_bo : forall i a b, nth_error (sv_rows so) i = Some a -> nth_error (sv_rows so) (S i) = Some b ->
     get_dogleg (st_inc a) (st_azi a) (st_inc b) (st_azi b) < PI.
  Proof.
    rewrite RO. intros [|i] a b A B; simpl in *; [|destruct i; discriminate]. injection A as <-. injection B as <-.
    assert (D : get_dogleg (PI/2) 0 (PI/2) 0 = 0) by (apply dogleg_0_iff; reflexivity). cbn [st_inc st_azi]. rewrite D. apply PI_RGT_0.
  Qed.
  Lemma wit_point : forall md nd h', 0 <= md <= 100 -> survey_interpolate_md so md = NodeOk nd h' ->
    nd_pos nd = mkV (8 + md) 0 115.
  Proof.
    intros md nd h' M I.
    destruct (md_lookup _ _ _ _ _ _ so md (mkSt 0 (PI/2) 0) (mkSt 100 (PI/2) 0) HO wit_si) as [_ [L _]]; [rewrite RO; reflexivity|rewrite RO; reflexivity|].
    destruct (L M) as (k & a & b & pa & n & h2 & A & B & P & I2 & _ & _ & NP & _). rewrite I2 in I. injection I as <- <-.
    rewrite RO in A, B. rewrite NO in P. destruct k as [|[|k]]; simpl in A, B; [|discriminate|destruct k; discriminate].
    injection A as <-. injection B as <-. injection P as <-. rewrite NP.
    pose proof (straight_interp (mkV 8 0 115) 0 100 (PI/2) 0 (md - 0)) as S. rewrite interpolate_pos_nev_step, north in S. unfold step_between in S.
    cbn [st_md] in *. unfold interp_station in *. destruct (interp_angles (mkSt 0 (PI/2) 0) (mkSt 100 (PI/2) 0) (md - 0)) as [i2 a2]. cbn [st_md st_inc st_azi] in *.
    replace (0 + (md - 0) - 0) with (md - 0) in S by ring. rewrite S. unf. apply V3_eq; simpl; ring.
  Qed.

  Lemma wit_run : forall ref i a z rc, (forall m, In m (w_cov ref) -> psd m) ->
    nth_error (sv_rows (w_survey ref)) i = Some a -> nth_error (sv_nev (w_survey ref)) i = Some (mkV 0 0 z) ->
    nth_error (w_cov ref) i = Some rc -> nth_error (w_radius ref) i = Some 0.3048 ->
    exists r q w, nth_error (clearance_run wit_opt wit_c ref off) i = Some (Some r) /\
      0 <= q /\ 8 <= q /\ 115 - z <= q /\ z - 115 <= q /\ 8 ^ 2 + (z - 115) ^ 2 <= q ^ 2 /\ q <= dist (mkV 0 0 z) (mkV 8 0 115) /\
      (rc = wit_cov -> w = 9) /\ (rc = mzero -> w = 0) /\ ru_sf r = Fin ((q - 0.9096) / (7/2 * sqrt (w + 1/4))).
  Proof.
    intros ref i a z rc PS A P C RD.
    destruct (whole_run _ _ _ _ _ _ so [mzero; mzero] (wit_holes 2) ref wit_opt wit_c HO wit_si wit_bo) as [_ W];
      [rewrite RO; reflexivity|rewrite RO; reflexivity| |exact PS|exact wit_opt_ok|simpl; lra|simpl; lra|].
    { intros m [<-|[<-|[]]]; intro v; rewrite qform_mzero; lra. }
    destruct (W i a (mkV 0 0 z) rc 0.3048 A P C RD) as (r & q & nd & h' & m & b & e & ca & cb & t & j & o & ro & N & _ & B & E & T & I & Q & O & OM & QO & _ & RR & _ & CA & CB & U & _ & _ & _ & SF).
    rewrite RO in B, E. destruct m as [|[|m]]; simpl in B, E; [|discriminate|destruct m; discriminate].
    injection B as <-. injection E as <-. cbn [st_md] in I. simpl in CA, CB. injection CA as <-. injection CB as <-.
    assert (QP : q = mkV (8 + (0 + t * (100 - 0))) 0 115) by (rewrite <- Q; eapply wit_point; eauto; lra).
    assert (RV : ro = 0.3048). { apply nth_error_In in RR. unfold wit_holes in RR. apply repeat_spec in RR. auto. }
    assert (QB : dist (mkV 0 0 z) q <= dist (mkV 0 0 z) (mkV 8 0 115)). { eapply Rle_trans; [exact QO|]. apply (OM 0%nat). rewrite NO. reflexivity. }
    pose proof (dist_pos (mkV 0 0 z) q) as DP. pose proof (dist_sq 0 0 z (8 + (0 + t * (100 - 0))) 0 115) as DS. rewrite <- QP in DS.
    set (d := dist (mkV 0 0 z) q) in *.
    assert (D8 : 8 ^ 2 + (z - 115) ^ 2 <= d ^ 2). { replace (d ^ 2) with (d * d) by ring. rewrite DS. nra. }
    assert (NE : mkV 0 0 z <> q). { rewrite QP. intro X. injection X as X1 X2. lra. }
    destruct (U NE) as (u & (UU & _) & U1 & U2). rewrite !qform_mzero in U2. unfold is_unit in UU.
    exists r, d, (qform rc u). destruct (wit_bounds z d DP D8) as (B1 & B2 & B3). do 7 (split; auto).
    split; [intros ->; rewrite qform_wit, UU; ring|]. split; [intros ->; apply qform_mzero|].
    rewrite SF, U1, U2, RV. cbn [c_k c_Sm c_sigma_pa wit_c]. do 2 f_equal; [lra|]. do 2 f_equal. lra.
  Qed.
End Wit.

Lemma unmarked_in : forall A fl (l : list A) j x, nth_error fl j = Some false -> nth_error l j = Some x -> In x (unmarked fl l).
Proof.
  induction fl as [|f fl IH]; intros [|y l] [|j] x F X; simpl in *; try discriminate.
  - injection F as ->. injection X as ->. left. reflexivity.
  - destruct f; [|right]; eapply IH; eauto.
Qed.
Lemma wit_E : 0 < 7/2 * sqrt (9 + 1/4) < 10.65.
Proof.
  assert (S : 0 < sqrt (9 + 1/4)) by (apply sqrt_lt_R0; lra). pose proof (sqrt_sqrt (9 + 1/4)) as Q.
  assert (sqrt (9 + 1/4) < 3.0425). { destruct (Rlt_dec (sqrt (9 + 1/4)) 3.0425); auto. specialize (Q ltac:(lra)). nra. }
  lra.
Qed.
Lemma div_gt_1 : forall x y, 0 < y -> y < x -> 1 < x / y.
Proof. intros x y Y H. apply (Rmult_lt_reg_r y); auto. unfold Rdiv. rewrite Rmult_assoc, Rinv_l by lra. lra. Qed.
Lemma div_lt_1 : forall x y, 0 < y -> x < y -> x / y < 1.
Proof. intros x y Y H. apply (Rmult_lt_reg_r y); auto. unfold Rdiv. rewrite Rmult_assoc, Rinv_l by lra. lra. Qed.
Lemma div_lt_div : forall a b y, 0 < y -> a < b -> a / y < b / y.
Proof. intros. unfold Rdiv. apply Rmult_lt_compat_r; auto. apply Rinv_0_lt_compat; auto. Qed.
Lemma wit_17 : dist (mkV 0 0 100) (mkV 8 0 115) = 17.
Proof.
  pose proof (dist_sq 0 0 100 8 0 115) as D. pose proof (dist_pos (mkV 0 0 100) (mkV 8 0 115)) as P.
  apply Rle_antisym; apply root_le; lra.
Qed.
Lemma wit_8 : norm (mkV 8 0 0) = 8.
Proof. unfold norm. replace (dot (mkV 8 0 0) (mkV 8 0 0)) with (8 * 8) by (unf; ring). apply sqrt_square. lra. Qed.

(** the search at the dip *)
Lemma wit_objective : forall s so sf i,
  sv_rows s = [mkSt 0 0 0; mkSt 100 0 0; mkSt 200 0 0] -> sv_nev s = [vzero; mkV 0 0 100; mkV 0 0 200] ->
  sv_rows so = [mkSt 0 (PI/2) 0; mkSt 100 (PI/2) 0] -> sv_nev so = [mkV 8 0 115; mkV 108 0 115] -> i = 1%nat ->
  objective wit_opt wit_c (mkWell s (repeat wit_cov 3) (wit_holes 3)) (mkWell so [mzero; mzero] (wit_holes 2)) sf i 100 100 15
  = Fin ((8 - 0.3048 - (0.3048 + 0 / 100 * (0.3048 - 0.3048))) / (7/2 * sqrt (sqrt (sqrt (Rmax 0 9) ^ 2 + sqrt (Rmax 0 0) ^ 2) ^ 2 + (1/2) ^ 2))).
Proof.
  intros s so sf i RS NS RO NO ->. unfold objective.
  destruct (Req_EM_T 15 0); [lra|]. destruct (Req_EM_T 15 (- (100))); [lra|]. destruct (Req_EM_T 15 100); [lra|]. destruct (Rlt_dec 15 0); [lra|].
  cbn [w_survey w_cov w_radius]. rewrite RS, NS, NO. cbn [nth_error repeat wit_holes].
  rewrite straight_interp, down.
  replace (vadd (mkV 0 0 100) (vscale 15 (mkV 0 0 1))) with (mkV 0 0 115) by (unf; apply V3_eq; simpl; ring).
  assert (NR : nearest_station [mkV 8 0 115; mkV 108 0 115] (mkV 0 0 100) = 0%nat).
  { unfold nearest_station. cbn [map argmin nth_error]. destruct (Rle_dec _ _) as [L|L]; auto. exfalso. apply L. apply root_le; [apply dist_pos|].
    rewrite !dist_sq. lra. }
  rewrite NR. unfold near_offset. cbn [w_survey w_cov w_radius]. rewrite RO, NO. cbn [length Nat.min Nat.sub seq fold_left nth_error repeat wit_holes st_md].
  unfold wit_opt, closest_fun. rewrite RO, NO. cbn [nth_error]. rewrite !straight_interp, north.
  assert (P0 : vsub (vadd (mkV 8 0 115) (vscale 0 (mkV 1 0 0))) (mkV 0 0 115) = mkV 8 0 0) by (unf; apply V3_eq; simpl; ring).
  rewrite P0. rewrite wit_8.
  destruct (Rlt_dec 8 _) as [L|L].
  2: { exfalso. apply L. match goal with |- 8 < norm ?v => replace v with (mkV 58 0 0) by (unf; apply V3_eq; simpl; field) end.
       unfold norm. replace (dot (mkV 58 0 0) (mkV 58 0 0)) with (58 * 58) by (unf; ring). rewrite sqrt_square; lra. }
  cbn beta iota zeta. rewrite straight_interp, north, P0. destruct (Rlt_dec 0 (100 - 0)); [|lra].
  unfold sf_min_between. rewrite wit_8. destruct (Rlt_dec 8 tol) as [T|T]. { exfalso. unfold tol in T. assert (/ 10 ^ 10 < 1) by (rewrite <- Rinv_1; apply Rinv_lt_contravar; lra). lra. }
  f_equal. cbn [c_k c_sigma_pa wit_c].
  assert (W : vscale (/ 8) (mkV 8 0 0) = mkV 1 0 0) by (unf; apply V3_eq; simpl; field). rewrite W.
  rewrite !qform_interpolated, qform_wit, qform_mzero.
  replace (dot (mkV 1 0 0) (mkV 1 0 0)) with 1 by (unf; ring).
  replace ((1 - 15 / 100) * (9 * 1) + 15 / 100 * (9 * 1)) with 9 by ring.
  replace ((1 - 0 / (100 - 0)) * 0 + 0 / (100 - 0) * 0) with 0 by ring.
  replace (0 / (100 - 0)) with (0 / 100) by (f_equal; ring). reflexivity.
Qed.

Lemma wit_found : forall un s so,
  sv_rows s = [mkSt 0 0 0; mkSt 100 0 0; mkSt 200 0 0] -> sv_nev s = [vzero; mkV 0 0 100; mkV 0 0 200] ->
  Survey (wit_h un) [(0, PI/2, 0); (100, PI/2, 0)] false vzero (mkV 8 0 115) un = Some so ->
  sv_rows so = [mkSt 0 (PI/2) 0; mkSt 100 (PI/2) 0] -> sv_nev so = [mkV 8 0 115; mkV 108 0 115] ->
  In 115 (minimum_depths wit_opt wit_mini wit_c (mkWell s (repeat wit_cov 3) (wit_holes 3)) (mkWell so [mzero; mzero] (wit_holes 2))).
Proof.
  intros un s so RS NS HO RO NO.
  set (cov := repeat wit_cov 3). set (off := mkWell so [mzero; mzero] (wit_holes 2)). set (w0 := mkWell s cov (wit_holes 3)).
  assert (PC : forall m, In m cov -> psd m). { intros m I. apply repeat_spec in I. subst. apply psd_wit. }
  pose proof wit_E as [E0 E1]. set (E := 7/2 * sqrt (9 + 1/4)) in *.
  (* the first run *)
  destruct (wit_run _ so HO RO NO w0 0 (mkSt 0 0 0) 0 wit_cov PC) as (r0 & q0 & v0 & G0 & _ & _ & B0 & _ & _ & _ & V0 & _ & F0);
    [unfold w0; cbn [w_survey]; rewrite RS; reflexivity|unfold w0; cbn [w_survey]; rewrite NS; reflexivity|reflexivity|reflexivity|].
  destruct (wit_run _ so HO RO NO w0 1 (mkSt 100 0 0) 100 wit_cov PC) as (r1 & q1 & v1 & G1 & Z1 & _ & _ & _ & B1 & C1 & V1 & _ & F1);
    [unfold w0; cbn [w_survey]; rewrite RS; reflexivity|unfold w0; cbn [w_survey]; rewrite NS; reflexivity|reflexivity|reflexivity|].
  destruct (wit_run _ so HO RO NO w0 2 (mkSt 200 0 0) 200 wit_cov PC) as (r2 & q2 & v2 & G2 & _ & _ & _ & B2 & _ & _ & V2 & _ & F2);
    [unfold w0; cbn [w_survey]; rewrite RS; reflexivity|unfold w0; cbn [w_survey]; rewrite NS; reflexivity|reflexivity|reflexivity|].
  rewrite (V0 eq_refl) in F0. rewrite (V1 eq_refl) in F1. rewrite (V2 eq_refl) in F2. fold E in F0, F1, F2. fold off in G0, G1, G2.
  rewrite wit_17 in C1. assert (Q1 : 17 <= q1) by (apply root_le; [exact Z1|]; simpl in B1; lra).
  set (run := clearance_run wit_opt wit_c w0 off) in *.
  assert (LRUN : length run = 3%nat) by (unfold run, clearance_run; rewrite map_length, seq_length; unfold w0; cbn [w_survey]; rewrite RS; reflexivity).
  assert (RUN : run = [Some r0; Some r1; Some r2]).
  { destruct run as [|x0 [|x1 [|x2 [|]]]]; try discriminate. simpl in G0, G1, G2. congruence. }
  set (sf := factors run) in *.
  assert (SF : sf = [ru_sf r0; ru_sf r1; ru_sf r2]) by (unfold sf; rewrite RUN; reflexivity).
  assert (DP : dips sf 1).
  { exists 0%nat, (ru_sf r0), (ru_sf r1), (ru_sf r2). rewrite SF. do 4 (split; [reflexivity|]). rewrite F0, F1, F2. simpl. split; apply div_lt_div; lra. }
  assert (ONE : forall i, dips sf i -> i = 1%nat).
  { intros i (j & a & b & c & -> & _ & _ & H & _). rewrite SF in H. destruct j as [|j]; auto. simpl in H. destruct j; discriminate. }
  (* the search *)
  set (ob := objective wit_opt wit_c w0 off sf 1 100 100).
  assert (OB : ob 15 = Fin ((8 - 0.6096) / E)).
  { unfold ob. unfold w0, cov, off. rewrite (wit_objective s so sf 1 RS NS RO NO eq_refl). f_equal. f_equal; [lra|]. unfold E. f_equal. f_equal.
    rewrite (Rmax_right 0 9) by lra. rewrite (Rmax_left 0 0) by lra. rewrite sqrt_0. replace (sqrt 9 ^ 2 + 0 ^ 2) with 9 by (rewrite pow2_sqrt by lra; ring). rewrite pow2_sqrt by lra. field. }
  assert (OZ : ob 0 = ru_sf r1). { unfold ob, objective. destruct (Req_EM_T 0 0); [|lra]. rewrite SF. reflexivity. }
  assert (MX : wit_mini ob (- (100)) 100 = 15).
  { unfold wit_mini. rewrite OB, OZ, F1. replace (elt _ _) with true.
    2: { symmetry. apply elt_lower. simpl. apply div_lt_div; lra. }
    destruct (Rle_dec (- (100)) 15); [|lra]. destruct (Rle_dec 15 100); [reflexivity|lra]. }
  apply depth_iff. exists 1%nat, (mkSt 0 0 0), (mkSt 100 0 0), (mkSt 200 0 0).
  split; [exact DP|]. unfold w0 at 1 2 3; cbn [w_survey]. rewrite RS. do 3 (split; [reflexivity|]). cbn zeta. cbn [st_md].
  fold run. fold sf. replace (100 - 0) with 100 by ring. replace (200 - 100) with 100 by ring. fold ob. rewrite MX.
  repeat split; lra.
Qed.
Lemma hidden_minimum :
  exists h rows sx sn s cov radius off opt mini c ref results,
    Survey h rows false sx sn "meters" = Some s /\
    strictly_increasing (map st_md (sv_rows s)) /\
    (forall i a b, nth_error (sv_rows s) i = Some a -> nth_error (sv_rows s) (S i) = Some b ->
       get_dogleg (st_inc a) (st_azi a) (st_inc b) (st_azi b) < PI) /\
    length cov = length (sv_rows s) /\ length radius = length (sv_rows s) /\
    never_worse opt /\ descends mini /\ 0 < c_k c /\ c_sigma_pa c <> 0 /\
    refined_run opt mini c (mkWell s cov radius) off = Some (ref, results) /\
    (forall r, In r results -> exists f, factor r = Fin f /\ 1 < f) /\
    exists j a p o rc oc rr ro r v,
      nth_error (sv_interpolated (w_survey ref)) j = Some true /\ nth_error (sv_rows (w_survey ref)) j = Some a /\
      nth_error (sv_nev (w_survey ref)) j = Some p /\ nth_error (w_radius ref) j = Some rr /\
      (forall x, In x cov -> x = rc) /\ (forall x, In x (w_cov off) -> x = oc) /\ (forall x, In x (w_radius off) -> x = ro) /\
      psd rc /\ psd oc /\ In o (sv_nev (w_survey off)) /\
      iscwsa_rule (c_k c) (c_sigma_pa c) (c_Sm c) rr ro (st_inc a) (st_azi a) p o rc oc = Some r /\
      ru_sf r = Fin v /\ v < 1.
Proof.
  destruct (wit_ref "meters" (or_introl eq_refl)) as (s & HS & RS & NS). destruct (wit_off "meters" (or_introl eq_refl)) as (so & HO & RO & NO).
  set (cov := repeat wit_cov 3). set (off := mkWell so [mzero; mzero] (wit_holes 2)). set (w0 := mkWell s cov (wit_holes 3)).
  assert (SI : strictly_increasing (map st_md (sv_rows s))) by (rewrite RS; simpl; repeat constructor; lra).
  assert (BO : forall i a b, nth_error (sv_rows s) i = Some a -> nth_error (sv_rows s) (S i) = Some b ->
       get_dogleg (st_inc a) (st_azi a) (st_inc b) (st_azi b) < PI).
  { assert (D : get_dogleg 0 0 0 0 < PI). { replace (get_dogleg 0 0 0 0) with 0; [apply PI_RGT_0|]. symmetry. apply dogleg_0_iff. reflexivity. }
    rewrite RS. intros [|[|[|i]]] a b A B; simpl in *; try discriminate; injection A as <-; injection B as <-; exact D. }
  assert (LC : length cov = length (sv_rows s)) by (rewrite RS; reflexivity).
  assert (LR : length (wit_holes 3) = length (sv_rows s)) by (rewrite RS; reflexivity).
  assert (PC : forall m, In m cov -> psd m). { intros m I. apply repeat_spec in I. subst. apply psd_wit. }
  assert (K : 0 < c_k wit_c) by (simpl; lra). assert (SP : c_sigma_pa wit_c <> 0) by (simpl; lra).
  destruct (refined_reference _ _ _ _ _ _ cov (wit_holes 3) off wit_opt wit_mini wit_c HS SI BO LC LR wit_mini_ok) as
    (ref & results & RR & L1 & L2 & L3 & L4 & L5 & U1 & U2 & U3 & U4 & SI' & _ & CNT & ALL & FL).
  destruct (refined_results _ _ _ _ _ _ cov (wit_holes 3) off wit_opt wit_mini wit_c ref results HS SI BO LC LR wit_mini_ok K RR) as [UR _].
  fold w0 in ALL, FL. pose proof wit_E as [E0 E1]. set (E := 7/2 * sqrt (9 + 1/4)) in *.
  (* the first run *)
  destruct (wit_run _ so HO RO NO w0 0 (mkSt 0 0 0) 0 wit_cov PC) as (r0 & q0 & v0 & G0 & _ & _ & B0 & _ & _ & _ & V0 & _ & F0);
    [unfold w0; cbn [w_survey]; rewrite RS; reflexivity|unfold w0; cbn [w_survey]; rewrite NS; reflexivity|reflexivity|reflexivity|].
  destruct (wit_run _ so HO RO NO w0 1 (mkSt 100 0 0) 100 wit_cov PC) as (r1 & q1 & v1 & G1 & Z1 & _ & _ & _ & B1 & C1 & V1 & _ & F1);
    [unfold w0; cbn [w_survey]; rewrite RS; reflexivity|unfold w0; cbn [w_survey]; rewrite NS; reflexivity|reflexivity|reflexivity|].
  destruct (wit_run _ so HO RO NO w0 2 (mkSt 200 0 0) 200 wit_cov PC) as (r2 & q2 & v2 & G2 & _ & _ & _ & B2 & _ & _ & V2 & _ & F2);
    [unfold w0; cbn [w_survey]; rewrite RS; reflexivity|unfold w0; cbn [w_survey]; rewrite NS; reflexivity|reflexivity|reflexivity|].
  rewrite (V0 eq_refl) in F0. rewrite (V1 eq_refl) in F1. rewrite (V2 eq_refl) in F2. fold E in F0, F1, F2. fold off in G0, G1, G2.
  rewrite wit_17 in C1. assert (Q1 : 17 <= q1) by (apply root_le; [exact Z1|]; simpl in B1; lra).
  set (run := clearance_run wit_opt wit_c w0 off) in *.
  assert (LRUN : length run = 3%nat) by (unfold run, clearance_run; rewrite map_length, seq_length; unfold w0; cbn [w_survey]; rewrite RS; reflexivity).
  assert (RUN : run = [Some r0; Some r1; Some r2]).
  { destruct run as [|x0 [|x1 [|x2 [|]]]]; try discriminate. simpl in G0, G1, G2. congruence. }
  set (sf := factors run) in *.
  assert (SF : sf = [ru_sf r0; ru_sf r1; ru_sf r2]) by (unfold sf; rewrite RUN; reflexivity).
  assert (DP : dips sf 1).
  { exists 0%nat, (ru_sf r0), (ru_sf r1), (ru_sf r2). rewrite SF. do 4 (split; [reflexivity|]). rewrite F0, F1, F2. simpl. split; apply div_lt_div; lra. }
  assert (ONE : forall i, dips sf i -> i = 1%nat).
  { intros i (j & a & b & c & -> & _ & _ & H & _). rewrite SF in H. destruct j as [|j]; auto. simpl in H. destruct j; discriminate. }
  (* the search *)
  set (ob := objective wit_opt wit_c w0 off sf 1 100 100).
  assert (OB : ob 15 = Fin ((8 - 0.6096) / E)).
  { unfold ob. unfold w0, cov, off. rewrite (wit_objective s so sf 1 RS NS RO NO eq_refl). f_equal. f_equal; [lra|]. unfold E. f_equal. f_equal.
    rewrite (Rmax_right 0 9) by lra. rewrite (Rmax_left 0 0) by lra. rewrite sqrt_0. replace (sqrt 9 ^ 2 + 0 ^ 2) with 9 by (rewrite pow2_sqrt by lra; ring). rewrite pow2_sqrt by lra. field. }
  assert (OZ : ob 0 = ru_sf r1). { unfold ob, objective. destruct (Req_EM_T 0 0); [|lra]. rewrite SF. reflexivity. }
  assert (MX : wit_mini ob (- (100)) 100 = 15).
  { unfold wit_mini. rewrite OB, OZ, F1. replace (elt _ _) with true.
    2: { symmetry. apply elt_lower. simpl. apply div_lt_div; lra. }
    destruct (Rle_dec (- (100)) 15); [|lra]. destruct (Rle_dec 15 100); [reflexivity|lra]. }
  destruct (ALL 1%nat (mkSt 0 0 0) (mkSt 100 0 0) (mkSt 200 0 0) DP) as (j & a & A & AM & FJ); [rewrite RS; reflexivity|rewrite RS; reflexivity|rewrite RS; reflexivity| | | |].
  1-3: cbn [st_md]; replace (100 - 0) with 100 by ring; replace (200 - 100) with 100 by ring; fold ob; rewrite MX; lra.
  cbn [st_md] in AM. replace (100 - 0) with 100 in AM by ring. replace (200 - 100) with 100 in AM by ring. fold ob in AM. rewrite MX in AM.
  (* every added station *)
  assert (ADD : forall i, nth_error (sv_interpolated (w_survey ref)) i = Some true ->
     exists b rr, nth_error (sv_rows (w_survey ref)) i = Some b /\ nth_error (sv_nev (w_survey ref)) i = Some (mkV 0 0 115) /\
       nth_error (w_cov ref) i = Some mzero /\ nth_error (w_radius ref) i = Some rr /\ rr = 0.3048).
  { intros i FI. destruct (FL i FI) as (b & p & rr & i' & u & v & w & n & h' & k & z & B & P & C & RD & DI & U & V & W & _ & MD & LK & _ & NP & _ & _ & _ & RK & _).
    rewrite (ONE i' DI) in *. rewrite RS in U, V, W. simpl in U, V, W. injection U as <-. injection V as <-. injection W as <-.
    cbn [st_md] in MD. replace (100 - 0) with 100 in MD by ring. replace (200 - 100) with 100 in MD by ring. fold ob in MD. rewrite MX in MD.
    destruct (placed_lookup s vzero vzero 1 (mkSt 100 0 0) (mkSt 200 0 0) (mkV 0 0 100) (st_md b) (placed_survey _ _ _ _ _ _ HS) SI) as (n' & LK' & _ & NP' & _);
      [rewrite RS; reflexivity|rewrite RS; reflexivity|rewrite NS; reflexivity|cbn [st_md]; lra|].
    rewrite LK in LK'. injection LK' as <- _. exists b, rr. split; auto. split; [|split; auto; split; auto].
    - rewrite P. f_equal. rewrite <- NP, NP'. cbn [st_md]. rewrite straight_interp, down, MD. unf. apply V3_eq; simpl; ring.
    - apply nth_error_In, repeat_spec in RK. exact RK. }
  assert (PC' : forall m, In m (w_cov ref) -> psd m).
  { intros m I. destruct (In_nth_error _ _ I) as [i N]. destruct (nth_error_some_lt _ (sv_interpolated (w_survey ref)) i) as [f F].
    { rewrite L1, <- L3. apply nth_error_Some. congruence. }
    destruct f.
    - destruct (ADD i F) as (_ & _ & _ & _ & C & _). rewrite N in C. injection C as ->. intro v. rewrite qform_mzero. lra.
    - apply PC. rewrite <- U3. eapply unmarked_in; eauto. }
  assert (RES : results = clearance_run wit_opt wit_c ref off).
  { unfold refined_run in RR. destruct (minimum_depths wit_opt wit_mini wit_c (mkWell s cov (wit_holes 3)) off) as [|y l].
    - injection RR as <- <-. reflexivity.
    - destruct (add_stations (mkWell s cov (wit_holes 3)) (y :: l)); [|discriminate]. injection RR as <- <-. reflexivity. }
  exists (wit_h "meters"), [(0, 0, 0); (100, 0, 0); (200, 0, 0)], vzero, vzero, s, cov, (wit_holes 3), off, wit_opt, wit_mini, wit_c, ref, results.
  split; auto. split; auto. split; auto. split; auto. split; auto. split; [exact wit_opt_ok|]. split; [exact wit_mini_ok|]. split; auto. split; auto. split; auto.
  split.
  - intros r I. destruct (In_nth_error _ _ I) as [i N]. destruct (nth_error_some_lt _ (sv_interpolated (w_survey ref)) i) as [f F].
    { rewrite L1, <- L5. apply nth_error_Some. congruence. }
    destruct f.
    + destruct (ADD i F) as (b & rr & B & P & C & RD & RV). rewrite RV in RD.
      destruct (wit_run _ so HO RO NO ref i b 115 mzero PC' B P C RD) as (r' & q & v & G & _ & Q8 & _ & _ & _ & _ & _ & VZ & SFR).
      rewrite RES in N. fold off in G. rewrite N in G. injection G as ->. exists ((q - 0.9096) / (7/2 * sqrt (v + 1/4))). split; [exact SFR|]. rewrite (VZ eq_refl).
      assert (S1 : 0 < sqrt (0 + 1/4)) by (apply sqrt_lt_R0; lra). assert (S2 : sqrt (0 + 1/4) < 1) by (rewrite <- sqrt_1 at 2; apply sqrt_lt_1_alt; lra).
      apply div_gt_1; lra.
    + assert (J : In r run) by (unfold run, w0; rewrite <- UR; eapply unmarked_in; eauto). rewrite RUN in J. destruct J as [<-|[<-|[<-|[]]]]; simpl factor; [rewrite F0|rewrite F1|rewrite F2]; (eexists; split; [reflexivity|apply div_gt_1; lra]).
  - destruct (ADD j FJ) as (b & rr & B & P & C & RD & RV). rewrite A in B. injection B as <-.
    destruct (rule_of_psd (7/2) (1/2) (3/10) rr 0.3048 (st_inc a) (st_azi a) (mkV 0 0 115) (mkV 8 0 115) wit_cov mzero) as (r & RU & _ & _ & PCR & _ & _ & _ & SFR); [lra|lra|exact psd_wit|intro v; rewrite qform_mzero; lra|].
    destruct PCR as (u & (UU & _) & P1 & P2). { intro X. injection X as X. lra. }
    unfold is_unit in UU. rewrite qform_wit, UU in P1. rewrite qform_mzero in P2. rewrite P1, P2 in SFR.
    exists j, a, (mkV 0 0 115), (mkV 8 0 115), wit_cov, mzero, rr, 0.3048, r, ((dist (mkV 0 0 115) (mkV 8 0 115) - (rr + 0.3048 + 3/10)) / (7/2 * sqrt (9 * 1 + 0 + 1/2 * (1/2)))).
    do 4 (split; auto). split; [intros x X; apply repeat_spec in X; auto|]. split; [intros x [<-|[<-|[]]]; auto|]. split; [intros x X; apply repeat_spec in X; auto|].
    split; [exact psd_wit|]. split; [intro v; rewrite qform_mzero; lra|]. split; [unfold off; cbn [w_survey]; rewrite NO; left; reflexivity|]. split; auto. split; auto.
    replace (9 * 1 + 0 + 1/2 * (1/2)) with (9 + 1/4) by field. fold E. rewrite RV.
    assert (E8 : 8.9 < E). { unfold E. assert (3 < sqrt (9 + 1/4)); [|lra]. rewrite <- (sqrt_square 3) at 1 by lra. apply sqrt_lt_1_alt. lra. }
    assert (D8 : dist (mkV 0 0 115) (mkV 8 0 115) <= 8). { apply root_le; [lra|]. rewrite dist_sq. lra. }
    apply div_lt_1; lra.
Qed.
