(** The rows of the weight functions, stated for the functions called by name. *)
Require Import Reals ZArith Lra Psatz Lia Bool String List.
Require Import Verif.Base Verif.NumPy Verif.M_Utils Verif.M_Error Verif.Spec Verif.Spec_Error Verif.M_Weights Verif.Spec_Weights.
Require Import Verif.P_Error Verif.P_Error2 Verif.P_Weights Verif.P_Weights2 Verif.P_Weights3 Verif.P_Weights4
  Verif.P_Weights5 Verif.P_Weights6 Verif.P_Weights7 Verif.P_Weights8 Verif.P_Weights9 Verif.P_Weights10 Verif.P_Weights11
  Verif.P_Weights12 Verif.P_Weights13 Verif.P_Weights14.
Import ListNotations.
Local Open Scope R_scope.

Lemma fn_xym3_rows : forall az t rev4 h l code mag p e, call_func az t rev4 h l code "XYM3" mag p = Made e ->
  forall k a b, nth_error l k = Some a -> nth_error l (S k) = Some b -> vertical h b ->
  (forall c, nth_error l (S (S k)) = Some c ->
     nth_error (er_e_NEV e) (S k) = Some (mkV (1/2 * (w_md c - w_md a) * mag) 0 0) /\
     nth_error (er_e_NEV_star e) (S k) = Some (mkV (1/2 * (w_md b - w_md a) * mag) 0 0)) /\
  (nth_error l (S (S k)) = None -> nth_error (er_e_NEV_star e) (S k) = Some vzero).
Proof. intros az t. exact (xym3_rows ). Qed.
Lemma fn_xym4_rows : forall az t rev4 h l code mag p e, call_func az t rev4 h l code "XYM4" mag p = Made e ->
  forall k a b, nth_error l k = Some a -> nth_error l (S k) = Some b -> vertical h b ->
  (forall c, nth_error l (S (S k)) = Some c ->
     nth_error (er_e_NEV e) (S k) = Some (mkV 0 (1/2 * (w_md c - w_md a) * mag) 0) /\
     nth_error (er_e_NEV_star e) (S k) = Some (mkV 0 (1/2 * (w_md b - w_md a) * mag) 0)) /\
  (nth_error l (S (S k)) = None -> nth_error (er_e_NEV_star e) (S k) = Some vzero).
Proof. intros az t. exact (xym4_rows ). Qed.
Lemma fn_xym3_near : forall az t rev4 h l code mag p e, call_func az t rev4 h l code "XYM3" mag p = Made e ->
  forall k a b c, nth_error l k = Some a -> nth_error l (S k) = Some b -> nth_error l (S (S k)) = Some c ->
  ~ vertical h b -> 0 < sin (w_inc b) -> 0 < cos (w_inc b) -> (rev4 = true \/ (1 <= k)%nat) ->
  let m := 1/2 * (w_md c - w_md a) * mag in
  exists row, nth_error (er_e_NEV e) (S k) = Some row /\
    gap2 row (mkV m 0 0) <= (m * sin (w_inc b)) ^ 2.
Proof. intros az t. exact (xym3_near ). Qed.
Lemma fn_xym4_near : forall az t rev4 h l code mag p e, call_func az t rev4 h l code "XYM4" mag p = Made e ->
  forall k a b c, nth_error l k = Some a -> nth_error l (S k) = Some b -> nth_error l (S (S k)) = Some c ->
  ~ vertical h b -> 0 < sin (w_inc b) -> 0 < cos (w_inc b) -> (rev4 = true \/ (1 <= k)%nat) ->
  let m := 1/2 * (w_md c - w_md a) * mag in
  exists row, nth_error (er_e_NEV e) (S k) = Some row /\
    gap2 row (mkV 0 m 0) <= (m * sin (w_inc b)) ^ 2.
Proof. intros az t. exact (xym4_near ). Qed.
Lemma fn_xym3e_vertical : forall az t rev4 h l code mag p e, call_func az t rev4 h l code "XYM3E" mag p = Made e ->
  forall k a b c, nth_error l k = Some a -> nth_error l (S k) = Some b -> nth_error l (S (S k)) = Some c ->
  vertical h b -> w_inc b = 0 -> (rev4 = true \/ (1 <= k)%nat) ->
  let f := Rmax 1 (sqrt (10 / (w_md b - w_md a))) * (cos (w_azt b) * Rabs (cos (w_azt b))) in
  nth_error (er_e_NEV e) (S k) = Some (mkV (1/2 * (w_md c - w_md a) * mag * f) 0 0) /\
  nth_error (er_e_NEV_star e) (S k) = Some (mkV (1/2 * (w_md b - w_md a) * mag * f) 0 0).
Proof. intros az t. exact (xym3e_vertical ). Qed.
Lemma fn_xym4e_vertical : forall az t rev4 h l code mag p e, call_func az t rev4 h l code "XYM4E" mag p = Made e ->
  forall k a b c, nth_error l k = Some a -> nth_error l (S k) = Some b -> nth_error l (S (S k)) = Some c ->
  vertical h b -> w_inc b = 0 -> (rev4 = true \/ (1 <= k)%nat) ->
  let f := Rmax 1 (sqrt (10 / (w_md b - w_md a))) * (cos (w_azt b) * Rabs (cos (w_azt b))) in
  nth_error (er_e_NEV e) (S k) = Some (mkV 0 (1/2 * (w_md c - w_md a) * mag * f) 0) /\
  nth_error (er_e_NEV_star e) (S k) = Some (mkV 0 (1/2 * (w_md b - w_md a) * mag * f) 0).
Proof. intros az t. exact (xym4e_vertical ). Qed.
Lemma fn_abxy_ti2_rows : forall az t rev4 h l code mag p e, call_func az t rev4 h l code "ABXY_TI2" mag p = Made e -> sensible h ->
  forall k a b c, nth_error l k = Some a -> nth_error l (S k) = Some b -> nth_error l (S (S k)) = Some c ->
  (rev4 = true \/ (1 <= k)%nat) -> (~ vertical h b -> 0 < sin (w_inc b)) ->
  exists f, (vertical h b -> f = 1) /\
    (~ vertical h b -> f = cos (w_inc b) - tan (h_dip h) * cos (w_azm b) * sin (w_inc b)) /\
    nth_error (er_e_NEV e) (S k) = Some (vscale (1/2 * (w_md c - w_md a) * (mag / h_G h) * f) (right_side b)) /\
    nth_error (er_e_NEV_star e) (S k) = Some (vscale (1/2 * (w_md b - w_md a) * (mag / h_G h) * f) (right_side b)).
Proof. intros az t. exact (abxy_ti2_rows ). Qed.
Lemma fn_abixy_ti2_rows : forall az t rev4 h l code mag p e, call_func az t rev4 h l code "ABIXY_TI2" mag p = Made e -> sensible h ->
  forall k a b c, nth_error l k = Some a -> nth_error l (S k) = Some b -> nth_error l (S (S k)) = Some c ->
  (1 <= k)%nat -> (~ vertical h b -> 0 < sin (w_inc b)) -> ~ level_east_west b ->
  exists f, (vertical h b -> f = 1) /\
    (~ vertical h b -> f = (cos (w_inc b) - tan (h_dip h) * cos (w_azm b) * sin (w_inc b))
                           / (1 - sin (w_inc b) ^ 2 * sin (w_azm b) ^ 2)) /\
    nth_error (er_e_NEV e) (S k) = Some (vscale (1/2 * (w_md c - w_md a) * (mag / h_G h) * f) (right_side b)) /\
    nth_error (er_e_NEV_star e) (S k) = Some (vscale (1/2 * (w_md b - w_md a) * (mag / h_G h) * f) (right_side b)).
Proof. intros az t. exact (abixy_ti2_rows ). Qed.
Lemma fn_xym3l_rows : forall az t rev4 h l code mag p e, call_func az t rev4 h l code "XYM3L" mag p = Made e ->
  long_rows northward 1 h l mag e.
Proof. intros az t. exact (xym3l_rows ). Qed.
Lemma fn_xym4l_rows : forall az t rev4 h l code mag p e, call_func az t rev4 h l code "XYM4L" mag p = Made e ->
  long_rows eastward 0 h l mag e.
Proof. intros az t. exact (xym4l_rows ). Qed.
Lemma fn_xclh_rows : forall az t rev4 h l code mag p e, call_func az t rev4 h l code "XCLH" mag p = Made e ->
  forall k a b, nth_error l k = Some a -> nth_error l (S k) = Some b ->
    let v := vscale (mag * ((w_md b - w_md a) * Rmax (Rabs (w_inc b - w_inc a)) (t * (w_md b - w_md a)))) (high_side b) in
    nth_error (er_e_NEV e) (S k) = Some v /\ nth_error (er_e_NEV_star e) (S k) = Some v.
Proof. intros az t. exact (xclh_rows t). Qed.
Lemma fn_xcla_rows : forall az t rev4 h l code mag p e, call_func az t rev4 h l code "XCLA" mag p = Made e ->
  forall k a b, nth_error l k = Some a -> nth_error l (S k) = Some b ->
  exists turn, (vertical h a -> turn = 0) /\
    (~ vertical h a -> turn = Rabs (sin (w_inc b) * sin (w_azt b - w_azt a))) /\
    nth_error (er_e_NEV e) (S k) = Some (vscale (mag * ((w_md b - w_md a) * Rmax turn (t * (w_md b - w_md a)))) (right_side b)) /\
    nth_error (er_e_NEV_star e) (S k) = Some (vscale (mag * ((w_md b - w_md a) * Rmax turn (t * (w_md b - w_md a)))) (right_side b)).
Proof. intros az t. exact (xcla_rows t). Qed.
Lemma fn_cna_rows : forall az t rev4 h l code mag p e, call_func az t rev4 h l code "CNA" mag p = Made e ->
  forall k a b c, nth_error l k = Some a -> nth_error l (S k) = Some b -> nth_error l (S (S k)) = Some c ->
  ((vertical h b -> exists azi, ((az = "true"%string /\ azi = w_azt b) \/ (az = "grid"%string /\ azi = w_azg b)) /\
     nth_error (er_e_NEV e) (S k) = Some (vscale (1/2 * (w_md c - w_md a) * mag) (mkV (- sin azi) (cos azi) 0)) /\
     nth_error (er_e_NEV_star e) (S k) = Some (vscale (1/2 * (w_md b - w_md a) * mag) (mkV (- sin azi) (cos azi) 0))) /\
   (~ vertical h b -> 0 < sin (w_inc b) -> (rev4 = true \/ (1 <= k)%nat) ->
     nth_error (er_e_NEV e) (S k) = Some (vscale (1/2 * (w_md c - w_md a) * mag) (right_side b)) /\
     nth_error (er_e_NEV_star e) (S k) = Some (vscale (1/2 * (w_md b - w_md a) * mag) (right_side b)))).
Proof. intros az t. exact (cna_rows az). Qed.
Lemma fn_e_vertical_refuted : forall az t rev4 h l code mag p e e', 
  call_func az t rev4 h l code "XYM3E" mag p = Made e -> call_func az t rev4 h l code "XYM4E" mag p = Made e' ->
  forall k a b c, nth_error l k = Some a -> nth_error l (S k) = Some b -> nth_error l (S (S k)) = Some c ->
  vertical h b -> w_inc b = 0 -> cos (w_azt b) = 0 -> (rev4 = true \/ (1 <= k)%nat) ->
  nth_error (er_e_NEV e) (S k) = Some vzero /\ nth_error (er_e_NEV_star e) (S k) = Some vzero /\
  nth_error (er_e_NEV e') (S k) = Some vzero /\ nth_error (er_e_NEV_star e') (S k) = Some vzero.
Proof. intros az t. exact (e_vertical_refuted ). Qed.
Lemma fn_xym_causal : forall func az t rev4 h l m code mag p e e', func = "XYM3"%string \/ func = "XYM4"%string ->
  call_func az t rev4 h l code func mag p = Made e -> call_func az t rev4 h (l ++ m) code func mag p = Made e' ->
  (2 <= length l)%nat ->
  (forall s, nth_error l (length l - 1) = Some s -> ~ vertical h s) ->
  forall k, (k < length l)%nat -> nth_error (er_cov_NEV e) k = nth_error (er_cov_NEV e') k.
Proof.
  intros func az t rev4 h l m code mag p e e' [E|E] H H'; subst func.
  - exact (xym_causal XYM3 rev4 h l m code mag p e e' (or_introl eq_refl) H H').
  - exact (xym_causal XYM4 rev4 h l m code mag p e e' (or_intror eq_refl) H H').
Qed.
Lemma fn_xym_end_refuted :
  exists e e', call_func "true" 0 true plumb [hanging 0; hanging 100] "XYM3" "XYM3" 1 "systematic" = Made e /\
    call_func "true" 0 true plumb [hanging 0; hanging 100; hanging 200] "XYM3" "XYM3" 1 "systematic" = Made e' /\
    nth_error (er_cov_NEV e) 1 = Some mzero /\
    nth_error (er_cov_NEV e') 1 = Some (outer (mkV 50 0 0) (mkV 50 0 0)).
Proof. exact xym_end_refuted. Qed.
Lemma fn_ab_first_row : forall az t rev4 h l code func mag p e,
  call_func az t rev4 h l code func mag p = Made e ->
  func = "ABIXY_TI2"%string \/ (func = "ABXY_TI2"%string /\ rev4 = false) ->
  forall a b c, nth_error l 0 = Some a -> nth_error l 1 = Some b -> nth_error l 2 = Some c -> vertical h b ->
  nth_error (er_e_NEV e) 1 = Some (mkV (- (1/2 * (w_md c - w_md a) * (mag / h_G h) * sin (w_azt b)))
     (1/2 * ((w_md c - w_md a) + (w_md b - w_md a)) * (mag / h_G h) * cos (w_azt b)) 0) /\
  nth_error (er_e_NEV_star e) 1 = Some (mkV (- (1/2 * (w_md b - w_md a) * (mag / h_G h) * sin (w_azt b)))
     ((w_md b - w_md a) * (mag / h_G h) * cos (w_azt b)) 0).
Proof.
  intros az t rev4 h l code func mag p e H F.
  assert (X : exists w, ab_error w true rev4 h l code mag p = Made e).
  { destruct F as [E|[E E']]; [subst func|subst func rev4]; eexists; exact H. }
  destruct X as [w X]. exact (ab_first_row w rev4 h l code mag p e X).
Qed.
Lemma sides_orthonormal : forall s, across s (high_side s) /\ across s (right_side s) /\ dot (high_side s) (right_side s) = 0 /\
  dot (high_side s) (high_side s) = 1 /\ dot (right_side s) (right_side s) = 1.
Proof.
  intro s. unfold across, dot, tool_axis, high_side, right_side. cbn [vx vy vz].
  pose proof (sin2_cos2 (w_inc s)) as P. pose proof (sin2_cos2 (w_azt s)) as Q. unfold Rsqr in *.
  set (si := sin (w_inc s)) in *. set (ci := cos (w_inc s)) in *. set (sa := sin (w_azt s)) in *. set (ca := cos (w_azt s)) in *.
  clearbody si ci sa ca. assert (P' : ci * ci = 1 - si * si) by lra. assert (Q' : ca * ca = 1 - sa * sa) by lra.
  repeat split; ring [P' Q'].
Qed.
Lemma abiz_case_refuted : exists h s, sensible h /\ 0 < sin (w_inc s) /\ ~ level_east_west s /\
  forall tf w, gives "ABIZ" h s w -> ~ corrected_response (tool_at h s tf) (h_btotal h) (h_dip h) ez_ 0 0 0 0 w.
Proof.
  set (h := mkHeader 9.8 50000 (PI / 4) (1/10000)). set (s := mkWS 0 (PI/4) (PI/2) (PI/2) (PI/2) 0).
  assert (C4 : 0 < cos (PI / 4)) by (apply cos_gt_0; pose proof PI_RGT_0; lra).
  assert (S4 : 0 < sin (PI / 4)) by (apply sin_gt_0; pose proof PI_RGT_0; lra).
  assert (SS : sin (PI / 4) * sin (PI / 4) = 1 / 2).
  { assert (sin (PI/4) = cos (PI/4)) by apply sin_cos_PI4. pose proof (sin2_cos2 (PI / 4)) as Q. unfold Rsqr in Q. rewrite <- H in Q. lra. }
  assert (SE : sensible h) by (unfold sensible, h; cbn; lra).
  exists h, s. split; [exact SE|]. split; [exact S4|]. split; [intros [A _]; cbn in A; lra|].
  intros tf w G R. apply (fn_abiz_iff h s tf w) in R; auto.
  - destruct R as [R|R]; unfold h, s in R; cbn in R; [lra|].
    rewrite sin_PI2, cos_PI2 in R. assert (T : 0 < tan (PI / 4)) by (rewrite tan_PI4; lra).
    assert (0 < cos (PI / 4) * 1 * (tan (PI / 4) * cos (PI / 4) + sin (PI / 4) * 0)).
    { rewrite Rmult_1_r, Rmult_0_r, Rplus_0_r. apply Rmult_lt_0_compat; auto. apply Rmult_lt_0_compat; auto. }
    lra.
  - unfold h, s. cbn. rewrite sin_PI2. rewrite !Rmult_1_r, SS. lra.
Qed.

(** ** Concrete cases *)
Lemma misalignment_exists : forall h s d, 0 < sin (w_inc s) -> ~ vertical h s -> 0 < d ->
  (exists w1 w2 w3 w4, gives "XYM1" h s w1 /\ gives "XYM2" h s w2 /\ gives "XYM3" h s w3 /\ gives "XYM4" h s w4) /\
  (exists w3 w4, gives_after "XYM3L" h d s w3 /\ gives_after "XYM4L" h d s w4) /\
  (exists w3 w4, gives_after "XYM3E" h d s w3 /\ gives_after "XYM4E" h d s w4) /\
  (forall w, exists v, tilts s w v).
Proof.
  intros h s d S V D. split; [|split; [|split]].
  - eexists _, _, _, _. split; [apply (gives_simple _ w_XYM1); reflexivity|]. split; [apply gives_xym2|].
    split; [apply gives_xym3; reflexivity|apply gives_xym4; reflexivity].
  - eexists _, _. split; [apply gives_xym3l; auto; reflexivity|apply gives_xym4l; auto; reflexivity].
  - destruct (w_XYM3E h s (Rmax 1 (sqrt (10 / d)))) eqn:E3.
    + eexists _, _. split; [apply gives_xym3e; eauto|apply gives_xym4e; auto; reflexivity].
    + exfalso. unfold w_XYM3E, is_sing in E3. destruct (Rlt_dec _ _) as [L|L]; [discriminate|].
      rewrite fdiv_ne in E3 by lra. discriminate.
  - intro w. exists (tilt_of s w). apply tilts_intro.
Qed.
Lemma slanted_sensible : sensible (mkHeader 9.8 50000 1 (1/10000)).
Proof.
  unfold sensible. cbn. split; [lra|]. split; [lra|]. apply cos_gt_0; pose proof PI_RGT_0; pose proof PI2_1; lra.
Qed.
Lemma scale_rates_exist : forall h s, sensible h -> 0 < sin (w_inc s) ->
  exists wx wy, forall tf,
    response (tool_at h s tf) (only_x (acc_reading (tool_at h s tf))) vzero (wx tf) /\
    response (tool_at h s tf) (only_y (acc_reading (tool_at h s tf))) vzero (wy tf).
Proof.
  intros h s Hh Hi. destruct (fn_abxy h s 0 Hh Hi) as (w1 & w2 & G1 & G2 & _).
  exists (fun tf => vscale (- h_G h * sin (w_inc s) * sin tf) (vadd (vscale (sin tf) w1) (vscale (cos tf) w2))),
         (fun tf => vscale (- h_G h * sin (w_inc s) * cos tf) (vsub (vscale (cos tf) w1) (vscale (sin tf) w2))).
  intro tf. destruct (fn_abxy h s tf Hh Hi) as (u1 & u2 & F1 & F2 & A & B).
  rewrite (gives_unique _ _ _ _ _ F1 G1), (gives_unique _ _ _ _ _ F2 G2) in A, B.
  pose proof (sensible_b h Hh) as Bp. destruct Hh as (G & _ & _).
  assert (Z : forall k, vzero = vscale k vzero) by (intro; unfold vscale, vzero; cbn; f_equal; ring).
  split.
  - rewrite (Z (- h_G h * sin (w_inc s) * sin tf)).
    replace (only_x (acc_reading (tool_at h s tf))) with (vscale (- h_G h * sin (w_inc s) * sin tf) ex_)
      by (unfold only_x, acc_reading, tool_at, ex_, vscale; cbn; f_equal; ring).
    apply response_scale; cbn; auto.
  - rewrite (Z (- h_G h * sin (w_inc s) * cos tf)).
    replace (only_y (acc_reading (tool_at h s tf))) with (vscale (- h_G h * sin (w_inc s) * cos tf) ey_)
      by (unfold only_y, acc_reading, tool_at, ey_, vscale; cbn; f_equal; ring).
    apply response_scale; cbn; auto.
Qed.
Lemma yaml_iff : forall az tort mi rev4 h l codes,
  (exists t, yaml_tool_error az tort mi rev4 h l codes = Totals t) <->
  (forall m, mi = Some m -> forall s, In s l -> w_inc s < m) /\
  forall c, In c codes ->
    exists e, call_func az tort rev4 h l (c_name c) (c_function c) (c_magnitude c) (c_propagation c) = Made e.
Proof.
  intros az tort mi rev4 h l codes. split.
  - intros [t H]. unfold yaml_tool_error in H.
    match type of H with (if ?b then _ else _) = _ => destruct b eqn:IC; [|discriminate] end. split.
    { intros m -> s Hs. rewrite forallb_forall in IC. specialize (IC s Hs). destruct (Rlt_dec (w_inc s) m); [auto|discriminate]. }
    intros c Hc. cbv zeta in H.
    match type of H with (if existsb fails ?x then _ else _) = _ => set (os := x) in * end.
    destruct (existsb fails os) eqn:EF; [discriminate|]. destruct (existsb not_finite os) eqn:EN; [discriminate|].
    assert (I : In (call_func az tort rev4 h l (c_name c) (c_function c) (c_magnitude c) (c_propagation c)) os)
      by (unfold os; apply in_map_iff; exists c; auto).
    destruct (call_func az tort rev4 h l (c_name c) (c_function c) (c_magnitude c) (c_propagation c)) as [e| | |]; eauto; exfalso.
    + assert (existsb fails os = true) by (apply existsb_exists; exists ReturnsNone; auto). congruence.
    + assert (existsb fails os = true) by (apply existsb_exists; exists Raises; auto). congruence.
    + assert (existsb not_finite os = true) by (apply existsb_exists; exists NotFinite; auto). congruence.
  - intros [M C]. unfold yaml_tool_error.
    assert (IC : match mi with None => true | Some m => forallb (fun s => if Rlt_dec (w_inc s) m then true else false) l end = true).
    { destruct mi as [m|]; auto. apply forallb_forall. intros s Hs. destruct (Rlt_dec (w_inc s) m) as [L|L]; auto. }
    rewrite IC. cbv zeta.
    match goal with |- exists t, (if existsb fails ?x then _ else _) = _ => set (os := x) in * end.
    assert (OK : forall o, In o os -> exists e, o = Made e).
    { intros o Ho. unfold os in Ho. apply in_map_iff in Ho. destruct Ho as (c & <- & Hc). auto. }
    assert (EF : existsb fails os = false).
    { destruct (existsb fails os) eqn:E; auto. apply existsb_exists in E. destruct E as (o & Ho & F). destruct (OK o Ho) as [e ->]. discriminate. }
    assert (EN : existsb not_finite os = false).
    { destruct (existsb not_finite os) eqn:E; auto. apply existsb_exists in E. destruct E as (o & Ho & F). destruct (OK o Ho) as [e ->]. discriminate. }
    rewrite EF, EN. destruct (tool_totals (length l) (map made os)) as [t|] eqn:T; [eauto|].
    exfalso. apply tool_none in T. apply in_map_iff in T. destruct T as (o & E & Ho). destruct (OK o Ho) as [e ->]. discriminate.
Qed.
