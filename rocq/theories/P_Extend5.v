(** extend_to_tvd: straight extension, missing data, and the connections for a
    target inclination. *)
Require Import Reals ZArith Bool String List Lra Lia Psatz.
Require Import Verif.Base Verif.NumPy Verif.Spec Verif.Spec_Rates Verif.M_Utils Verif.M_Connector Verif.M_Extend Verif.Spec_Extend.
Require Import Verif.P_Trig Verif.P_Utils Verif.P_Utils2 Verif.P_Survey Verif.P_Connector Verif.P_Connector3 Verif.P_Connector4 Verif.P_MaxCurve Verif.P_Rates3 Verif.P_Rates4 Verif.P_Extend Verif.P_Extend2 Verif.P_Extend3 Verif.P_Extend4.
Import ListNotations.
Open Scope R_scope.

Lemma abs_linear : forall a b x y, b <> 0 -> 0 <= x -> 0 <= y -> x = Rmax 0 (- a / b) -> Rabs (a + y * b) <= Rabs (a + x * b) -> y = x.
Proof.
  intros a b x y B X Y E H.
  assert (AB : forall z, Rabs (a + z * b) = Rabs b * Rabs (z - - a / b)).
  { intros z. rewrite <- Rabs_mult. f_equal. field. auto. }
  rewrite !AB in H. assert (0 < Rabs b) by (apply Rabs_pos_lt; auto). apply Rmult_le_reg_l in H; auto.
  unfold Rmax in E. destruct (Rle_dec 0 (- a / b)) as [G|G].
  - replace (x - - a / b) with 0 in H by lra. rewrite Rabs_R0 in H. pose proof (Rabs_pos (y - - a / b)).
    destruct (Req_dec (y - - a / b) 0) as [Z|Z]; [lra|]. apply Rabs_no_R0 in Z. lra.
  - subst x. rewrite (Rabs_right (y - - a / b)), (Rabs_right (0 - - a / b)) in H by lra. lra.
Qed.
Lemma abs_linear_min : forall a b x y, b <> 0 -> 0 <= y -> x = Rmax 0 (- a / b) -> Rabs (a + x * b) <= Rabs (a + y * b).
Proof.
  intros a b x y B Y E.
  assert (AB : forall z, Rabs (a + z * b) = Rabs b * Rabs (z - - a / b)).
  { intros z. rewrite <- Rabs_mult. f_equal. field. auto. }
  rewrite !AB. apply Rmult_le_compat_l; [apply Rabs_pos|]. unfold Rmax in E. destruct (Rle_dec 0 (- a / b)) as [G|G].
  - replace (x - - a / b) with 0 by lra. rewrite Rabs_R0. apply Rabs_pos.
  - subst x. rewrite (Rabs_right (y - - a / b)), (Rabs_right (0 - - a / b)) by lra. lra.
Qed.

Lemma extend_misfit_value : forall p u target y, extend_misfit p u target y = Some (Rabs (vz p - target + y * vz u)).
Proof. intros [] [] target y. unfold extend_misfit. cbn. do 2 f_equal. ring. Qed.

Lemma straight_answer : forall (mini1 : minimizer1) p u target x0, finds_best1 mini1 -> vz u <> 0 ->
  mini1 (extend_misfit p u target) x0 0 = Some (Rmax 0 ((target - vz p) / vz u)).
Proof.
  intros mini1 p u target x0 FB VU.
  assert (XM : Rmax 0 ((target - vz p) / vz u) = Rmax 0 (- (vz p - target) / vz u)) by (f_equal; field; auto).
  destruct (FB (extend_misfit p u target) x0 0) as (x & EX & X0 & v & EV & BV).
  - intros y _. rewrite extend_misfit_value. discriminate.
  - exists (Rmax 0 ((target - vz p) / vz u)). split; [apply Rmax_l|]. rewrite extend_misfit_value. eexists. split; [reflexivity|].
    intros y w Y E. rewrite extend_misfit_value in E. injection E as <-. apply abs_linear_min; auto.
  - rewrite EX. f_equal. apply (abs_linear (vz p - target) (vz u)); auto; [apply Rmax_l|].
    rewrite extend_misfit_value in EV. injection EV as <-.
    apply (BV (Rmax 0 ((target - vz p) / vz u))); [apply Rmax_l|]. apply extend_misfit_value.
Qed.

Lemma extend_straight : forall bump mini2 mini1 target k delta dls p u m, finds_best1 mini1 ->
  n_pos_nev k = Some p -> n_vec_nev k = Some u -> m = or_default (n_md k) 0 -> is_unit u -> vz u <> 0 ->
  (forall d, dls = Some d -> 0 < d) ->
  let x := (target - vz p) / vz u in let res := extend_to_tvd bump mini2 mini1 target (Some k) delta None dls in
  (0 < x -> exists c, res = ExtOk [c] /\ k_method c = Hold /\ k_pos1 c = p /\ k_vec1 c = u /\ k_md1 c = m /\
     k_pos_target c = vadd p (vscale x u) /\ vz (k_pos_target c) = target /\ k_vec_target c = u /\ k_md_target c = m + x) /\
  (x <= 0 -> dls = None -> res = ExtConnector ValueError_dls) /\
  (x <= 0 -> dls <> None -> exists c, res = ExtOk [c] /\ k_pos1 c = p /\ k_vec1 c = u /\ k_md1 c = m /\
     k_pos_target c = p /\ k_vec_target c = u /\ k_md_target c = m).
Proof.
  intros bump mini2 mini1 target k delta dls p u m FB HP HU HM U VU HD x res.
  assert (E : forall X, Rmax 0 x = X -> res = match connector bump (forced_args p (Some u) m dls (vadd p (vscale X u)) None) with
                                        | inr e => ExtConnector e | inl c => ExtOk [c] end).
  { intros X <-. unfold res, extend_to_tvd. cbv zeta. cbn [with_md n_pos_nev n_vec_nev]. rewrite HP, HU.
    rewrite (straight_answer mini1 p u target _ FB VU). unfold md_of. cbn [with_md n_md]. subst m. fold x. destruct (n_md k); reflexivity. }
  split; [|split].
  - intros X. rewrite (E x) by (apply Rmax_right; lra). rewrite forced_ahead by auto. eexists. split; [reflexivity|].
    cbn. do 5 (split; auto). split; [|split; auto; ring]. unfold x. field. auto.
  - intros X ->. rewrite (E 0) by (apply Rmax_left; lra).
    replace (vadd p (vscale 0 u)) with p by (rewrite vscale_0, vadd_0_r; auto).
    unfold connector. rewrite forced_check by auto. set (a := forced_args p (Some u) m None p None).
    assert (GM : get_method a = inl "min_curve"%string).
    { unfold get_method. change (initial_method a) with (Some "min_curve_or_hold"%string).
      cbn [String.eqb Ascii.eqb Bool.eqb orb]. change (ends_or_hold "min_curve_or_hold") with true. cbv iota.
      destruct (v3_eq_dec (target_vec a) (start_vec a)); [|reflexivity]. change (a_pos2 a) with (Some p). change (a_pos1 a) with p. cbv iota.
      replace (normalised (vsub p p)) with (@None V3); [reflexivity|].
      unfold normalised. replace (norm (vsub p p)) with 0; [destruct (Req_EM_T 0 0); [auto|lra]|].
      unfold norm. replace (dot (vsub p p) (vsub p p)) with 0 by (unf; ring). symmetry; apply sqrt_0. }
    rewrite GM. cbn [String.eqb Ascii.eqb Bool.eqb]. unfold do_min_curve.
    destruct (start_angles a), (target_angles' a). reflexivity.
  - intros X ND. destruct dls as [d|]; [|tauto]. rewrite (E 0) by (apply Rmax_left; lra).
    replace (vadd p (vscale 0 u)) with p by (rewrite vscale_0, vadd_0_r; auto).
    destruct (forced_still bump p u m d U (HD d eq_refl) None) as (c & EC & F); auto. rewrite EC. exists c. tauto.
Qed.

Lemma extend_missing : forall bump mini2 mini1 target n delta ti dls,
  match n with None => True | Some k => n_pos_nev k = None \/ n_vec_nev k = None end ->
  (n = None -> extend_to_tvd bump mini2 mini1 target n delta ti dls = ExtTypeError) /\
  (ti = None -> extend_to_tvd bump mini2 mini1 target n delta ti dls = ExtTypeError) /\
  forall cs, extend_to_tvd bump mini2 mini1 target n delta ti dls <> ExtOk cs.
Proof.
  intros bump mini2 mini1 target n delta ti dls H. split; [|split].
  - intros ->. unfold extend_to_tvd. cbv zeta. cbn. destruct ti; auto.
  - intros ->. unfold extend_to_tvd. cbv zeta. destruct n as [k|]; cbn; auto.
    destruct H as [-> | ->]; auto. destruct (n_pos_nev k); auto.
  - intros cs. unfold extend_to_tvd. cbv zeta. destruct n as [k|]; cbn [with_md n_pos_nev n_vec_nev empty_node].
    2: { destruct ti; discriminate. }
    destruct ti as [t|].
    + destruct (n_pos_nev k) as [p|] eqn:EP; [|discriminate]. destruct H as [H|H]; [discriminate|].
      destruct (mini1 _ _ _); [|discriminate]. destruct (drop_off _ _ _ _ _ _) as [| |l]; try discriminate.
      destruct l as [|n2 rr]; [discriminate|]. rewrite H. unfold connector.
      unfold check_args at 1. cbn [forced_args a_vec1 a_inc1 a_azi1 given negb orb andb]. discriminate.
    + destruct H as [-> | ->]; [discriminate|]. destruct (n_pos_nev k); discriminate.
Qed.

Lemma extend_curve : forall bump mini2 mini1 target k delta ti dls cs p u m inc azi, keeps_bounds mini2 ->
  n_pos_nev k = Some p -> n_vec_nev k = Some u -> m = or_default (n_md k) 0 -> bears u inc azi ->
  (forall d, dls = Some d -> 0 < d) ->
  extend_to_tvd bump mini2 mini1 target (Some k) delta (Some ti) dls = ExtOk cs ->
  let r := dls_radius (or_default dls (5 / 2)) in
  exists L t v p2, 0 <= t <= 2 * PI /\ (v = direction_nev (inc + t) azi \/ v = direction_nev (inc - t) azi) /\
    circular_arc p u (r * t) t p2 v /\ r * t <= L /\
    (t < PI ->
      exists c1, k_method c1 = MinCurve /\ k_pos1 c1 = p /\ k_vec1 c1 = u /\ k_md1 c1 = m /\
        k_pos_target c1 = p2 /\ k_vec_target c1 = v /\ k_md_target c1 = m + r * t /\
        ((cs = [c1] /\ L - r * t <= 1 / 100000) \/
         exists c2, cs = [c1; c2] /\ 1 / 100000 < L - r * t /\ k_method c2 = Hold /\
           k_pos1 c2 = p2 /\ k_vec1 c2 = v /\ k_md1 c2 = m + r * t /\
           k_pos_target c2 = vadd p2 (vscale (L - r * t) v) /\ k_vec_target c2 = v /\ k_md_target c2 = m + L)).
Proof.
  intros bump mini2 mini1 target k delta ti dls cs p u m inc azi KB HP HU HM B HD H r.
  unfold extend_to_tvd in H. cbv zeta in H. cbn [with_md n_pos_nev n_vec_nev] in H. rewrite HP, HU in H.
  assert (DE : match dls with Some d => d | None => 5 / 2 end = or_default dls (5 / 2)) by (destruct dls; auto).
  rewrite DE in H. set (d := or_default dls (5 / 2)) in *.
  assert (DP : 0 < d) by (unfold d; destruct dls as [x|]; cbn; [auto|lra]).
  destruct (mini1 _ _ _) as [L|]; [|discriminate].
  destruct (drop_off mini2 ti d (Some L) _ _) as [| |l] eqn:EL; try discriminate.
  assert (ST : starts (Some (with_md k)) p u m).
  { unfold starts. cbn [with_md n_pos_nev n_vec_nev n_md]. rewrite HP, HU. cbn. split; auto. split; auto. subst m. destruct (n_md k); auto. }
  assert (U : is_unit u) by (destruct B as (-> & _); apply direction_unit).
  assert (TLP : 0 <= 1 / 100000) by lra.
  destruct (drop_nodes mini2 ti d (Some L) (Some (with_md k)) (1 / 100000) l p u m inc azi KB DP TLP ST B EL)
    as (t & v & p2 & n2 & T & V & CA & D2 & LL & C).
  fold r in CA, D2, LL, C. exists L, t, v, p2. do 3 (split; auto). split; auto. intros TP.
  assert (UV : is_unit v) by (apply (circular_arc_tangent_unit _ _ _ _ _ _ U CA)).
  assert (MD : md_of (with_md k) = m) by (subst m; unfold md_of; cbn; destruct (n_md k); auto).
  change (mkNode (n_pos_nev k) (n_pos_xyz k) (n_vec_nev k) (n_vec_xyz k) (n_inc_rad k) (n_azi_rad k) (match n_md k with Some m0 => Some m0 | None => Some 0 end))
    with (with_md k) in H. rewrite MD in H.
  assert (C1 : forall q, q = p2 -> exists c, connector bump (forced_args p (Some u) m (Some d) q (Some v)) = inl c /\
    k_pos1 c = p /\ k_vec1 c = u /\ k_md1 c = m /\
    k_method c = MinCurve /\ k_pos_target c = p2 /\ k_vec_target c = v /\ k_md_target c = m + r * t).
  { intros q ->. destruct (Req_dec t 0) as [Z|Z].
    - assert (P2 : p2 = p /\ v = u).
      { destruct CA as (n & r' & _ & _ & _ & -> & ->). rewrite Z. unfold arc_point, arc_tangent. rewrite sin_0, cos_0.
        destruct p, u, n. unf. split; apply V3_eq; simpl; ring. }
      destruct P2 as [-> ->]. destruct (forced_still bump p u m d U DP (Some u)) as (c & F); auto. exists c.
      rewrite Z, Rmult_0_r, Rplus_0_r. exact F.
    - apply forced_curve; auto. lra. }
  destruct D2 as (P2 & V2 & M2).
  assert (NP : node_pos n2 = p2) by (unfold node_pos; rewrite P2; auto).
  destruct C as [(-> & LT)|(L' & n3 & EL' & GT & -> & (P3 & V3 & M3))].
  - rewrite V2, NP in H. destruct (C1 p2 eq_refl) as (c & EC & F1 & F2 & F3 & F4 & F5 & F6 & F7). rewrite EC in H. injection H as <-.
    exists c. do 7 (split; auto).
  - injection EL' as <-. rewrite V2, NP in H. destruct (C1 p2 eq_refl) as (c & EC & F1 & F2 & F3 & F4 & F5 & F6 & F7). rewrite EC in H.
    rewrite F6, (normalised_unit v UV), F5, F7 in H. unfold node_pos in H. rewrite P3 in H.
    rewrite forced_ahead in H by (auto; try lra; intros x Q; injection Q as <-; auto). injection H as <-.
    exists c. do 7 (split; auto). right. eexists. split; [reflexivity|]. cbn. do 7 (split; auto). ring.
Qed.
