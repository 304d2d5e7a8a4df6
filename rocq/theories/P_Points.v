(** connect_points: the chain of connections. *)
Require Import Reals ZArith Bool String List Lra Lia Psatz Arith.
Require Import Verif.Base Verif.NumPy Verif.Spec Verif.M_Utils Verif.Spec_Connector Verif.M_Connector Verif.M_Plan Verif.Spec_Connector2 Verif.Spec_Plan Verif.Spec_Extend.
Require Import Verif.P_Trig Verif.P_Utils Verif.P_Utils3 Verif.P_Connector Verif.P_Connector2 Verif.P_Connector3 Verif.P_Connector4 Verif.P_Connector5 Verif.P_Connector7 Verif.P_Connector9 Verif.P_Extend3.
Import ListNotations.
Open Scope R_scope.

Lemma radians_pos : forall d, 0 < d <-> 0 < radians d.
Proof.
  intros d. unfold radians. pose proof PI_RGT_0. assert (0 < PI / 180) by lra. split; intro H1.
  - apply Rmult_lt_0_compat; auto.
  - apply Rmult_lt_reg_r with (PI / 180); auto. lra.
Qed.
Lemma to_point_only : forall p u m q d, 0 < d -> only_position (to_point p u m q d) u q (dls_radius d).
Proof.
  intros p u m q d D. pose proof PI_RGT_0. unfold only_position, to_point. cbn. do 9 (split; [reflexivity|]). split; [|lra].
  exists (radians d). split; auto. split; [apply (proj1 (radians_pos d)); auto|]. unfold radians, dls_radius. field. split; lra.
Qed.
Lemma to_point_start : forall p u m q d, start_vec (to_point p u m q d) = u.
Proof. reflexivity. Qed.
Lemma to_point_target : forall p u m q d, is_unit u -> target_vec (to_point p u m q d) = u.
Proof.
  intros. unfold target_vec. assert (E : target_vec0 (to_point p u m q d) = u) by reflexivity. rewrite E, to_point_start.
  destruct (v3_eq_dec u (vneg u)) as [Z|_]; auto. destruct (unit_not_opposite u H Z).
Qed.

Lemma point_method : forall p u m q d, is_unit u ->
  (get_method (to_point p u m q d) = inl "hold"%string) \/
  (get_method (to_point p u m q d) = inl "curve_hold"%string /\ (normalised (vsub q p) = Some u -> False)).
Proof.
  intros p u m q d U.
unfold get_method. change (initial_method (to_point p u m q d)) with (Some "curve_hold_or_hold"%string).
    cbn [String.eqb Ascii.eqb Bool.eqb orb]. change (ends_or_hold "curve_hold_or_hold") with true. cbv iota.
    rewrite to_point_target, to_point_start by auto. destruct (v3_eq_dec u u); [|tauto].
    change (a_pos2 (to_point p u m q d)) with (Some q). change (a_pos1 (to_point p u m q d)) with p. cbv iota.
    destruct (normalised (vsub q p)) as [w|]; [|right; split; [reflexivity|discriminate]].
    destruct (allclose_dec u w) as [A|A]; [left; reflexivity|]. right. split; [reflexivity|]. intros E. injection E as <-. apply A. apply allclose_refl.
Qed.

Lemma point_conn : forall b p u m q d c, is_unit u -> connector b (to_point p u m q d) = inl c ->
  k_pos1 c = p /\ k_vec1 c = u /\ k_md1 c = m /\ k_pos_target c = q /\ is_unit (k_vec_target c) /\ m <= k_md_target c /\ 0 < d.
Proof.
  intros b p u m q d c U H.
  assert (D : 0 < d).
  { destruct (Rlt_dec 0 d); auto. exfalso. unfold connector, check_args, to_point in H. cbn in H.
    destruct (Rlt_dec 0 (radians d)) as [G|G]; [apply (proj2 (radians_pos d)) in G; tauto|discriminate]. }
  assert (W : wf_conn c) by (apply (connector_wf b (to_point p u m q d) c); auto).
  destruct (only_position_method _ _ _ _ (to_point_only p u m q d D)) as (CK & SV & RD & RP & GM).
  assert (WM : k_md1 c <= k_md_target c).
  { unfold wf_conn in W. destruct (k_method c), (k_md2 c); try tauto; lra. }
  unfold connector in H. rewrite CK in H.
  destruct (point_method p u m q d U) as [G|[G NB]]; rewrite G in H; cbn [String.eqb Ascii.eqb Bool.eqb] in H.
  - unfold do_hold in H. cbn in H. injection H as <-. cbn in *. do 4 (split; auto). split; [|split; auto; lra].
    change (is_unit (target_vec (to_point p u m q d))). rewrite to_point_target; auto.
  - change (a_pos2 (to_point p u m q d)) with (Some q) in H. cbv iota in H. rewrite RD, SV in H.
    change (a_pos1 (to_point p u m q d)) with p in H. change (a_md1 (to_point p u m q d)) with m in H.
    destruct (do_curve_hold _ _ _ _ _ _ _) as [c'|] eqn:DC; [|discriminate]. injection H as ->.
    unfold do_curve_hold in DC.
    assert (GD : fst (get_distances b p u q) = q).
    { unfold get_distances. cbn [fst]. destruct (normalised (vsub q p)) as [w|] eqn:EW; auto.
      destruct (v3_eq_dec u w) as [->|]; auto. exfalso. auto. }
    destruct (get_distances b p u q) as [q' ds]. cbn [fst] in GD. subst q'.
    assert (k_pos1 c = p /\ k_vec1 c = u /\ k_md1 c = m /\ k_pos_target c = q /\ is_unit (k_vec_target c)) as (E1 & E2 & E3 & E4 & E5).
    { destruct (Rle_dec _ _).
      - unfold do_min_dist in DC. destruct (min_dist_to_target _ _) as [[t dl]|]; [|discriminate]. cbn [get_curve_hold_data] in DC.
        destruct (get_vec_target _ _ _ _ _ _) as [v|] eqn:EV; [|discriminate]. injection DC as <-. cbn. do 4 (split; auto).
        eapply vec_target_unit; eauto.
      - unfold do_min_curve_to_target in DC. destruct (min_curve_to_target ds) as [[t rc] dl]. destruct (rmin_inf _ _); [|discriminate].
        cbn [get_curve_hold_data] in DC.
        destruct (get_vec_target _ _ _ _ _ _) as [v|] eqn:EV; [|discriminate]. injection DC as <-. cbn. do 4 (split; auto).
        eapply vec_target_unit; eauto. }
    do 5 (split; auto). split; auto. lra.
Qed.

Lemma point_fail : forall b p u m q d e, is_unit u -> connector b (to_point p u m q d) = inr e ->
  (e = AssertionError_dls /\ d <= 0) \/ (e = NaNResult /\ 0 < d).
Proof.
  intros b p u m q d e U H. destruct (Rlt_dec 0 d) as [D|D].
  - right. split; auto. destruct (only_position_method _ _ _ _ (to_point_only p u m q d D)) as (CK & SV & RD & RP & GM).
    unfold connector in H. rewrite CK in H. destruct (point_method p u m q d U) as [G|[G _]]; rewrite G in H;
      cbn [String.eqb Ascii.eqb Bool.eqb] in H.
    + unfold do_hold in H. cbn in H. discriminate.
    + change (a_pos2 (to_point p u m q d)) with (Some q) in H. cbv iota in H.
      destruct (do_curve_hold _ _ _ _ _ _ _); [discriminate|]. injection H as <-. auto.
  - left. split; [|lra]. unfold connector, check_args, to_point in H. cbn in H.
    destruct (Rlt_dec 0 (radians d)) as [G|G]; [apply (proj2 (radians_pos d)) in G; tauto|]. injection H as <-. auto.
Qed.

(** the path of one connection *)
Lemma point_path : forall b p u m q d c, is_unit u -> connector b (to_point p u m q d) = inl c ->
  let r := dls_radius d in let rc := tangent_circle_radius p u q in
  (k_method c = Hold -> k_vec_target c = u /\ k_md_target c = m + dist q p /\
     let e := vsub (vadd p (vscale (dist q p) u)) q in let tol := (1 / 100000 + 1 / 100000000) * dist q p in
     Rabs (vx e) <= tol /\ Rabs (vy e) <= tol /\ Rabs (vz e) <= tol) /\
  (k_method c = MinDistToTarget -> off_axis p u q <> 2 * r ->
     exists pos2, turn_then_straight p u r (k_dogleg c) (k_tangent c) pos2 q (k_vec_target c) /\ 0 < k_dogleg c < 2 * PI /\ 0 <= k_tangent c /\
       k_md_target c = m + r * k_dogleg c + k_tangent c) /\
  (k_method c = MinCurveToTarget -> ~ allclose p q -> 0 < off_axis p u q -> ahead p u q <> 0 -> rc <= r ->
     turn_then_straight p u rc (k_dogleg c) 0 q q (k_vec_target c) /\ 0 < rc /\ 0 < k_dogleg c < 2 * PI /\
       k_md_target c = m + rc * k_dogleg c) /\
  (k_method c = Hold \/ k_method c = MinDistToTarget \/ k_method c = MinCurveToTarget).
Proof.
  intros b p u m q d c U H r rc. destruct (point_conn b p u m q d c U H) as (E1 & E2 & E3 & E4 & E5 & E6 & D).
  assert (US : is_unit (start_vec (to_point p u m q d))) by exact U.
  destruct (only_position_method _ _ _ _ (to_point_only p u m q d D)) as (CK & SV & RD & RP & GM). fold r in RD, RP.
  split; [|split; [|split]].
  - intros M. destruct (hold_position b _ c US H M) as (A1 & _ & A3). split; auto. destruct (A3 q eq_refl) as (_ & A4 & A5). auto.
  - intros M NE. assert (ME : 0 <= a_min_error (to_point p u m q d)) by (cbn; lra).
    destruct (curve_hold_reaches b _ c r ME US H M RD) as (pos2 & _ & T & K1 & K2 & _ & _ & K3); [rewrite E4; exact NE|].
    exists pos2. rewrite E4 in T. auto.
  - intros M NC OA AH LE. 
    destruct (single_arc_reaches b _ c US H M) as (T & K1 & K2 & _ & _ & K3); try (rewrite E4; auto).
    + intros r' R'. rewrite RD in R'. injection R' as <-. exact LE.
    + rewrite E4 in T, K1, K3. auto.
  - unfold connector in H. rewrite CK in H. destruct (point_method p u m q d U) as [G|[G _]]; rewrite G in H;
      cbn [String.eqb Ascii.eqb Bool.eqb] in H.
    + left. unfold do_hold in H. cbn in H. injection H as <-. auto.
    + right. change (a_pos2 (to_point p u m q d)) with (Some q) in H. cbv iota in H.
      destruct (do_curve_hold _ _ _ _ _ _ _) as [c'|] eqn:DC; [|discriminate]. injection H as ->.
      unfold do_curve_hold in DC. destruct (get_distances _ _ _ _) as [q2 ds]. rewrite RD in DC. destruct (Rle_dec _ _).
      * left. eapply min_dist_method; eauto.
      * right. eapply min_curve_to_method; eauto.
Qed.

Lemma nonzero_normalised : forall v, v <> vzero -> normalised v = Some (vunit v).
Proof.
  intros v H. unfold normalised. destruct (Req_EM_T (norm v) 0) as [E|]; auto. exfalso. apply H. apply norm_eq0; auto.
Qed.
Lemma vsub_nonzero : forall p q : V3, q <> p -> vsub q p <> vzero.
Proof. intros p q H E. apply H. destruct p, q. unfold vsub, vzero in E. cbn in E. injection E as E1 E2 E3. f_equal; lra. Qed.

Lemma point_leg : forall b p u m q d c, is_unit u -> connector b (to_point p u m q d) = inl c -> leg p u m q d c.
Proof.
  intros b p u m q d c U H. destruct (point_conn b p u m q d c U H) as (E1 & E2 & E3 & E4 & E5 & E6 & D).
  destruct (point_path b p u m q d c U H) as (P1 & P2 & P3 & _).
  pose proof (to_point_only p u m q d D) as OP.
  unfold leg. cbv zeta. do 7 (split; auto). split; [|split].
  - intros NE AC. assert (M : k_method c = Hold).
    { destruct (only_position_method _ _ _ _ OP) as (CK & _). unfold connector in H. rewrite CK in H.
      assert (G : get_method (to_point p u m q d) = inl "hold"%string).
      { unfold get_method. change (initial_method (to_point p u m q d)) with (Some "curve_hold_or_hold"%string).
        cbn [String.eqb Ascii.eqb Bool.eqb orb]. change (ends_or_hold "curve_hold_or_hold") with true. cbv iota.
        rewrite to_point_target, to_point_start by auto. destruct (v3_eq_dec u u); [|tauto].
        change (a_pos2 (to_point p u m q d)) with (Some q). change (a_pos1 (to_point p u m q d)) with p. cbv iota.
        rewrite nonzero_normalised by (apply vsub_nonzero; auto). destruct (allclose_dec u (vunit (vsub q p))); tauto. }
      rewrite G in H. cbn [String.eqb Ascii.eqb Bool.eqb] in H. unfold do_hold in H. cbn in H. injection H as <-. reflexivity. }
    destruct (P1 M) as (A & B & _). auto.
  - intros NA NC OA NE LE. destruct (curve_hold_solves b _ u q _ OP U NA NC OA NE LE) as (c' & H' & M & _).
    rewrite H in H'. injection H' as <-. destruct (P2 M NE) as (pos2 & T & K1 & K2 & K3). exists pos2, (k_dogleg c), (k_tangent c). auto.
  - intros NA NC OA AH LT. destruct (single_arc_solves b _ u q _ OP U NA NC OA AH LT) as (c' & H' & M & _).
    rewrite H in H'. injection H' as <-. destruct (P3 M NC OA AH) as (T & _ & K1 & K2); [lra|]. exists (k_dogleg c). auto.
Qed.
Lemma point_blocked : forall b p u m q d, is_unit u -> 0 < d -> connector b (to_point p u m q d) = inr NaNResult -> awkward p u q d.
Proof.
  intros b p u m q d U D H. pose proof (to_point_only p u m q d D) as OP.
  assert (NA : ~ (q <> p /\ allclose u (vunit (vsub q p)))).
  { intros (NE & AC). destruct (only_position_method _ _ _ _ OP) as (CK & _). unfold connector in H. rewrite CK in H.
    assert (G : get_method (to_point p u m q d) = inl "hold"%string).
    { unfold get_method. change (initial_method (to_point p u m q d)) with (Some "curve_hold_or_hold"%string).
      cbn [String.eqb Ascii.eqb Bool.eqb orb]. change (ends_or_hold "curve_hold_or_hold") with true. cbv iota.
      rewrite to_point_target, to_point_start by auto. destruct (v3_eq_dec u u); [|tauto].
      change (a_pos2 (to_point p u m q d)) with (Some q). change (a_pos1 (to_point p u m q d)) with p. cbv iota.
      rewrite nonzero_normalised by (apply vsub_nonzero; auto). destruct (allclose_dec u (vunit (vsub q p))); tauto. }
    rewrite G in H. cbn [String.eqb Ascii.eqb Bool.eqb] in H. unfold do_hold in H. cbn in H. discriminate. }
  split; auto. destruct (allclose_dec p q) as [A|A]; [auto|]. right.
  assert (Q : q <> p) by (intros ->; apply A, allclose_refl).
  assert (NA' : ~ allclose u (vunit (vsub q p))) by tauto.
  destruct (Req_EM_T (off_axis p u q) 0) as [Z|Z]; [auto|]. right.
  assert (0 < off_axis p u q) by (pose proof (norm_ge0 (cross (vsub q p) u)); unfold off_axis in *; lra).
  destruct (Req_EM_T (off_axis p u q) (2 * dls_radius d)) as [Z2|Z2]; [auto|]. right.
  destruct (Req_EM_T (ahead p u q) 0) as [Z3|Z3]; [auto|]. right.
  split; apply Rnot_lt_le || apply Rnot_le_lt; intros C.
  - destruct (curve_hold_solves b _ u q _ OP U NA' A H0 Z2 C) as (c' & H' & _). rewrite H in H'. discriminate.
  - destruct (single_arc_solves b _ u q _ OP U NA' A H0 Z3 C) as (c' & H' & _). rewrite H in H'. discriminate.
Qed.

(** ** The chain *)
Lemma start_of_shift : forall c cs p u m i, start_of (c :: cs) p u m (S i) = start_of cs (k_pos_target c) (k_vec_target c) (k_md_target c) i.
Proof. intros. destruct i; reflexivity. Qed.
Lemma loop_chain : forall bump l k p u m cs, is_unit u -> points_loop bump k p u m l = PtOk cs ->
  List.length cs = List.length l /\
  forall i c, nth_error cs i = Some c -> exists p' u' m' q d, nth_error l i = Some (q, d) /\ start_of cs p u m i = Some (p', u', m') /\
    is_unit u' /\ leg p' u' m' q d c /\ (i = O -> p' = p) /\ (forall j, i = S j -> exists d', nth_error l j = Some (p', d')).
Proof.
  intros bump. induction l as [|[q d] r IH]; intros k p u m cs U H; cbn in H.
  - injection H as <-. split; auto. intros [|i] c E; discriminate.
  - destruct (connector _ _) as [c|e] eqn:CN; [|discriminate]. pose proof (point_leg _ _ _ _ _ _ _ U CN) as L.
    assert (UV : is_unit (k_vec_target c)) by (unfold leg in L; tauto). assert (ET : k_pos_target c = q) by (unfold leg in L; tauto).
    rewrite (normalised_unit _ UV) in H. destruct (allclose_dec _ _); [|discriminate].
    destruct (points_loop _ _ _ _ _ r) as [| | | |cs'] eqn:PL; try discriminate. injection H as <-.
    destruct (IH _ _ _ _ _ UV PL) as (LN & IHc). split; [cbn; auto|]. intros [|i] c0 E.
    + cbn in E. injection E as <-. exists p, u, m, q, d. cbn. do 5 (split; auto). intros j J. discriminate.
    + cbn in E. destruct (IHc i c0 E) as (p' & u' & m' & q' & d' & A1 & A2 & A3 & A4 & A5 & A6).
      exists p', u', m', q', d'. split; auto. split; [rewrite start_of_shift; auto|]. do 2 (split; auto). split; [discriminate|].
      intros j J. injection J as <-. destruct i; [rewrite A5, ET by auto; exists d; auto|]. destruct (A6 i eq_refl) as (d'' & A7). exists d''. auto.
Qed.
Lemma loop_fails : forall bump l k p u m res, is_unit u -> points_loop bump k p u m l = res -> (forall cs, res <> PtOk cs) ->
  exists cs p' u' m' q d e, res = PtConnector e /\ points_loop bump k p u m (firstn (List.length cs) l) = PtOk cs /\
    nth_error l (List.length cs) = Some (q, d) /\ start_of cs p u m (List.length cs) = Some (p', u', m') /\ is_unit u' /\
    (List.length cs = O -> p' = p) /\ (forall j, List.length cs = S j -> exists d', nth_error l j = Some (p', d')) /\
    ((e = AssertionError_dls /\ d <= 0) \/ (e = NaNResult /\ 0 < d /\ awkward p' u' q d)).
Proof.
  intros bump. induction l as [|[q d] r IH]; intros k p u m res U H N; cbn in H.
  - subst res. destruct (N [] eq_refl).
  - destruct (connector _ _) as [c|e] eqn:CN.
    + pose proof (point_leg _ _ _ _ _ _ _ U CN) as L.
      assert (UV : is_unit (k_vec_target c)) by (unfold leg in L; tauto). assert (ET : k_pos_target c = q) by (unfold leg in L; tauto).
      rewrite (normalised_unit _ UV) in H. destruct (allclose_dec (k_pos_target c) q) as [A|A]; [|destruct A; rewrite ET; apply allclose_refl].
      destruct (IH (S k) (k_pos_target c) (k_vec_target c) (k_md_target c) _ UV eq_refl) as (cs & p' & u' & m' & q' & d' & e & R1 & R2 & R3 & R4 & R5 & R6 & R7 & R8).
      { intros cs E. rewrite E in H. subst res. destruct (N _ eq_refl). }
      rewrite R1 in H. exists (c :: cs), p', u', m', q', d', e. split; auto. split.
      { cbn. rewrite CN, (normalised_unit _ UV). destruct (allclose_dec (k_pos_target c) q); [|tauto]. rewrite R2. auto. }
      split; auto. split; [cbn [List.length]; rewrite start_of_shift; auto|]. split; auto. split; [cbn; discriminate|].
      split; auto. intros j J. cbn in J. injection J as <-. destruct (List.length cs); [rewrite R6, ET by auto; exists d; auto|].
      destruct (R7 n eq_refl) as (d'' & A7). exists d''. auto.
    + exists [], p, u, m, q, d, e. do 5 (split; auto). split; auto. split; [intros j J; discriminate|].
      destruct (point_fail _ _ _ _ _ _ _ U CN) as [|[-> D]]; auto. right. do 2 (split; auto). eapply point_blocked; eauto.
Qed.

Lemma nev_in : forall (nev : bool) (l : list V3), (if nev then l else map nev_of l) = map (in_nev nev) l.
Proof.
  intros [|] l; [symmetry; apply map_id|]. apply map_ext. intros [x y z]. unfold in_nev, nev_of, get_nev, vzero. cbn. unfold vadd, vsub; cbn. f_equal; ring.
Qed.
Lemma nev_in1 : forall (nev : bool) (v : V3), (if nev then v else nev_of v) = in_nev nev v.
Proof. intros [|] v; auto. exact (f_equal (hd vzero) (nev_in false [v])). Qed.
Lemma nth_combine : forall (A B : Type) (l : list A) (r : list B) i, nth_error (combine l r) i =
  match nth_error l i, nth_error r i with Some a, Some b => Some (a, b) | _, _ => None end.
Proof.
  induction l as [|a l IH]; intros r i; cbn; [destruct i; auto|]. destruct r as [|b r]; cbn.
  - destruct i; cbn; auto. destruct (nth_error l i); auto.
  - destruct i; cbn; auto.
Qed.
Lemma combine_nth_Some : forall (A B : Type) (l : list A) (r : list B) i a b, nth_error (combine l r) i = Some (a, b) ->
  nth_error l i = Some a /\ nth_error r i = Some b.
Proof. intros A B l r i a b H. rewrite nth_combine in H. destruct (nth_error l i), (nth_error r i); try discriminate. injection H as <- <-. auto. Qed.
Lemma nth_map_in : forall nev l i p, nth_error (map (in_nev nev) l) i = Some p -> exists p', nth_error l i = Some p' /\ p = in_nev nev p'.
Proof.
  intros nev l. induction l as [|a l IH]; intros [|i] p H; cbn in H; try discriminate; [injection H as <-; exists a; auto|].
  destruct (IH i p H) as (p' & ? & ?). exists p'. auto.
Qed.
Lemma normalised_along : forall v u, normalised v = Some u -> points_along v u.
Proof.
  intros v u H. unfold normalised in H. destruct (Req_EM_T (norm v) 0) as [|N]; [discriminate|]. injection H as <-.
  apply vunit_along. intros ->. apply N. apply norm_vzero.
Qed.

Lemma points_connected : forall bump points v dls nev md cs,
  connect_points bump points false v dls nev md = PtOk cs ->
  let ds := match dls with SevFloat d => repeat d (List.length points) | SevOther l => l end in
  List.length cs = (Nat.min (List.length points) (List.length ds) - 1)%nat /\
  forall i c, nth_error cs i = Some c -> exists p0 u0 p u m q d,
    nth_error points 0 = Some p0 /\ points_along (in_nev nev v) u0 /\
    nth_error points i = Some p /\ nth_error points (S i) = Some q /\ nth_error ds (S i) = Some d /\
    start_of cs (in_nev nev p0) u0 md i = Some (in_nev nev p, u, m) /\ is_unit u /\
    leg (in_nev nev p) u m (in_nev nev q) d c.
Proof.
  intros bump points v dls nev md cs H ds. unfold connect_points in H. cbv zeta in H. rewrite nev_in, nev_in1 in H. cbn [stored_vec] in H.
  assert (EL : List.length (map (in_nev nev) points) = List.length points) by apply map_length.
  rewrite EL in H. change (severities (List.length points) dls) with ds in H.
  destruct (map (in_nev nev) points) as [|p0 ps] eqn:EM; [discriminate|].
  assert (LC : List.length (combine (p0 :: ps) ds) = Nat.min (List.length points) (List.length ds)) by (rewrite combine_length, EL; auto).
  destruct (combine (p0 :: ps) ds) as [|[p1 d1] r] eqn:EC.
  - injection H as <-. cbn in LC. rewrite <- LC. split; auto. intros [|i] c E; discriminate.
  - destruct (normalised (in_nev nev v)) as [u0|] eqn:NV; [|discriminate].
    pose proof (normalised_along _ _ NV) as PA. assert (U0 : is_unit u0) by (destruct PA; auto).
    destruct (loop_chain _ _ _ _ _ _ _ U0 H) as (LN & CH). split; [rewrite LN, <- LC; cbn; lia|].
    intros i c E. destruct (CH i c E) as (p' & u' & m' & q & d & A1 & A2 & A3 & A4 & A5 & A6).
    assert (N1 : nth_error (combine (p0 :: ps) ds) 0 = Some (p1, d1)) by (rewrite EC; auto). apply combine_nth_Some in N1. destruct N1 as (N1 & _).
    rewrite <- EM in N1. apply nth_map_in in N1. destruct N1 as (p0' & N1 & ->).
    assert (N2 : nth_error (combine (p0 :: ps) ds) (S i) = Some (q, d)) by (rewrite EC; auto). apply combine_nth_Some in N2. destruct N2 as (N2 & N2d).
    rewrite <- EM in N2. apply nth_map_in in N2. destruct N2 as (q' & N2 & ->).
    assert (N3 : exists p, nth_error points i = Some p /\ p' = in_nev nev p).
    { destruct i as [|j]; [exists p0'; auto|]. destruct (A6 j eq_refl) as (d' & A7).
      assert (N3 : nth_error (combine (p0 :: ps) ds) (S j) = Some (p', d')) by (rewrite EC; auto). apply combine_nth_Some in N3. destruct N3 as (N3 & _).
      rewrite <- EM in N3. apply nth_map_in in N3. auto. }
    destruct N3 as (p & N3 & ->). exists p0', u0, p, u', m', q', d. do 7 (split; auto).
Qed.

Lemma firstn_combine : forall (A B : Type) n (l : list A) (r : list B), firstn n (combine l r) = combine (firstn n l) r.
Proof. induction n as [|n IH]; intros [|a l] [|b r]; cbn; auto. f_equal. auto. Qed.
Lemma combine_repeat : forall (A B : Type) (l : list A) (d : B) n, (List.length l <= n)%nat -> combine l (repeat d n) = combine l (repeat d (List.length l)).
Proof. induction l as [|a l IH]; intros d n H; auto. cbn in H. destruct n; [lia|]. cbn. f_equal. apply IH. lia. Qed.

Lemma points_failures : forall bump points v dls nev md, let ds := match dls with SevFloat d => repeat d (List.length points) | SevOther l => l end in
  let res := connect_points bump points false v dls nev md in
  (forall cs, res <> PtOk cs) ->
  (points = [] /\ res = PtIndexError) \/
  (points <> [] /\ ds <> [] /\ v = vzero /\ res = PtNotFinite) \/
  (exists cs p u m q d p0 u0 e, res = PtConnector e /\
     connect_points bump (firstn (S (List.length cs)) points) false v dls nev md = PtOk cs /\
     nth_error points 0 = Some p0 /\ points_along (in_nev nev v) u0 /\
     nth_error points (List.length cs) = Some p /\ nth_error points (S (List.length cs)) = Some q /\
     nth_error ds (S (List.length cs)) = Some d /\
     start_of cs (in_nev nev p0) u0 md (List.length cs) = Some (in_nev nev p, u, m) /\ is_unit u /\
     ((e = AssertionError_dls /\ d <= 0) \/ (e = NaNResult /\ 0 < d /\ awkward (in_nev nev p) u (in_nev nev q) d))).
Proof.
  intros bump points v dls nev md ds res N.
  assert (EL : List.length (map (in_nev nev) points) = List.length points) by apply map_length.
  assert (ER : res = match map (in_nev nev) points with [] => PtIndexError | _ =>
     match combine (map (in_nev nev) points) ds with [] => PtOk [] | (p, _) :: r =>
       match normalised (in_nev nev v) with None => PtNotFinite | Some u => points_loop bump 0 p u md r end end end).
  { unfold res, connect_points. cbv zeta. rewrite nev_in, nev_in1, EL. reflexivity. }
  clearbody res.
  destruct points as [|a points']; [left; auto|]. right. set (points := a :: points') in *.
  destruct (map (in_nev nev) points) as [|p0 ps] eqn:EM; [discriminate|].
  destruct (combine (p0 :: ps) ds) as [|[p1 d1] r] eqn:EC; [destruct (N [] ER)|].
  destruct (normalised (in_nev nev v)) as [u0|] eqn:NV.
  - right. pose proof (normalised_along _ _ NV) as PA. assert (U0 : is_unit u0) by (destruct PA; auto).
    destruct (loop_fails _ _ _ _ _ _ _ U0 (eq_sym ER) N) as (cs & p' & u' & m' & q & d & e & R1 & R2 & R3 & R4 & R5 & R6 & R7 & R8).
    assert (N1 : nth_error (combine (p0 :: ps) ds) 0 = Some (p1, d1)) by (rewrite EC; auto). apply combine_nth_Some in N1. destruct N1 as (N1 & N1d).
    rewrite <- EM in N1. apply nth_map_in in N1. destruct N1 as (p0' & N1 & ->).
    assert (N2 : nth_error (combine (p0 :: ps) ds) (S (List.length cs)) = Some (q, d)) by (rewrite EC; auto). apply combine_nth_Some in N2. destruct N2 as (N2 & N2d).
    rewrite <- EM in N2. apply nth_map_in in N2. destruct N2 as (q' & N2 & ->).
    assert (N3 : exists p, nth_error points (List.length cs) = Some p /\ p' = in_nev nev p).
    { destruct (List.length cs) as [|j]; [exists p0'; auto|]. destruct (R7 j eq_refl) as (d' & A7).
      assert (N3 : nth_error (combine (p0 :: ps) ds) (S j) = Some (p', d')) by (rewrite EC; auto). apply combine_nth_Some in N3. destruct N3 as (N3 & _).
      rewrite <- EM in N3. apply nth_map_in in N3. auto. }
    destruct N3 as (p & N3 & ->). exists cs, p, u', m', q', d, p0', u0, e. split; auto. split.
    { unfold connect_points. cbv zeta. rewrite nev_in, nev_in1. cbn [stored_vec].
      assert (EF : combine (map (in_nev nev) (firstn (S (List.length cs)) points)) (severities (List.length (map (in_nev nev) (firstn (S (List.length cs)) points))) dls)
                 = firstn (S (List.length cs)) (combine (map (in_nev nev) points) ds)).
      { rewrite firstn_combine, firstn_map. unfold ds. destruct dls as [d0|l]; cbn [severities]; auto.
        symmetry. apply combine_repeat. rewrite map_length, firstn_length. apply Nat.le_min_r. }
      rewrite EF, EM, EC. cbn [firstn]. rewrite NV.
      destruct (map (in_nev nev) (firstn (S (List.length cs)) points)) eqn:EZ; [unfold points in EZ; cbn in EZ; discriminate|]. exact R2. }
    do 8 (split; auto).
  - left. split; [discriminate|]. split; [intros Z; rewrite Z in EC; cbn in EC; discriminate|]. split; auto.
    unfold normalised in NV. destruct (Req_EM_T (norm (in_nev nev v)) 0) as [Z|]; [|discriminate]. apply norm_eq0 in Z.
    destruct v as [x y z]. unfold in_nev, vzero in Z. destruct nev; cbn in Z; injection Z as Z1 Z2 Z3; unfold vzero; f_equal; auto.
Qed.

(** ** Numbers and integers *)
Lemma points_scalar : forall bump points v nev md d, points <> [] -> v <> vzero ->
  connect_points bump points false v (SevOther [d]) nev md = PtOk [].
Proof.
  intros bump points v nev md d NE NZ. unfold connect_points. cbv zeta. rewrite nev_in, nev_in1. cbn [stored_vec severities].
  destruct points as [|a r]; [tauto|]. cbn [map combine]. rewrite nonzero_normalised.
  - destruct (map (in_nev nev) r); reflexivity.
  - intros Z. apply NZ. destruct v as [x y z]. unfold in_nev, vzero in *. destruct nev; cbn in Z; injection Z as Z1 Z2 Z3; f_equal; auto.
Qed.
Lemma int_part_is : forall x z, IZR z <= x < IZR z + 1 -> Int_part x = z.
Proof.
  intros x z (A & B). destruct (base_Int_part x) as (C & D).
  assert (IZR z < IZR (Int_part x + 1)) by (rewrite plus_IZR; lra). assert (IZR (Int_part x) < IZR (z + 1)) by (rewrite plus_IZR; lra).
  apply lt_IZR in H, H0. lia.
Qed.
Lemma whole_truncated : forall x z, whole_part x z -> truncated x = IZR z.
Proof.
  intros x z (A & B). unfold truncated. destruct (Rle_dec 0 x) as [P|P].
  - destruct (A P). f_equal. apply int_part_is. lra.
  - destruct B as (B1 & B2); [lra|]. assert (E : Int_part (- x) = (- z)%Z).
    { apply int_part_is. rewrite opp_IZR. lra. }
    rewrite E, opp_IZR. ring.
Qed.
Lemma points_integers : forall bump points x y z zx zy zz dls nev md,
  whole_part x zx -> whole_part y zy -> whole_part z zz ->
  connect_points bump points true (mkV x y z) dls nev md = connect_points bump points false (mkV (IZR zx) (IZR zy) (IZR zz)) dls nev md.
Proof.
  intros bump points x y z zx zy zz dls nev md HX HY HZ. unfold connect_points. cbv zeta. rewrite !nev_in, !nev_in1.
  replace (stored_vec true (in_nev nev (mkV x y z))) with (stored_vec false (in_nev nev (mkV (IZR zx) (IZR zy) (IZR zz)))); auto.
  unfold stored_vec, in_nev. destruct nev; cbn; rewrite (whole_truncated _ _ HX), (whole_truncated _ _ HY), (whole_truncated _ _ HZ); auto.
Qed.
Lemma whole_small : forall x, Rabs x < 1 -> whole_part x 0.
Proof. intros x H. apply Rabs_def2 in H. split; intros; lra. Qed.
Lemma points_integers_refuted : forall bump a r x y z d nev md, Rabs x < 1 -> Rabs y < 1 -> Rabs z < 1 ->
  connect_points bump (a :: r) true (mkV x y z) (SevFloat d) nev md = PtNotFinite.
Proof.
  intros bump a r x y z d nev md HX HY HZ. rewrite (points_integers _ _ _ _ _ 0 0 0) by (apply whole_small; auto).
  unfold connect_points. cbv zeta. rewrite !nev_in, !nev_in1. cbn [map stored_vec severities List.length repeat combine].
  replace (in_nev nev (mkV 0 0 0)) with vzero by (unfold in_nev, vzero; destruct nev; auto).
  unfold normalised. rewrite norm_vzero. destruct (Req_EM_T 0 0); [auto|tauto].
Qed.

Lemma connect_eq : forall bump points v dls nev md, connect_points bump points false v dls nev md =
  match map (in_nev nev) points with
  | [] => PtIndexError
  | _ =>
      match combine (map (in_nev nev) points) (severities (List.length points) dls) with
      | [] => PtOk []
      | (p, _) :: r => match normalised (in_nev nev v) with None => PtNotFinite | Some u => points_loop bump 0 p u md r end
      end
  end.
Proof. intros. unfold connect_points. cbv zeta. rewrite nev_in, nev_in1, map_length. reflexivity. Qed.
(** ** A chain of two *)
Lemma chain_of_two : forall bump, exists c1 c2, connect_points bump [mkV 0 0 0; mkV 0 0 100; mkV 0 100 1000] false (mkV 0 0 1) (SevFloat 3) false 0 = PtOk [c1; c2] /\
  k_pos_target c1 = mkV 0 0 100 /\ k_pos_target c2 = mkV 100 0 1000.
Proof.
  intros bump. set (u := mkV 0 0 1). assert (U : is_unit u) by (unfold is_unit, u, dot; cbn; ring).
  set (p0 := mkV 0 0 0). set (p1 := mkV 0 0 100). set (p2 := mkV 100 0 1000).
  assert (C1 : exists c, connector (bump 0%nat) (to_point p0 u 0 p1 3) = inl c).
  { destruct (connector (bump 0%nat) (to_point p0 u 0 p1 3)) as [c|e] eqn:E; [exists c; auto|]. exfalso.
    destruct (point_fail _ _ _ _ _ _ _ U E) as [(_ & ?)|(-> & D)]; [lra|]. apply point_blocked in E; auto. destruct E as (E & _). apply E.
    split; [unfold p1, p0; intros X; injection X; lra|]. replace (vsub p1 p0) with (vscale 100 u) by (unfold vsub, vscale, p1, p0, u; cbn; f_equal; ring).
    rewrite vunit_scale, vunit_unit; auto; [apply allclose_refl|lra|]. intros Z. unfold u, vzero in Z. injection Z. lra. }
  destruct C1 as (c1 & C1). pose proof (point_leg _ _ _ _ _ _ _ U C1) as L1. unfold leg in L1. cbv zeta in L1.
  destruct L1 as (_ & _ & _ & _ & T1 & UV & _ & ST & _).
  assert (V1 : k_vec_target c1 = u).
  { apply ST. unfold p1, p0; intros X; injection X; lra. replace (vsub p1 p0) with (vscale 100 u) by (unfold vsub, vscale, p1, p0, u; cbn; f_equal; ring).
    rewrite vunit_scale, vunit_unit; auto; [apply allclose_refl|lra|]. intros Z. unfold u, vzero in Z. injection Z. lra. }
  assert (OA : off_axis p1 u p2 = 100).
  { unfold off_axis. replace (cross (vsub p2 p1) u) with (mkV 0 (-100) 0) by (unfold cross, vsub, p2, p1, u; cbn; f_equal; ring).
    unfold norm, dot. cbn. replace (0 * 0 + -100 * -100 + 0 * 0) with (100 * 100) by ring. apply sqrt_square. lra. }
  assert (RC : tangent_circle_radius p1 u p2 = 4100).
  { unfold tangent_circle_radius. rewrite OA. unfold dot, vsub, p2, p1. cbn. field. }
  assert (PI3 : 3 < PI) by (pose proof PI2_3_2; lra).
  assert (R : dls_radius 3 = 1800 / PI) by (unfold dls_radius; field; lra).
  assert (RB : 400 < dls_radius 3 < 600).
  { rewrite R. pose proof PI_4. split; apply Rmult_lt_reg_r with PI; try lra; unfold Rdiv; rewrite Rmult_assoc, Rinv_l by lra; lra. }
  assert (C2 : exists c, connector (bump 1%nat) (to_point p1 u (k_md_target c1) p2 3) = inl c).
  { assert (D3 : 0 < 3) by lra. pose proof (to_point_only p1 u (k_md_target c1) p2 3 D3) as OP.
    destruct (curve_hold_solves (bump 1%nat) _ u p2 _ OP U) as (c & E & _); try (cbn; rewrite ?OA, ?RC; lra); [| |exists c; auto].
    - cbn [a_pos1 to_point]. intros (A & _). unfold vunit in A. set (n := norm (vsub p2 p1)) in A.
      assert (NN : 900 < n < 1000).
      { assert (N2 : n * n = 820000) by (unfold n; rewrite norm_sqr; unfold dot, vsub, p2, p1; cbn; ring).
        pose proof (norm_ge0 (vsub p2 p1)) as N0. fold n in N0. split; nra. }
      clearbody n. unfold close, rtol, atol in A. cbn in A.
      assert (W : 1 / 10 < / n * (100 - 0) < 12 / 100).
      { split; apply Rmult_lt_reg_l with n; try lra; rewrite <- Rmult_assoc, Rinv_r by lra; lra. }
      rewrite (Rabs_right (/ n * (100 - 0))) in A by lra. rewrite Rabs_left in A by lra. lra.
    - intros (A & _). unfold close, rtol, atol in A. cbn in A. unfold Rabs in A. repeat destruct (Rcase_abs _); lra.
    }
  destruct C2 as (c2 & C2). exists c1, c2. pose proof (point_leg _ _ _ _ _ _ _ U C2) as L2. unfold leg in L2. cbv zeta in L2.
  destruct L2 as (_ & _ & _ & _ & T2 & UV2 & _). split; [|auto].
  rewrite connect_eq.
  change (map (in_nev false) [p0; p1; mkV 0 100 1000]) with [p0; p1; p2]. cbn [List.length severities repeat combine stored_vec].
  change (in_nev false u) with u. rewrite (normalised_unit u U). cbn [points_loop]. rewrite C1, (normalised_unit _ UV), T1.
  destruct (allclose_dec p1 p1) as [_|N]; [|destruct N; apply allclose_refl]. rewrite V1, C2, (normalised_unit _ UV2), T2.
  destruct (allclose_dec p2 p2) as [_|N]; [auto|destruct N; apply allclose_refl].
Qed.
