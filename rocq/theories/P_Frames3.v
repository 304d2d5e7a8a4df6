(** C124: surveys built from turned azimuths; bearings; refined runs. *)
Require Import Reals Lra Psatz Lia ZArith Bool String List FunctionalExtensionality.
Require Import Verif.Base Verif.NumPy Verif.P_Trig Verif.Spec Verif.Spec_Lists Verif.M_Utils Verif.P_Utils
  Verif.P_Utils2 Verif.M_Survey Verif.P_Survey Verif.P_Survey2 Verif.M_Error Verif.M_Clearance Verif.P_Clearance Verif.P_Clearance3 Verif.M_MaxCurve Verif.M_Refine
  Verif.Spec_Refine Verif.P_Refine Verif.P_Refine2 Verif.P_Refine3 Verif.Spec_Frames Verif.P_Frames Verif.P_Frames2.
Import ListNotations.
Local Open Scope R_scope.

Lemma turn_iso : forall w, isometry (turn w).
Proof.
  intros w [a b c] [d e f]. unfold turn, mv, dot; simpl. pose proof (sin2_cos2' w) as S.
  assert (E : cos w * cos w = 1 - sin w * sin w) by lra. ring [E].
Qed.
Lemma mirror_iso : isometry east_west.
Proof. intros [] []. unfold east_west, mv, dot; simpl. ring. Qed.
Lemma turn_direction : forall w i a, direction_nev i (a + w) = mv (turn w) (direction_nev i a).
Proof. intros. unfold turn, mv, dot, direction_nev; simpl. rewrite cos_plus, sin_plus. apply V3_eq; simpl; ring. Qed.
Lemma mirror_direction : forall i a, direction_nev i (- a) = mv east_west (direction_nev i a).
Proof. intros. unfold east_west, mv, dot, direction_nev; simpl. rewrite cos_neg, sin_neg. apply V3_eq; simpl; ring. Qed.

Lemma survey_moved : forall Q t h rows deg sx sn unit s h' rows' deg' sx' unit' s', isometry Q ->
  Survey h rows deg sx sn unit = Some s -> Survey h' rows' deg' sx' (moved Q t sn) unit' = Some s' -> unit' = unit ->
  Forall2 (moved_station Q) (sv_rows s) (sv_rows s') -> moved_survey Q t s s' /\ sv_dogleg s' = sv_dogleg s /\ sv_delta_md s' = sv_delta_md s.
Proof.
  intros Q t h rows deg sx sn unit s h' rows' deg' sx' unit' s' I E E' U F.
  pose proof (Survey_inv _ _ _ _ _ _ _ E) as (U1 & H1 & L1 & R1 & _ & X1 & N1 & F1).
  pose proof (Survey_inv _ _ _ _ _ _ _ E') as (U2 & H2 & L2 & R2 & _ & X2 & N2 & F2).
  pose proof (F2_len _ _ _ _ _ F) as LL.
  destruct (Survey_xyz_len _ _ _ _ _ _ _ E) as [LX LN]. destruct (Survey_xyz_len _ _ _ _ _ _ _ E') as [LX' LN'].
  assert (Z : forall h rows deg sx sn unit s, Survey h rows deg sx sn unit = Some s -> nth_error (sv_nev s) 0 = Some sn).
  { clear. intros h rows deg sx sn unit s E. apply Survey_inv in E. destruct E as (_ & _ & _ & _ & _ & _ & N & _).
    rewrite N, nth_error_map, mc_list_first. cbn. unfold nev_of. f_equal. apply nev_datum. }
  assert (G : forall i p, nth_error (sv_nev s) i = Some p -> nth_error (sv_nev s') i = Some (moved Q t p)).
  { induction i as [|i IH]; intros p P.
    - rewrite (Z _ _ _ _ _ _ _ E) in P. injection P as <-. exact (Z _ _ _ _ _ _ _ E').
    - assert (Li : (S i < length (sv_rows s))%nat) by (rewrite <- LN; apply nth_error_Some; congruence).
      destruct (nth_error_some_lt _ (sv_nev s) i) as [q P0]; [lia|]. specialize (IH q P0).
      pose proof (F2_nth _ _ _ _ _ i F) as A. pose proof (F2_nth _ _ _ _ _ (S i) F) as B.
      destruct (nth_error_some_lt _ (sv_rows s) i) as [a RA]; [lia|]. destruct (nth_error_some_lt _ (sv_rows s) (S i)) as [b RB]; [lia|].
      rewrite RA in A. rewrite RB in B.
      destruct (nth_error (sv_rows s') i) as [a'|] eqn:RA'; [|contradiction]. destruct (nth_error (sv_rows s') (S i)) as [b'|] eqn:RB'; [|contradiction].
      destruct (nth_error_some_lt _ (sv_nev s') (S i)) as [p' P']; [lia|].
      rewrite P'. f_equal. rewrite (Survey_nev_step _ _ _ _ _ _ _ _ _ _ _ _ E' RA' RB' IH P'),
        (Survey_nev_step _ _ _ _ _ _ _ _ _ _ _ _ E RA RB P0 P), (moved_step Q a a' b b'), moved_add by auto. reflexivity. }
  split; [split; [congruence|split; [exact F|split]]|].
  - apply list_ext. intro i. rewrite nth_error_map. destruct (nth_error (sv_nev s) i) as [p|] eqn:P.
    + cbn. apply G. exact P.
    + apply nth_error_None in P. cbn. apply nth_error_None. lia.
  - rewrite F1, F2. apply list_ext. intro i. rewrite !nth_error_map.
    destruct (nth_error rows i) eqn:A, (nth_error rows' i) eqn:B; cbn; auto;
      apply nth_error_None in A || apply nth_error_None in B;
      [assert ((i < length rows)%nat) by (apply nth_error_Some; congruence)|assert ((i < length rows')%nat) by (apply nth_error_Some; congruence)]; lia.
  - assert (D : forall h rows deg sx sn unit s, Survey h rows deg sx sn unit = Some s ->
      sv_dogleg s = 0 :: pairwise pair_dogleg (sv_rows s) /\ sv_delta_md s = diff_from 0 (map st_md (sv_rows s))).
    { clear. intros h rows deg sx sn unit s E. unfold Survey in E. destruct (negb _); [discriminate|]. cbv zeta in E.
      destruct (MinCurve _ sx unit) as [mc|] eqn:M; [|discriminate]. injection E as <-. cbn.
      unfold MinCurve in M. destruct (unit_coeff unit); [|discriminate]. destruct (_ <=? 1)%nat; [discriminate|]. injection M as <-. cbn. auto. }
    destruct (D _ _ _ _ _ _ _ E) as [-> ->]. destruct (D _ _ _ _ _ _ _ E') as [-> ->].
    rewrite (moved_mds _ _ _ F). split; [|reflexivity]. f_equal. clear - F I.
    induction F as [|a a' l l' A F IH]; [reflexivity|]. destruct F as [|b b' l l' B F]; [reflexivity|].
    cbn [pairwise]. rewrite (moved_dogleg Q a a' b b' I A B). f_equal. exact IH.
Qed.

(** the same rows with every azimuth turned *)
Lemma survey_turned : forall w t h rows deg sx sn unit s sx', 
  Survey h rows deg sx sn unit = Some s ->
  exists s', Survey h (turned_rows w deg rows) deg sx'
      (moved (turn w) t sn) unit = Some s' /\
    moved_survey (turn w) t s s' /\ sv_dogleg s' = sv_dogleg s /\ sv_delta_md s' = sv_delta_md s.
Proof.
  intros w t h rows deg sx sn unit s sx' E. unfold turned_rows. match goal with |- context [Survey h ?l deg sx'] => set (rows' := l) end.
  assert (X : exists s', Survey h rows' deg sx' (moved (turn w) t sn) unit = Some s').
  { pose proof (Survey_inv _ _ _ _ _ _ _ E) as (U & _ & L & R & UU & _). unfold Survey. rewrite U, String.eqb_refl. cbn [negb]. cbv zeta.
    match goal with |- context [MinCurve ?l sx' _] => assert (P : exists mc, MinCurve l sx' (h_unit h) = Some mc) end.
    { apply MinCurve_some. split; [rewrite <- U; exact UU|]. unfold rows'. rewrite !map_length. unfold row in *. lia. }
    destruct P as [mc P]. rewrite P. eauto. }
  destruct X as [s' E']. exists s'. split; [exact E'|].
  eapply survey_moved; eauto using turn_iso.
  assert (RW : forall h rows deg sx sn unit s, Survey h rows deg sx sn unit = Some s -> sv_rows s =
    map (fun r : row => let '(md, inc, azi) := r in mkSt md (if deg then radians inc else inc)
      (az_grid_rad (process_azi_ref (h_ref h) (h_convergence h) (h_declination h) deg azi))) rows).
  { clear. intros h rows deg sx sn unit s E. unfold Survey in E. destruct (negb _); [discriminate|]. cbv zeta in E.
    destruct (MinCurve _ sx unit) as [mc|]; [|discriminate]. injection E as <-. cbn. apply map_ext. intros [[md inc] azi]. reflexivity. }
  rewrite (RW _ _ _ _ _ _ _ E), (RW _ _ _ _ _ _ _ E'). unfold rows'. rewrite map_map. clear.
  induction rows as [|[[md inc] azi] rows IH]; cbn [map]; constructor; auto.
  split; [reflexivity|]. cbn [st_inc st_azi].
  rewrite <- turn_direction. f_equal. unfold process_azi_ref. pose proof PI_RGT_0.
  destruct (h_ref h), deg; cbn [az_grid_rad]; unfold radians, degrees; try field; lra.
Qed.

(** ** bearings *)
Lemma same_angle : forall a b, cos a = cos b -> sin a = sin b -> exists k : Z, a = b + 2 * PI * IZR k.
Proof.
  intros a b C S. pose proof PI_RGT_0. set (d := rmod (a - b) (2 * PI)).
  assert (D : 0 <= d < 2 * PI) by (apply rmod_bounds; lra).
  assert (CD : cos d = 1). { unfold d. rewrite cos_rmod, cos_minus, C, S. pose proof (sin2_cos2' b). lra. }
  assert (Z : d = 0) by (apply cos_eq_1_small; [lra|exact CD]).
  unfold d, rmod in Z. exists (rfloor ((a - b) / (2 * PI))). lra.
Qed.
Lemma bearing_moved : forall w t inc azi azi' p q, (vx (vsub q p) <> 0 \/ vy (vsub q p) <> 0) ->
  exists k : Z, Rabs (dl_hoz_bearing (delta_vectors inc azi' (moved (turn w) t p) (moved (turn w) t q))
    - (dl_hoz_bearing (delta_vectors inc azi p q) + w + 2 * PI * IZR k)) <= / 10 ^ 6.
Proof.
  intros w t inc azi azi' p q N.
  pose proof (bearings_hoz inc azi p q) as H. pose proof (bearings_hoz inc azi' (moved (turn w) t p) (moved (turn w) t q)) as H'.
  cbv zeta in H, H'.
  set (h := dl_hoz_bearing (delta_vectors inc azi p q)) in *.
  set (h' := dl_hoz_bearing (delta_vectors inc azi' (moved (turn w) t p) (moved (turn w) t q))) in *. clearbody h h'.
  destruct H as (_ & e & r & E1 & R1 & A1 & A2). destruct H' as (_ & e' & r' & E2 & R2 & B1 & B2).
  rewrite moved_sub in B1, B2. destruct (vsub q p) as [x y z]. unfold turn, mv, dot in B1, B2. cbn in A1, A2, B1, B2, N.
  assert (RP : 0 < r). { destruct (Rle_lt_or_eq_dec _ _ R1) as [|Z]; auto. rewrite <- Z in A1, A2. lra. }
  assert (RR : r = r').
  { assert (r * r = r' * r').
    { assert (G : forall r a, r * r = r * cos a * (r * cos a) + r * sin a * (r * sin a)).
      { clear. intros r a. replace (r * cos a * (r * cos a) + r * sin a * (r * sin a)) with (r * r * (sin a * sin a + cos a * cos a)) by ring.
        rewrite sin2_cos2'. ring. }
      rewrite (G r (h + e)), (G r' (h' + e')), <- A1, <- A2, <- B1, <- B2.
      pose proof (sin2_cos2' w) as S. assert (CC : cos w * cos w = 1 - sin w * sin w) by lra. ring [CC]. }
    nra. }
  assert (C : cos (h' + e') = cos (h + e + w)).
  { apply (Rmult_eq_reg_l r); [|lra]. rewrite RR at 1. rewrite <- B1, A1, A2, (cos_plus (h + e) w). ring. }
  assert (S : sin (h' + e') = sin (h + e + w)).
  { apply (Rmult_eq_reg_l r); [|lra]. rewrite RR at 1. rewrite <- B2, A1, A2, (sin_plus (h + e) w). ring. }
  destruct (same_angle _ _ C S) as [k K]. exists k.
  replace (h' - (h + w + 2 * PI * IZR k)) with (e - e') by lra.
  replace (/ 10 ^ 6) with (/ (2 * 10 ^ 6) + / (2 * 10 ^ 6)) by (field; apply pow_nonzero; lra).
  revert E1 E2. unfold Rabs. repeat destruct (Rcase_abs _); lra.
Qed.
Lemma toolface_moved : forall w t inc azi p q,
  dl_toolface (delta_vectors inc (azi + w) (moved (turn w) t p) (moved (turn w) t q)) = dl_toolface (delta_vectors inc azi p q).
Proof.
  intros w t inc azi p q. unfold delta_vectors. cbv zeta. cbn [dl_toolface].
  rewrite !moved_sub, iso_norm, unit_moved by apply turn_iso. set (u := unit_or_zero _ _).
  assert (E : NEV_to_HLA_vec inc (azi + w) (mv (turn w) u) = NEV_to_HLA_vec inc azi u); [|rewrite E; reflexivity].
  destruct u as [x y z]. unfold NEV_to_HLA_vec, get_transform, turn, mv, dot; simpl. rewrite cos_plus, sin_plus.
  pose proof (sin2_cos2' w) as S. assert (CC : cos w * cos w = 1 - sin w * sin w) by lra.
  apply V3_eq; simpl; ring [CC].
Qed.

(** ** refined runs *)
Lemma near_moved : forall Q t opt off off' p i, isometry Q -> moved_well Q t off off' -> no_reversal (w_survey off) ->
  near_offset opt off' (moved Q t p) i =
  option_map (fun r => let '(f, u, m, x) := r in (f, mv Q u, mm (mm Q m) (mtrans Q), x)) (near_offset opt off p i).
Proof.
  intros Q t opt off off' p i I (M & C & RD) N. unfold near_offset. cbv zeta.
  assert (L : length (sv_rows (w_survey off')) = length (sv_rows (w_survey off))) by (symmetry; eapply F2_len; apply M).
  rewrite L. set (is := seq _ _). clearbody is.
  assert (G : forall is acc, 
    fold_left (fun best oi =>
    match nth_error (sv_rows (w_survey off')) oi, nth_error (sv_rows (w_survey off')) (S oi), nth_error (sv_nev (w_survey off')) oi,
          nth_error (w_cov off') oi, nth_error (w_cov off') (S oi), nth_error (w_radius off') oi, nth_error (w_radius off') (S oi) with
    | Some a, Some b, Some p0, Some ca, Some cb, Some ra, Some rb =>
        let bound := st_md b - st_md a in
        let '(x, f) := opt (closest_fun (w_survey off') oi (moved Q t p)) (bound / 2) bound in
        let better := match best with None => true | Some (d, _, _, _) => if Rlt_dec f d then true else false end in
        if better then
          let t0 := if Rlt_dec 0 bound then x / bound else 0 in
          Some (f, vsub (interpolate_pos_nev p0 a b x) (moved Q t p), interpolate_cov ca cb t0, ra + t0 * (rb - ra))
        else best
    | _, _, _, _, _, _, _ => best
    end) is (option_map (fun r : R * V3 * M3 * R => let '(f, u, m, x) := r in (f, mv Q u, mm (mm Q m) (mtrans Q), x)) acc) =
    option_map (fun r : R * V3 * M3 * R => let '(f, u, m, x) := r in (f, mv Q u, mm (mm Q m) (mtrans Q), x))
    (fold_left (fun best oi =>
    match nth_error (sv_rows (w_survey off)) oi, nth_error (sv_rows (w_survey off)) (S oi), nth_error (sv_nev (w_survey off)) oi,
          nth_error (w_cov off) oi, nth_error (w_cov off) (S oi), nth_error (w_radius off) oi, nth_error (w_radius off) (S oi) with
    | Some a, Some b, Some p0, Some ca, Some cb, Some ra, Some rb =>
        let bound := st_md b - st_md a in
        let '(x, f) := opt (closest_fun (w_survey off) oi p) (bound / 2) bound in
        let better := match best with None => true | Some (d, _, _, _) => if Rlt_dec f d then true else false end in
        if better then
          let t0 := if Rlt_dec 0 bound then x / bound else 0 in
          Some (f, vsub (interpolate_pos_nev p0 a b x) p, interpolate_cov ca cb t0, ra + t0 * (rb - ra))
        else best
    | _, _, _, _, _, _, _ => best
    end) is acc)).
  { clear is. induction is as [|oi is IH]; intro acc; [reflexivity|]. cbn [fold_left]. rewrite <- IH. f_equal.
    rewrite (nev_moved Q t _ _ M), C, RD, !nth_error_map, (closest_fun_moved Q t _ _ I M N).
    pose proof (row_moved Q t _ _ M oi) as A. pose proof (row_moved Q t _ _ M (S oi)) as B.
    destruct (nth_error (sv_rows (w_survey off)) oi) as [a|] eqn:EA, (nth_error (sv_rows (w_survey off')) oi) as [a'|]; try contradiction; [|reflexivity].
    destruct (nth_error (sv_rows (w_survey off)) (S oi)) as [b|] eqn:EB, (nth_error (sv_rows (w_survey off')) (S oi)) as [b'|]; try contradiction; [|reflexivity].
    destruct (nth_error (sv_nev (w_survey off)) oi) as [q|]; [|reflexivity]. cbn [option_map].
    destruct (nth_error (w_cov off) oi) as [ca|]; [|reflexivity]. cbn [option_map].
    destruct (nth_error (w_cov off) (S oi)) as [cb|]; [|reflexivity]. cbn [option_map].
    destruct (nth_error (w_radius off) oi) as [ra|]; [|reflexivity].
    destruct (nth_error (w_radius off) (S oi)) as [rb|]; [|reflexivity].
    assert (MB : st_md b' - st_md a' = st_md b - st_md a) by (destruct A as [-> _], B as [-> _]; reflexivity).
    cbv zeta. rewrite MB. destruct (opt _ _ _) as [x f].
    assert (BT : match option_map (fun r : R * V3 * M3 * R => let '(f, u, m, x) := r in (f, mv Q u, mm (mm Q m) (mtrans Q), x)) acc with
      | None => true | Some (d, _, _, _) => if Rlt_dec f d then true else false end =
      match acc with None => true | Some (d, _, _, _) => if Rlt_dec f d then true else false end).
    { destruct acc as [[[[d u] m] y]|]; reflexivity. }
    rewrite BT. destruct (match acc with None => true | Some (d, _, _, _) => _ end); [|reflexivity].
    cbn [option_map]. rewrite (pos_moved Q t q a a' b b' x I A B (N oi a b EA EB)), moved_sub, cov_interp. reflexivity. }
  exact (G is None).
Qed.
Lemma between_moved : forall Q k sp rr ro u rc oc, isometry Q ->
  sf_min_between k sp rr ro (mv Q u) (mm (mm Q rc) (mtrans Q)) (mm (mm Q oc) (mtrans Q)) = sf_min_between k sp rr ro u rc oc.
Proof.
  intros Q k sp rr ro u rc oc I. unfold sf_min_between. cbv zeta. rewrite iso_norm by exact I.
  destruct (Rlt_dec _ _); [reflexivity|]. rewrite <- mv_scale, !cov_iso by exact I. reflexivity.
Qed.
Lemma objective_moved : forall Q t opt c ref off ref' off' sf i d0 d1, isometry Q ->
  moved_well Q t ref ref' -> moved_well Q t off off' -> no_reversal (w_survey ref) -> no_reversal (w_survey off) ->
  objective opt c ref' off' sf i d0 d1 = objective opt c ref off sf i d0 d1.
Proof.
  intros Q t opt c ref off ref' off' sf i d0 d1 I MR MO NR NO. extensionality x. unfold objective.
  destruct (Req_EM_T x 0); [reflexivity|]. destruct (Req_EM_T x (- d0)); [reflexivity|]. destruct (Req_EM_T x d1); [reflexivity|].
  destruct (if Rlt_dec x 0 then _ else _) as [[ii xx] mult]. cbv zeta. destruct MR as (M & C & RD).
  rewrite !(nev_moved Q t _ _ M), C, RD, !nth_error_map. pose proof (row_moved Q t _ _ M ii) as A. pose proof (row_moved Q t _ _ M (S ii)) as B.
  destruct (nth_error (sv_rows (w_survey ref)) ii) as [a|] eqn:EA, (nth_error (sv_rows (w_survey ref')) ii) as [a'|]; try contradiction; [|reflexivity].
  destruct (nth_error (sv_rows (w_survey ref)) (S ii)) as [b|] eqn:EB, (nth_error (sv_rows (w_survey ref')) (S ii)) as [b'|]; try contradiction; [|reflexivity].
  destruct (nth_error (sv_nev (w_survey ref)) ii) as [p|]; [|reflexivity]. cbn [option_map].
  destruct (nth_error (w_cov ref) ii) as [ca|]; [|reflexivity]. cbn [option_map].
  destruct (nth_error (w_cov ref) (S ii)) as [cb|]; [|reflexivity]. cbn [option_map].
  destruct (nth_error (w_radius ref) (S ii)) as [rr|]; [|reflexivity].
  destruct (nth_error (sv_nev (w_survey ref)) i) as [pi|]; [|reflexivity]. cbn [option_map].
  rewrite (pos_moved Q t p a a' b b' xx I A B (NR ii a b EA EB)), (nearest_moved Q t _ _ I (proj1 MO)), (near_moved Q t opt off off' _ _ I MO NO).
  destruct (near_offset _ _ _ _) as [[[[f u] oc] ro]|]; [|reflexivity]. cbn [option_map].
  rewrite cov_interp, between_moved by exact I. reflexivity.
Qed.
Lemma depths_moved : forall Q t opt mini c ref off ref' off', isometry Q ->
  moved_well Q t ref ref' -> moved_well Q t off off' -> has_positions (w_survey off) -> has_positions (w_survey off') ->
  no_reversal (w_survey ref) -> no_reversal (w_survey off) ->
  minimum_depths opt mini c ref' off' = minimum_depths opt mini c ref off.
Proof.
  intros Q t opt mini c ref off ref' off' I MR MO P1 P2 NR NO. unfold minimum_depths.
  rewrite (run_moved Q t opt c ref off ref' off') by auto. set (sf := factors _).
  assert (E : forall k, st_md (nth k (sv_rows (w_survey ref')) (mkSt 0 0 0)) = st_md (nth k (sv_rows (w_survey ref)) (mkSt 0 0 0))).
  { intro k. rewrite <- !(map_nth st_md). destruct MR as ((_ & F & _) & _). rewrite (moved_mds _ _ _ F). reflexivity. }
  cbv zeta. apply flat_map_ext. intro i. rewrite !E, (objective_moved Q t opt c ref off) by auto. reflexivity.
Qed.
Lemma spaced_insert : forall rows k x, (S k <= length rows)%nat -> forall r m, (S k <= m)%nat ->
  spaced rows m r -> spaced (insert_at (S k) x rows) (S m) r.
Proof.
  intros rows k x L r. induction r as [|md r IH]; intros m Hm H; [exact Logic.I|].
  destruct H as (j & a & b & J & A & B & R & H). exists (S j), a, b. split; [lia|].
  rewrite !insert_nth_gt by lia. split; auto. split; auto. split; auto. apply IH; [lia|exact H].
Qed.
Lemma F2_insert : forall A B (P : A -> B -> Prop) l l' i x x', Forall2 P l l' -> P x x' -> Forall2 P (insert_at i x l) (insert_at i x' l').
Proof.
  intros A B P l l' i x x' F X. unfold insert_at. apply Forall2_app.
  - revert i. induction F; intros [|i]; cbn; constructor; auto.
  - constructor; auto. revert i. induction F; intros [|i]; cbn; auto.
Qed.
Lemma add_moved : forall Q t sx sn sx' sn' mds m s cov rad s' cov' rad', isometry Q ->
  placed s sx sn -> placed s' sx' sn' -> strictly_increasing (map st_md (sv_rows s)) -> bends_ok (sv_rows s) ->
  length rad = length (sv_rows s) -> moved_well Q t (mkWell s cov rad) (mkWell s' cov' rad') -> spaced (sv_rows s) m mds ->
  exists z z', add_stations (mkWell s cov rad) mds = Some z /\ add_stations (mkWell s' cov' rad') mds = Some z' /\
    moved_well Q t z z'.
Proof.
  intros Q t sx sn sx' sn' mds. induction mds as [|md r IH]; intros m s cov rad s' cov' rad' I P P' SI BO LR MW SPC.
  - exists (mkWell s cov rad), (mkWell s' cov' rad'). auto.
  - destruct SPC as (k & a & b & MK & A & B & R & SPC).
    destruct (placed_len _ _ _ P) as [LX LN].
    assert (Lk : (S k < length (sv_rows s))%nat) by (apply nth_error_Some; congruence).
    destruct (nth_error_some_lt _ (sv_nev s) k) as [p HP]; [lia|]. destruct (nth_error_some_lt _ rad (S k)) as [rb HR]; [lia|].
    destruct (add_one s cov rad sx sn k a b p md rb P SI BO A B HP HR R) as
      (s1 & st & q & AD & PS1 & HH & RS & NS & FS & MM & DD & QQ & SI1 & BO1).
    destruct MW as (MS & C & RD). cbn [w_survey w_cov w_radius] in *. pose proof MS as (U & F & NV & FL).
    pose proof (F2_nth _ _ _ _ _ k F) as A'. pose proof (F2_nth _ _ _ _ _ (S k) F) as B'. rewrite A in A'. rewrite B in B'.
    destruct (nth_error (sv_rows s') k) as [a'|] eqn:EA'; [|contradiction]. destruct (nth_error (sv_rows s') (S k)) as [b'|] eqn:EB'; [|contradiction].
    assert (MD : map st_md (sv_rows s') = map st_md (sv_rows s)) by (eapply moved_mds; eauto).
    assert (BO' : bends_ok (sv_rows s')).
    { intros i x y X Y. pose proof (F2_nth _ _ _ _ _ i F) as X'. pose proof (F2_nth _ _ _ _ _ (S i) F) as Y'. rewrite X in X'. rewrite Y in Y'.
      destruct (nth_error (sv_rows s) i) as [x0|] eqn:E1; [|contradiction]. destruct (nth_error (sv_rows s) (S i)) as [y0|] eqn:E2; [|contradiction].
      rewrite (moved_dogleg Q x0 x y0 y) by auto. exact (BO i x0 y0 E1 E2). }
    assert (PA : pair_dogleg a b < PI) by exact (BO k a b A B).
    destruct (add_one s' cov' rad' sx' sn' k a' b' (moved Q t p) md rb P') as
      (s1' & st' & q' & AD' & PS1' & HH' & RS' & NS' & FS' & MM' & DD' & QQ' & SI1' & BO1'); auto.
    { rewrite MD. exact SI. }
    { rewrite NV, nth_error_map, HP. reflexivity. }
    { rewrite RD. exact HR. }
    { destruct A' as [-> _], B' as [-> _]. exact R. }
    assert (MA : st_md a' = st_md a) by apply A'.
    assert (INS : forall X Y (f : X -> Y) i x l, map f (insert_at i x l) = insert_at i (f x) (map f l)).
    { clear. intros. unfold insert_at. rewrite map_app, firstn_map. cbn. rewrite skipn_map. reflexivity. }
    assert (MW1 : moved_well Q t (mkWell s1 (insert_at (S k) mzero cov) (insert_at (S k) rb rad))
       (mkWell s1' (insert_at (S k) mzero cov') (insert_at (S k) rb rad'))).
    { split; cbn [w_survey w_cov w_radius].
      - split; [rewrite HH, HH'; cbn; exact U|]. split.
        + rewrite RS, RS'. apply F2_insert; auto. split; [congruence|].
          fold (dir st'). fold (dir st). rewrite DD, DD', MA. apply moved_dir. apply interp_moved; auto.
        + split; [|rewrite FS, FS', FL; reflexivity].
          rewrite NS, NS', NV, INS, QQ, QQ', MA. f_equal. apply pos_moved; auto.
      - split; [|rewrite RD; reflexivity]. rewrite C, INS, cov_zero. reflexivity. }
    destruct (IH (S (S k)) s1 (insert_at (S k) mzero cov) (insert_at (S k) rb rad) s1' (insert_at (S k) mzero cov') (insert_at (S k) rb rad') I PS1 PS1' SI1 BO1) as (z & z' & Z1 & Z2 & Z3).
    + rewrite RS, !insert_length by lia. lia.
    + exact MW1.
    + rewrite RS. apply spaced_insert; [lia|lia|exact SPC].
    + exists z, z'. cbn [add_stations]. rewrite AD, AD'. auto.
Qed.
Lemma refined_moved : forall Q t opt mini c ref off ref' off', isometry Q ->
  moved_well Q t ref ref' -> moved_well Q t off off' ->
  built (w_survey ref) -> built (w_survey ref') -> built (w_survey off) -> built (w_survey off') ->
  h_unit (sv_header (w_survey ref)) = "meters"%string ->
  strictly_increasing (map st_md (sv_rows (w_survey ref))) -> no_reversal (w_survey ref) -> no_reversal (w_survey off) ->
  length (w_radius ref) = length (sv_rows (w_survey ref)) -> descends mini ->
  exists r r' results, refined_run opt mini c ref off = Some (r, results) /\ refined_run opt mini c ref' off' = Some (r', results) /\
    moved_well Q t r r'.
Proof.
  intros Q t opt mini c ref off ref' off' I MR MO (h & rows & deg & sx & sn & un & B1) (h' & rows' & deg' & sx' & sn' & un' & B2) B3 B4 UM SI NR NO LR D.
  pose proof (built_positions _ B3) as P3. pose proof (built_positions _ B4) as P4.
  pose proof (Survey_inv _ _ _ _ _ _ _ B1) as (U1 & H1 & _). pose proof (Survey_inv _ _ _ _ _ _ _ B2) as (U2 & H2 & _).
  assert (E1 : un = "meters"%string) by congruence.
  assert (E2 : un' = "meters"%string) by (destruct MR as ((U & _) & _); congruence).
  rewrite E1 in B1. rewrite E2 in B2.
  pose proof (placed_survey _ _ _ _ _ _ B1) as PL. pose proof (placed_survey _ _ _ _ _ _ B2) as PL'.
  unfold refined_run. rewrite (depths_moved Q t opt mini c ref off ref' off') by auto.
  pose proof (depths_spaced opt mini c ref off D SI) as SP.
  destruct (minimum_depths opt mini c ref off) as [|md r] eqn:MD.
  - exists ref, ref', (clearance_run opt c ref off). rewrite (run_moved Q t opt c ref off ref' off') by auto. auto.
  - destruct ref as [s cov rad], ref' as [s' cov' rad']. cbn [w_survey w_cov w_radius] in *.
    destruct (add_moved Q t sx sn sx' sn' (md :: r) 0 s cov rad s' cov' rad' I PL PL' SI NR LR MR SP) as (z & z' & Z1 & Z2 & Z3).
    rewrite Z1, Z2. exists z, z', (clearance_run opt c z off). rewrite (run_moved Q t opt c z off z' off') by auto. auto.
Qed.

(** ** from the inputs: every azimuth changed by the same angle *)
Lemma turned_run : forall w t opt c h rows deg sx sn unit s cov rad h2 rows2 deg2 sx2 sn2 unit2 s2 cov2 rad2,
  Survey h rows deg sx sn unit = Some s -> Survey h2 rows2 deg2 sx2 sn2 unit2 = Some s2 -> no_reversal s2 ->
  exists s' s2',
    Survey h (turned_rows w deg rows) deg sx (moved (turn w) t sn) unit = Some s' /\
    Survey h2 (turned_rows w deg2 rows2) deg2 sx2 (moved (turn w) t sn2) unit2 = Some s2' /\
    clearance_run opt c (mkWell s' (map (turned_cov (turn w)) cov) rad) (mkWell s2' (map (turned_cov (turn w)) cov2) rad2) =
    clearance_run opt c (mkWell s cov rad) (mkWell s2 cov2 rad2).
Proof.
  intros w t opt c h rows deg sx sn unit s cov rad h2 rows2 deg2 sx2 sn2 unit2 s2 cov2 rad2 E E2 N.
  destruct (survey_turned w t _ _ _ _ _ _ _ sx E) as (s' & S1 & M1 & _).
  destruct (survey_turned w t _ _ _ _ _ _ _ sx2 E2) as (s2' & S2 & M2 & _).
  exists s', s2'. split; [exact S1|]. split; [exact S2|].
  apply (clearance_moved (turn w) t); cbn [w_survey w_cov w_radius].
  - apply turn_iso.
  - split; auto.
  - split; auto.
  - do 6 eexists; eauto.
  - do 6 eexists; eauto.
  - exact N.
Qed.
(** east and west exchanged *)
Lemma mirrored_survey : forall t h rows deg sx sn unit s, Survey h rows deg sx sn unit = Some s ->
  exists s', Survey (mirrored_header h) (map (fun r => let '(md, inc, azi) := r in (md, inc, - azi)) rows) deg sx
      (moved east_west t sn) unit = Some s' /\ moved_survey east_west t s s' /\ sv_dogleg s' = sv_dogleg s.
Proof.
  intros t h rows deg sx sn unit s E. match goal with |- context [Survey (mirrored_header h) ?l deg sx] => set (rows' := l) end.
  assert (X : exists s', Survey (mirrored_header h) rows' deg sx (moved east_west t sn) unit = Some s').
  { pose proof (Survey_inv _ _ _ _ _ _ _ E) as (U & _ & L & R & UU & _). unfold Survey. rewrite U. cbn [mirrored_header h_unit]. rewrite String.eqb_refl. cbn [negb]. cbv zeta.
    match goal with |- context [MinCurve ?l sx _] => assert (P : exists mc, MinCurve l sx (h_unit h) = Some mc) end.
    { apply MinCurve_some. split; [rewrite <- U; exact UU|]. unfold rows'. rewrite !map_length. unfold row in *. lia. }
    destruct P as [mc P]. rewrite P. eauto. }
  destruct X as [s' E']. exists s'. split; [exact E'|].
  assert (G : moved_survey east_west t s s' /\ sv_dogleg s' = sv_dogleg s /\ sv_delta_md s' = sv_delta_md s); [|tauto].
  eapply survey_moved; eauto using mirror_iso.
  assert (RW : forall h rows deg sx sn unit s, Survey h rows deg sx sn unit = Some s -> sv_rows s =
    map (fun r : row => let '(md, inc, azi) := r in mkSt md (if deg then radians inc else inc)
      (az_grid_rad (process_azi_ref (h_ref h) (h_convergence h) (h_declination h) deg azi))) rows).
  { clear. intros h rows deg sx sn unit s E. unfold Survey in E. destruct (negb _); [discriminate|]. cbv zeta in E.
    destruct (MinCurve _ sx unit) as [mc|]; [|discriminate]. injection E as <-. cbn. apply map_ext. intros [[md inc] azi]. reflexivity. }
  rewrite (RW _ _ _ _ _ _ _ E), (RW _ _ _ _ _ _ _ E'). unfold rows'. rewrite map_map. clear.
  induction rows as [|[[md inc] azi] rows IH]; cbn [map]; constructor; auto.
  split; [reflexivity|]. cbn [st_inc st_azi mirrored_header h_ref h_convergence h_declination].
  rewrite <- mirror_direction. f_equal. unfold process_azi_ref. pose proof PI_RGT_0.
  destruct (h_ref h), deg; cbn [az_grid_rad]; unfold radians, degrees; try field; lra.
Qed.
