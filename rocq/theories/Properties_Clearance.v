(** Property theorems C28-C31, C61-C65 (welleng/clearance.py). *)
Require Import Reals ZArith Lra Lia Bool String List.
Require Import Verif.Base Verif.NumPy Verif.Spec Verif.Spec_Lists Verif.M_Utils Verif.M_Survey Verif.P_Survey4.
Require Import Verif.M_Error Verif.Spec_Error Verif.P_Error Verif.M_Clearance Verif.Spec_Clearance.
Require Import Verif.P_Clearance Verif.P_Clearance2 Verif.P_Clearance3.
Import ListNotations.
Open Scope R_scope.

(** * C28 *)
Theorem C28_decisions : forall k spa Sm Rr Ro inc azi p q rc oc r,
  iscwsa_rule k spa Sm Rr Ro inc azi p q rc oc = Some r -> 0 < ru_eou_boundary r ->
  exists sf, ru_sf r = Fin sf /\
    (1 <= sf <-> ru_masd r <= dist p q) /\ (0 <= sf <-> Rr + Ro + Sm <= dist p q) /\
    sf = 1 + ru_eou_separation r / ru_eou_boundary r /\
    (1 <= sf <-> 0 <= ru_eou_separation r).
Proof. exact rule_decisions. Qed.
Print Assumptions C28_decisions.
Theorem C28_quantities : forall k spa Sm Rr Ro inc azi p q rc oc r,
  iscwsa_rule k spa Sm Rr Ro inc azi p q rc oc = Some r ->
  ru_distance r = dist p q /\
  0 <= ru_ref_pcr r /\ 0 <= ru_off_pcr r /\
  ru_eou_boundary r = k * sqrt (ru_ref_pcr r ^ 2 + ru_off_pcr r ^ 2 + spa ^ 2) /\
  ru_masd r = Rr + Ro + Sm + ru_eou_boundary r /\
  ru_wellbore_separation r = dist p q - (Rr + Ro + Sm) /\
  ru_eou_separation r = dist p q - ru_masd r /\
  ru_sf r = ediv (dist p q - (Rr + Ro + Sm)) (ru_eou_boundary r).
Proof. exact rule_fields. Qed.
Print Assumptions C28_quantities.
Theorem C28_no_uncertainty : forall k spa Sm Rr Ro inc azi p q rc oc r, 0 < k ->
  iscwsa_rule k spa Sm Rr Ro inc azi p q rc oc = Some r ->
  0 <= ru_eou_boundary r /\
  (ru_eou_boundary r = 0 <-> spa = 0 /\ ru_ref_pcr r = 0 /\ ru_off_pcr r = 0) /\
  (ru_eou_boundary r = 0 -> ru_sf r = (if Rlt_dec (Rr + Ro + Sm) (dist p q) then PInf
                                      else if Rlt_dec (dist p q) (Rr + Ro + Sm) then NInf else NaN)).
Proof. exact rule_no_uncertainty. Qed.
Print Assumptions C28_no_uncertainty.
Theorem C28_monotone : forall k spa Sm Rr Ro k' spa' Sm' Rr' Ro' inc azi p q rc oc rc' oc' r r' sf sf',
  0 < k <= k' -> Rabs spa <= Rabs spa' -> Sm <= Sm' -> Rr <= Rr' -> Ro <= Ro' ->
  psd (msub rc' rc) -> psd (msub oc' oc) ->
  iscwsa_rule k spa Sm Rr Ro inc azi p q rc oc = Some r ->
  iscwsa_rule k' spa' Sm' Rr' Ro' inc azi p q rc' oc' = Some r' ->
  ru_sf r = Fin sf -> ru_sf r' = Fin sf' ->
  (Rr' + Ro' + Sm' <= dist p q -> sf' <= sf) /\
  (dist p q <= Rr + Ro + Sm -> Rr' = Rr -> Ro' = Ro -> Sm' = Sm -> sf <= sf').
Proof. exact rule_mono. Qed.
Print Assumptions C28_monotone.
Theorem C28_distance : forall k spa Sm Rr Ro inc azi p q t rc oc r r' sf sf',
  0 < k -> 1 <= t -> p <> q ->
  iscwsa_rule k spa Sm Rr Ro inc azi p q rc oc = Some r ->
  iscwsa_rule k spa Sm Rr Ro inc azi p (vadd p (vscale t (vsub q p))) rc oc = Some r' ->
  ru_sf r = Fin sf -> ru_sf r' = Fin sf' -> sf <= sf'.
Proof. exact rule_distance. Qed.
Print Assumptions C28_distance.
Theorem C28_monotone_everywhere_refuted : exists k k' spa Sm Rr Ro inc azi p q rc oc r r' sf sf',
  0 < k < k' /\ iscwsa_rule k spa Sm Rr Ro inc azi p q rc oc = Some r /\
  iscwsa_rule k' spa Sm Rr Ro inc azi p q rc oc = Some r' /\
  ru_sf r = Fin sf /\ ru_sf r' = Fin sf' /\ sf < sf'.
Proof. exact more_uncertainty_raises. Qed.
Print Assumptions C28_monotone_everywhere_refuted.
Example C28_case : exists r r', 0 < 2 <= 3 /\
  iscwsa_rule 2 1 (1/2) 1 1 0 0 (mkV 0 0 0) (mkV 30 40 0) mid mzero = Some r /\ 0 < ru_eou_boundary r /\
  iscwsa_rule 3 1 (1/2) 1 1 0 0 (mkV 0 0 0) (mkV 30 40 0) mid mzero = Some r' /\
  1 + 1 + 1/2 <= dist (mkV 0 0 0) (mkV 30 40 0) /\ psd (msub mid mid) /\ mkV 0 0 0 <> mkV 30 40 0.
Proof.
  assert (N : mkV 0 0 0 <> mkV 30 40 0) by (intro E; injection E; lra).
  assert (P0 : psd mzero) by apply psd_mzero.
  assert (P1 : psd mid). { intro v. replace (qform mid v) with (dot v v) by (destruct v; unf; simpl; ring). destruct v; unf; simpl; nra. }
  destruct (pedal_spec 0 0 _ _ mid N P1) as (u & s & _ & A & _). destruct (pedal_spec 0 0 _ _ mzero N P0) as (u' & s' & _ & _ & _ & _ & _ & B).
  assert (F : forall k, 0 < k -> exists r, iscwsa_rule k 1 (1/2) 1 1 0 0 (mkV 0 0 0) (mkV 30 40 0) mid mzero = Some r).
  { intros k Hk. unfold iscwsa_rule. rewrite A, B. eexists; reflexivity. }
  destruct (F 2 ltac:(lra)) as [r R]. destruct (F 3 ltac:(lra)) as [r' R']. exists r, r'.
  split; [lra|]. split; auto. split.
  { assert (K2 : 0 < 2) by lra. destruct (C28_no_uncertainty _ _ _ _ _ _ _ _ _ _ _ _ K2 R) as (G & Z & _). destruct (Req_EM_T (ru_eou_boundary r) 0) as [E|E]; [|lra].
    apply Z in E. destruct E as [E _]. lra. }
  split; auto. split.
  { unfold dist, norm. replace (dot _ _) with (50 * 50) by (unf; simpl; ring). rewrite sqrt_square; lra. }
  split; auto. intro v. rewrite qform_msub. lra.
Qed.

(** * C29 *)
Theorem C29_standard_deviation : forall inc azi p q cov, p <> q -> psd cov ->
  exists u s, points_along (vsub q p) u /\
    pcr (dl_ref_nev (delta_vectors inc azi p q)) cov = Some s /\
    0 <= s /\ s * s = qform cov u /\ s <= sqrt (trace cov) /\
    pcr (dl_off_nev (delta_vectors inc azi p q)) cov = Some s.
Proof. exact pedal_spec. Qed.
Print Assumptions C29_standard_deviation.
Theorem C29_coincident : forall inc azi p cov,
  pcr (dl_ref_nev (delta_vectors inc azi p p)) cov = Some 0 /\
  pcr (dl_off_nev (delta_vectors inc azi p p)) cov = Some 0.
Proof. exact pedal_coincide. Qed.
Print Assumptions C29_coincident.
Theorem C29_additive : forall d a b s t, psd a -> psd b -> pcr d a = Some s -> pcr d b = Some t ->
  exists r, pcr d (madd a b) = Some r /\ 0 <= r /\ r * r = s * s + t * t.
Proof. exact pedal_additive. Qed.
Print Assumptions C29_additive.
Theorem C29_nan : forall d c, pcr d c = None <-> qform c d < 0.
Proof. exact pedal_nan. Qed.
Print Assumptions C29_nan.
Theorem C29_swap : forall k spa Sm Rr Ro inc azi inc' azi' p q rc oc r,
  iscwsa_rule k spa Sm Rr Ro inc azi p q rc oc = Some r ->
  exists r', iscwsa_rule k spa Sm Ro Rr inc' azi' q p oc rc = Some r' /\
    ru_distance r' = ru_distance r /\ ru_sigmaS r' = ru_sigmaS r /\
    ru_ref_pcr r' = ru_off_pcr r /\ ru_off_pcr r' = ru_ref_pcr r /\
    ru_masd r' = ru_masd r /\ ru_eou_separation r' = ru_eou_separation r /\ ru_sf r' = ru_sf r.
Proof. exact swap_roles. Qed.
Print Assumptions C29_swap.
Example C29_case : vzero <> mkV 1 2 3 /\ psd (outer (mkV 1 1 0) (mkV 1 1 0)) /\ qform (mscale (-1) mid) (mkV 0 0 1) < 0.
Proof. split. intro E; injection E; lra. split. apply psd_outer. unf; simpl; lra. Qed.

(** * C30 *)
Theorem C30_zero_at_kop : forall rev4 sv ki errs, (ki < length sv)%nat ->
  Forall (fun v => from_generate (drdp rev4 sv) (length sv) (Some v)) errs ->
  length (cov_below_kop (length sv) ki errs) = (length sv - ki)%nat /\
  nth_error (cov_below_kop (length sv) ki errs) 0 = Some mzero /\
  forall j c, nth_error (cov_below_kop (length sv) ki errs) j = Some c -> symmetric c.
Proof. exact below_kop_zero. Qed.
Print Assumptions C30_zero_at_kop.
Theorem C30_psd : forall rev4 sv ki errs, (ki < length sv)%nat -> strictly_increasing (map st_md sv) ->
  Forall (fun v => exists code e p, Some v = generate_error (drdp rev4 sv) code e p None /\ length e = length sv) errs ->
  Forall (fun v => er_propagation v <> "random"%string \/ depth_only_source (er_e_DIA v) \/
                   rev4 = true /\ forall x, In x (er_e_DIA v) -> vx x = 0) errs ->
  forall j c, nth_error (cov_below_kop (length sv) ki errs) j = Some c -> psd c.
Proof. exact below_kop_psd. Qed.
Print Assumptions C30_psd.
Theorem C30_systematic : forall rev4 sv ki v j, (ki + j < length sv)%nat ->
  (exists code e p, Some v = generate_error (drdp rev4 sv) code e p None /\ length e = length sv) ->
  er_propagation v <> "random"%string -> ~ depth_only_source (er_e_DIA v) ->
  exists a a0, nth_error (er_e_NEV_star v) (ki + j) = Some a /\ nth_error (er_e_NEV_star v) ki = Some a0 /\
    let since := vadd (vsub a a0) (vsum (slice ki j (er_e_NEV v))) in
    nth_error (cov_below_kop (length sv) ki [v]) j = Some (outer since since).
Proof. exact below_kop_systematic. Qed.
Print Assumptions C30_systematic.
Theorem C30_kop_index : forall mds d, strictly_increasing mds ->
  let ki := kop_index mds (Some d) in
  (ki <= length mds)%nat /\
  (forall k m, nth_error mds k = Some m -> (k < ki)%nat -> m < d) /\
  (forall k m, nth_error mds k = Some m -> (ki <= k)%nat -> d <= m).
Proof. exact kop_index_spec. Qed.
Print Assumptions C30_kop_index.
Theorem C30_random_psd_refuted : exists rev4 sv ki v,
  (ki < length sv)%nat /\ strictly_increasing (map st_md sv) /\
  (exists code e p, Some v = generate_error (drdp rev4 sv) code e p None /\ length e = length sv) /\
  exists j c, nth_error (cov_below_kop (length sv) ki [v]) j = Some c /\ ~ psd c /\
  exists p q, p <> q /\ forall k spa Sm Rr Ro inc azi oc, iscwsa_rule k spa Sm Rr Ro inc azi p q c oc = None.
Proof. exact random_not_psd. Qed.
Print Assumptions C30_random_psd_refuted.
Example C30_case : exists v w,
  Some v = generate_error (drdp true bad_sv) "x" [mkV 0 1 1; mkV 0 1 2; mkV 0 1 1] "random" None /\
  Some w = generate_error (drdp true bad_sv) "y" bad_e "global" None /\
  strictly_increasing (map st_md bad_sv) /\ (forall x, In x (er_e_DIA v) -> vx x = 0) /\
  er_propagation w <> "random"%string /\ ~ depth_only_source (er_e_DIA w) /\
  from_generate (drdp true bad_sv) (length bad_sv) (Some v).
Proof.
  destruct (gen_random (drdp true bad_sv) "x" [mkV 0 1 1; mkV 0 1 2; mkV 0 1 1]) as (v & G & D). exists v. eexists.
  split; auto. split; [reflexivity|]. split; [simpl; lra|]. split.
  - rewrite D. simpl. intros x [<-|[<-|[<-|[]]]]; reflexivity.
  - split; [discriminate|]. split.
    + cbn [er_e_DIA]. intros [Q _]. destruct (Q (mkV 1 (1/100) 0)) as [Q1 _]; [simpl; auto|]. simpl in Q1. rewrite Rabs_right in Q1; lra.
    + exists "x"%string, [mkV 0 1 1; mkV 0 1 2; mkV 0 1 1], "random"%string, None. auto.
Qed.

(** * C31; the hypotheses on the offset survey are met by C16_case *)
Theorem C31_closest : forall h rows deg sx sn unit s opt station,
  Survey h rows deg sx sn unit = Some s -> strictly_increasing (map st_md (sv_rows s)) ->
  (forall i a b, nth_error (sv_rows s) i = Some a -> nth_error (sv_rows s) (S i) = Some b ->
     get_dogleg (st_inc a) (st_azi a) (st_inc b) (st_azi b) < PI) ->
  never_worse opt ->
  let i := nearest_station (sv_nev s) station in
  exists index x f q a b n h',
    closest_point opt s station i = Some (index, x, f, q) /\ adjacent i index /\
    nth_error (sv_rows s) index = Some a /\ nth_error (sv_rows s) (S index) = Some b /\
    0 <= x <= st_md b - st_md a /\
    survey_interpolate_md s (st_md a + x) = NodeOk n h' /\ nd_md n = st_md a + x /\ nd_pos n = q /\
    f = dist station q /\
    forall k o, nth_error (sv_nev s) k = Some o -> dist station q <= dist station o.
Proof. exact closest_on_well. Qed.
Print Assumptions C31_closest.
Theorem C31_best_of_two : forall opt s station i index x f q,
  closest_point opt s station i = Some (index, x, f, q) ->
  ((0 < i)%nat -> f <= snd (opt (closest_fun s (i - 1) station) (interval s (i - 1)) (interval s (i - 1)))) /\
  ((i < length (sv_nev s) - 1)%nat -> f <= snd (opt (closest_fun s i station) 0 (interval s i))).
Proof. exact best_of_two. Qed.
Print Assumptions C31_best_of_two.
Theorem C31_nearest_station : forall offsets station, offsets <> [] ->
  exists o, nth_error offsets (nearest_station offsets station) = Some o /\
  (forall k x, nth_error offsets k = Some x -> dist station o <= dist station x) /\
  (forall k x, (k < nearest_station offsets station)%nat -> nth_error offsets k = Some x -> dist station o < dist station x).
Proof. exact nearest_first. Qed.
Print Assumptions C31_nearest_station.
Example C31_case : never_worse (fun f x0 ub => (x0, f x0)) /\
  exists s, Survey ex_header ex_rows false vzero vzero "meters" = Some s /\ strictly_increasing (map st_md (sv_rows s)).
Proof.
  split. intros f x0 ub H. split; auto. split; auto. lra.
  destruct ex_survey as [s H]. exists s. split; auto. apply ex_increasing; auto.
Qed.

(** * C61 *)
Theorem C61_between_stations : forall k spa Sm Rr Ro inc azi p q rc oc r, psd rc -> psd oc ->
  tol <= dist p q -> 0 < ru_eou_boundary r ->
  iscwsa_rule k spa Sm Rr Ro inc azi p q rc oc = Some r ->
  exists sf v, ru_sf r = Fin sf /\ sf_min_between k spa Rr Ro (vsub q p) rc oc = Some v /\
    v = sf + Sm / ru_eou_boundary r.
Proof. exact sf_between. Qed.
Print Assumptions C61_between_stations.
Example C61_case : exists r, iscwsa_rule 2 1 5 1 1 0 0 (mkV 0 0 0) (mkV 30 40 0) mzero mzero = Some r /\ 0 < ru_eou_boundary r /\
  tol <= dist (mkV 0 0 0) (mkV 30 40 0).
Proof.
  assert (N : mkV 0 0 0 <> mkV 30 40 0) by (intro E; injection E; lra).
  assert (P0 : psd mzero) by apply psd_mzero.
  destruct (pedal_spec 0 0 _ _ mzero N P0) as (u & s & _ & A & _ & _ & _ & B).
  assert (F : exists r, iscwsa_rule 2 1 5 1 1 0 0 (mkV 0 0 0) (mkV 30 40 0) mzero mzero = Some r).
  { unfold iscwsa_rule. rewrite A, B. eexists; reflexivity. }
  destruct F as [r R]. exists r. split; auto. split.
  { assert (K2 : 0 < 2) by lra. destruct (C28_no_uncertainty _ _ _ _ _ _ _ _ _ _ _ _ K2 R) as (G & Z & _). destruct (Req_EM_T (ru_eou_boundary r) 0) as [E|E]; [|lra].
    apply Z in E. destruct E as [E _]. lra. }
  unfold dist, norm. replace (dot _ _) with (50 * 50) by (unf; simpl; ring). rewrite sqrt_square by lra. unfold tol. lra.
Qed.

(** * C62 *)
Theorem C62_interpolated_covariance : forall a b m, 0 <= m <= 1 ->
  (psd a -> psd b -> psd (interpolate_cov a b m)) /\
  (symmetric a -> symmetric b -> symmetric (interpolate_cov a b m)) /\
  interpolate_cov a b 0 = a /\ interpolate_cov a b 1 = b /\
  trace (interpolate_cov a b m) = (1 - m) * trace a + m * trace b /\
  (psd (msub b a) -> forall m', m <= m' -> psd (msub (interpolate_cov a b m') (interpolate_cov a b m))).
Proof. exact interpolated_cov. Qed.
Print Assumptions C62_interpolated_covariance.
Example C62_case : psd mzero /\ psd (msub (outer (mkV 1 2 3) (mkV 1 2 3)) mzero) /\ 0 <= 1/2 <= 1.
Proof.
  split. apply psd_mzero. split. intro v. rewrite qform_msub, qform_mzero.
  pose proof (psd_outer (mkV 1 2 3) v). lra. lra.
Qed.

(** * C63 *)
Theorem C63_decision : forall collision cc distance depth, 0 <= cc -> 0 <= depth -> 0 <= distance <= cc ->
  (collision = true -> exists x, mesh_sf collision cc distance depth = Fin x /\ 0 <= x < 1) /\
  (collision = false -> mesh_sf collision cc distance depth = PInf \/
                        exists x, mesh_sf collision cc distance depth = Fin x /\ 1 <= x) /\
  (collision = false -> forall cc' distance' x y, 0 <= distance' <= cc' -> cc - distance = cc' - distance' -> distance <= distance' ->
     mesh_sf false cc distance depth = Fin x -> mesh_sf false cc' distance' depth = Fin y -> x <= y).
Proof. exact mesh_decision. Qed.
Print Assumptions C63_decision.
Theorem C63_rounded_refuted : exists cc distance depth x, 0 < cc /\ 0 < depth /\ 0 <= distance <= cc /\
  mesh_sf true cc distance depth = Fin x /\ x < 1 /\ round2 x = 1.
Proof. exact mesh_round_hides. Qed.
Print Assumptions C63_rounded_refuted.
Example C63_case : 0 <= 10 /\ 0 <= 1 /\ 0 <= 4 <= 10 /\ 0 <= 5 <= 11 /\ 10 - 4 = 11 - 5.
Proof. lra. Qed.

(** * C64 *)
Theorem C64_horizontal : forall inc azi p q,
  let t := dl_hoz_bearing (delta_vectors inc azi p q) in
  0 <= t < 2 * PI /\ exists e r, Rabs e <= / (2 * 10 ^ 6) /\ 0 <= r /\
    vx (vsub q p) = r * cos (t + e) /\ vy (vsub q p) = r * sin (t + e).
Proof. exact bearings_hoz. Qed.
Print Assumptions C64_horizontal.
Theorem C64_toolface : forall inc azi p q,
  let t := dl_toolface (delta_vectors inc azi p q) in
  let high_side := mkV (cos inc * cos azi) (cos inc * sin azi) (- sin inc) in
  let lateral := mkV (- sin azi) (cos azi) 0 in
  0 <= t < 2 * PI /\ exists e r, Rabs e <= / (2 * 10 ^ 6) /\ 0 <= r /\
    dot (vsub q p) high_side = r * cos (t + e) /\ dot (vsub q p) lateral = r * sin (t + e).
Proof. exact bearings_toolface. Qed.
Print Assumptions C64_toolface.
Theorem C64_degrees : forall inc azi p q,
  let d := delta_vectors inc azi p q in
  dl_hoz_bearing_deg d = degrees (dl_hoz_bearing d) /\ dl_toolface_deg d = degrees (dl_toolface d) /\
  forall grid, 0 <= traveling_cylinder grid (dl_toolface_deg d) < 360 /\
    exists k, traveling_cylinder grid (dl_toolface_deg d) = grid + degrees (dl_toolface d) + 360 * IZR k.
Proof. exact bearings_deg. Qed.
Print Assumptions C64_degrees.
Example C64_case : vsub (mkV 1 1 1) vzero <> vzero.
Proof. intro E. unf. injection E. simpl. lra. Qed.

(** * C65 *)
Theorem C65_sigma_from_kop : forall sigma ki s0, nth_error sigma ki = Some s0 ->
  length (get_ref_sigma sigma ki) = length sigma /\
  nth_error (get_ref_sigma sigma ki) ki = Some vzero /\
  (forall j s, (j < ki)%nat -> nth_error sigma j = Some s -> nth_error (get_ref_sigma sigma ki) j = Some (vsub s0 s)) /\
  (forall j s, (ki < j)%nat -> nth_error sigma j = Some s -> nth_error (get_ref_sigma sigma ki) j = Some (vsub s s0)).
Proof. exact ref_sigma_spec. Qed.
Print Assumptions C65_sigma_from_kop.
Example C65_case : nth_error [mkV 1 1 1; mkV 2 2 3; mkV 3 5 6] 1 = Some (mkV 2 2 3).
Proof. reflexivity. Qed.
