(** Property theorems C98-C100: joining surveys, covariances and radii of a
    survey and of its interpolation. *)
Require Import Reals ZArith Bool String List Lra Lia Psatz.
Require Import Verif.Base Verif.NumPy Verif.Spec Verif.Spec_Lists Verif.M_Utils Verif.M_Survey Verif.M_Connector Verif.Spec_Connector
  Verif.Spec_RatesCases Verif.M_Splice Verif.Spec_Splice.
Require Import Verif.P_Survey4 Verif.P_Survey5 Verif.P_Connector8 Verif.P_Rates6 Verif.P_Splice Verif.P_Splice2 Verif.P_Splice3 Verif.P_Splice4.
Import ListNotations.
Local Open Scope R_scope.

(** * C98: joining surveys *)
Theorem C98_success : forall l, Forall built l ->
  ((exists r, splice_surveys l = SpliceOk r) <->
   exists first rest, l = first :: rest /\ h_ref (header_of first) <> RefMagnetic /\
     h_unit (header_of first) = "meters"%string /\
     (rest = [] \/ forall d, In d l -> sd_cov_nev d <> None)).
Proof. exact splice_iff. Qed.
Print Assumptions C98_success.
Theorem C98_failures : splice_surveys [] = SpliceIndex /\ forall first rest, Forall built (first :: rest) ->
  (h_ref (header_of first) = RefMagnetic -> splice_surveys (first :: rest) = SpliceAttribute) /\
  (h_ref (header_of first) <> RefMagnetic -> rest <> [] -> sd_cov_nev first = None ->
     splice_surveys (first :: rest) = SpliceAttribute) /\
  (h_ref (header_of first) <> RefMagnetic -> h_unit (header_of first) = "feet"%string ->
     (rest = [] \/ forall d, In d (first :: rest) -> sd_cov_nev d <> None) ->
     splice_surveys (first :: rest) = SpliceAssertion).
Proof. exact splice_failures. Qed.
Print Assumptions C98_failures.
Theorem C98_missing_covariance : forall first rest, Forall built (first :: rest) -> h_ref (header_of first) <> RefMagnetic ->
  sd_cov_nev first <> None -> (exists d, In d rest /\ sd_cov_nev d = None) ->
  splice_surveys (first :: rest) = SpliceType.
Proof. exact splice_missing. Qed.
Print Assumptions C98_missing_covariance.
Theorem C98_values : forall first rest r, splice_surveys (first :: rest) = SpliceOk r -> Forall built (first :: rest) ->
  let l := first :: rest in
  header_of r = header_of first /\
  map st_md (rows_of r) = spliced (fun d => map st_md (rows_of d)) l /\
  map st_inc (rows_of r) = spliced (fun d => map st_inc (rows_of d)) l /\
  (h_ref (header_of first) = RefGrid -> map st_azi (rows_of r) = spliced (fun d => map st_azi (rows_of d)) l) /\
  (h_ref (header_of first) = RefTrue -> sv_azi_true (sd_survey r) = spliced (fun d => sv_azi_true (sd_survey d)) l) /\
  sd_radius r = spliced sd_radius l /\
  (sd_cov_nev first <> None -> sd_cov_nev r = Some (spliced covs l) /\ sd_cov_hla r = Some (spliced covs_hla l)) /\
  (sd_cov_nev first = None -> sd_cov_nev r = None /\ sd_cov_hla r = None) /\
  length (positions_of r) = length (rows_of r) /\ hd_error (positions_of r) = hd_error (positions_of first).
Proof. exact splice_values. Qed.
Print Assumptions C98_values.
Theorem C98_rows_iff : forall first rest r, splice_surveys (first :: rest) = SpliceOk r -> Forall built (first :: rest) ->
  (rows_of r = spliced rows_of (first :: rest) <->
   h_ref (header_of first) = RefGrid \/ forall d, In d rest -> h_convergence (header_of d) = h_convergence (header_of first)).
Proof. exact splice_rows_iff. Qed.
Print Assumptions C98_rows_iff.
Theorem C98_positions : forall first rest r, splice_surveys (first :: rest) = SpliceOk r -> Forall built (first :: rest) ->
  (forall d, In d (first :: rest) -> traced (rows_of d) (positions_of d)) ->
  (h_ref (header_of first) = RefGrid \/ forall d, In d rest -> h_convergence (header_of d) = h_convergence (header_of first)) ->
  chained (first :: rest) ->
  rows_of r = spliced rows_of (first :: rest) /\ positions_of r = spliced positions_of (first :: rest).
Proof. exact splice_positions. Qed.
Print Assumptions C98_positions.
Theorem C98_cut_and_join : forall h rows deg sx sn s k t1 t2 c1 c2 q1 q2 r1 r2,
  Survey h rows deg sx sn "meters" = Some s -> h_ref h = RefGrid ->
  (S k < length rows)%nat ->
  slice_survey s 0 (S k) = Some t1 -> slice_survey s k (length rows) = Some t2 ->
  length r1 = length (sv_rows t1) -> length r2 = length (sv_rows t2) ->
  length c1 = length (sv_rows t1) -> length c2 = length (sv_rows t2) ->
  exists r, splice_surveys [mkSD t1 (Some c1) (Some q1) r1; mkSD t2 (Some c2) (Some q2) r2] = SpliceOk r /\
    rows_of r = sv_rows s /\ positions_of r = sv_nev s /\
    sd_cov_nev r = Some (c1 ++ tl c2) /\ sd_radius r = r1 ++ tl r2.
Proof. exact splice_cut. Qed.
Print Assumptions C98_cut_and_join.
(** a survey cut at its second station: both pieces exist, and the hypotheses of
    the theorems above hold for them *)
Example C98_case : exists s t1 t2,
  Survey (grid_header "meters") bend_rows false vzero vzero "meters" = Some s /\
  slice_survey s 0 2 = Some t1 /\ slice_survey s 1 3 = Some t2 /\
  let d1 := mkSD t1 (Some [mzero; mid]) (Some [mzero; mid]) [1; 2] in
  let d2 := mkSD t2 (Some [mid; mid]) (Some [mid; mid]) [3; 4] in
  Forall built [d1; d2] /\ chained [d1; d2] /\ h_ref (header_of d1) = RefGrid /\
  exists r, splice_surveys [d1; d2] = SpliceOk r /\ rows_of r = sv_rows s /\ positions_of r = sv_nev s /\
    sd_radius r = [1; 2; 4].
Proof.
  destruct (bend_case "meters") as (s & p & q & r & H & R & N & _); auto.
  destruct (Survey_stations _ _ _ _ _ _ _ H) as (HH & _).
  assert (T1 : exists t, slice_survey s 0 2 = Some t).
  { unfold slice_survey, slice_rows. rewrite N, R, HH. cbn [Nat.sub skipn firstn map st_md st_inc st_azi].
    destruct (proj2 (Survey_accepts (grid_header "meters") [(0, PI / 6, 0); (30, PI / 3, 0)] false vzero p "meters")) as [t E]; [auto|].
    change (h_unit (grid_header "meters")) with "meters"%string. rewrite E. eauto. }
  assert (T2 : exists t, slice_survey s 1 3 = Some t).
  { unfold slice_survey, slice_rows. rewrite N, R, HH. cbn [Nat.sub skipn firstn map st_md st_inc st_azi].
    destruct (proj2 (Survey_accepts (grid_header "meters") [(30, PI / 3, 0); (120, PI / 2, 0)] false vzero q "meters")) as [t E]; [auto|].
    change (h_unit (grid_header "meters")) with "meters"%string. rewrite E. eauto. }
  destruct T1 as [t1 T1], T2 as [t2 T2]. exists s, t1, t2. split; auto. split; auto. split; auto.
  destruct (slice_spec _ _ _ _ T1) as [R1 N1]. destruct (slice_spec _ _ _ _ T2) as [R2 N2].
  rewrite R in R1, R2. rewrite N in N1, N2. rewrite HH in R1, R2. cbn in N1, N2.
  cbn [Nat.sub skipn firstn map st_md st_inc st_azi] in R1, R2.
  assert (B1 : built (mkSD t1 (Some [mzero; mid]) (Some [mzero; mid]) [1; 2])).
  { eapply slice_built; eauto; try (rewrite R1; reflexivity); try (rewrite R, N; reflexivity).
    - intros c Q; injection Q as <-; rewrite R1; reflexivity.
    - split; discriminate. }
  assert (B2 : built (mkSD t2 (Some [mid; mid]) (Some [mid; mid]) [3; 4])).
  { eapply slice_built; eauto; try (rewrite R2; reflexivity); try (rewrite R, N; reflexivity).
    - intros c Q; injection Q as <-; rewrite R2; reflexivity.
    - split; discriminate. }
  cbv zeta. split; [auto|]. split.
  { cbn [chained]. split; auto. unfold rows_of, positions_of. cbn [sd_survey]. rewrite R1, R2, N1, N2. cbn. eauto 10. }
  split; [unfold header_of; cbn [sd_survey]; rewrite (slice_header _ _ _ _ T1), HH; reflexivity|].
  destruct (splice_cut (grid_header "meters") bend_rows false vzero vzero s 1 t1 t2
    [mzero; mid] [mid; mid] [mzero; mid] [mid; mid] [1; 2] [3; 4] H eq_refl) as (j & J & J1 & J2 & _ & J3);
    try (rewrite ?R1, ?R2; reflexivity); auto.
  exists j. auto.
Qed.

(** * C99: covariances and radii of an interpolated survey *)
Theorem C99_interpolated : forall dls s p svy rows cs rs, 0 < dls -> 0 < s -> (2 <= length svy)%nat ->
  strictly_increasing (map depth_of svy) -> no_reversal svy ->
  (forall x y, grid_depth dls s svy x -> grid_depth dls s svy y -> x < y -> 1 / 10000 < y - x) ->
  interpolate_survey dls p svy s = Some rows ->
  length cs = length svy -> length rs = length svy ->
  exists l, carry_covariances (map depth_of svy) cs rs 0 (map (fun r : R * V3 * bool => fst (fst r)) rows) = Some l /\
    length l = length rows /\
    forall j md d f q, nth_error rows j = Some (md, d, f) -> nth_error l j = Some q ->
      carried (map depth_of svy) cs rs md q.
Proof. exact interpolated_covariances. Qed.
Print Assumptions C99_interpolated.
Theorem C99_at_station : forall mds cs rs k m r c q, strictly_increasing mds ->
  nth_error mds k = Some m -> nth_error rs k = Some r -> nth_error cs k = Some c ->
  carried mds cs rs m q -> q = (r, c).
Proof. exact carried_at_station. Qed.
Print Assumptions C99_at_station.
Theorem C99_psd : forall mds cs rs md q, (forall c, In c cs -> psd c) -> carried mds cs rs md q -> psd (snd q).
Proof. exact carried_psd. Qed.
Print Assumptions C99_psd.
Theorem C99_symmetric : forall mds cs rs md q, (forall c, In c cs -> symmetric c) -> carried mds cs rs md q -> symmetric (snd q).
Proof. exact carried_symmetric. Qed.
Print Assumptions C99_symmetric.
Theorem C99_between : forall mds cs rs md q v lo hi, (forall c, In c cs -> lo <= qform c v <= hi) ->
  carried mds cs rs md q -> lo <= qform (snd q) v <= hi.
Proof. exact carried_between. Qed.
Print Assumptions C99_between.
Theorem C99_lost_station_refuted : exists dls s p svy rows cs rs l r c, 0 < dls /\ 0 < s /\
  strictly_increasing (map depth_of svy) /\ no_reversal svy /\
  length cs = length svy /\ length rs = length svy /\ (forall c, In c cs -> psd c) /\
  interpolate_survey dls p svy s = Some rows /\
  carry_covariances (map depth_of svy) cs rs 0 (map (fun r : R * V3 * bool => fst (fst r)) rows) = Some l /\
  nth_error (map (fun r : R * V3 * bool => fst (fst r)) rows) 5 = Some 75 /\
  nth_error l 5 = Some (r, c) /\ ~ psd c /\ ~ carried (map depth_of svy) cs rs 75 (r, c).
Proof. exact lost_station_refuted. Qed.
Print Assumptions C99_lost_station_refuted.
Example C99_case : (2 <= length bend_svy)%nat /\ strictly_increasing (map depth_of bend_svy) /\ no_reversal bend_svy /\
  (forall x y, grid_depth (1 / 100000000) 30 bend_svy x -> grid_depth (1 / 100000000) 30 bend_svy y ->
    x < y -> 1 / 10000 < y - x) /\
  (exists rows, interpolate_survey (1 / 100000000) vzero bend_svy 30 = Some rows) /\
  carried (map depth_of bend_svy) [mzero; mid; mscale 3 mid] [1; 2; 3] 60
    (2, madd (mscale ((100 - 60) / (100 - 45)) mid) (mscale ((60 - 45) / (100 - 45)) (mscale 3 mid))).
Proof.
  split; [cbn; lia|]. split; [exact bend_ordered|]. split; [exact bend_no_reversal|]. split; [exact bend_separated|].
  split.
  - destruct (interpolated_survey (1 / 100000000) 30 vzero bend_svy ltac:(lra) ltac:(lra) ltac:(cbn; lia) bend_ordered bend_no_reversal) as (rows & E & _).
    eauto.
  - exists 1%nat, 45, 2, mid. cbn. repeat (split; [solve [auto]|]). split; [lra|]. split; [intros m' E; injection E as <-; lra|].
    split; auto. right. exists 100, (mscale 3 mid). auto.
Qed.

(** * C100: covariances and radius given to the constructor *)
Theorem C100_neither : forall rows start, given_covariances rows None None start = (None, None).
Proof. exact given_neither. Qed.
Print Assumptions C100_neither.
Theorem C100_one : forall rows nev hla start, (nev = None <-> hla <> None) ->
  (forall c, nev = Some c -> length c = length rows) -> (forall c, hla = Some c -> length c = length rows) ->
  exists n h, given_covariances rows nev hla start = (Some n, Some h) /\
    length n = length rows /\ length h = length rows /\
    forall i st, nth_error rows i = Some st -> exists a b, nth_error n i = Some a /\ nth_error h i = Some b /\
      b = NEV_to_HLA_cov (st_inc st) (st_azi st) a /\ a = HLA_to_NEV_cov (st_inc st) (st_azi st) b /\
      let shift := match start with Some m => m | None => mzero end in
      (forall c, nev = Some c -> exists x, nth_error c i = Some x /\ a = madd x shift) /\
      (forall c, hla = Some c -> exists x, nth_error c i = Some x /\
         a = madd (HLA_to_NEV_cov (st_inc st) (st_azi st) x) shift).
Proof. exact given_one. Qed.
Print Assumptions C100_one.
Theorem C100_both : forall rows n h, given_covariances rows (Some n) (Some h) None = (Some n, Some h).
Proof. exact given_both. Qed.
Print Assumptions C100_both.
Theorem C100_radius : forall n r, (2 <= n)%nat ->
  (get_radius n r = None <-> exists l, r = Some l /\ length l <> 1%nat /\ length l <> n) /\
  (forall l, get_radius n r = Some l -> length l = n /\
     (r = None -> forall x, In x l -> x = 3048 / 10000) /\
     (forall x, r = Some [x] -> forall y, In y l -> y = x) /\
     (forall q, r = Some q -> length q = n -> l = q)).
Proof. exact radius_spec. Qed.
Print Assumptions C100_radius.
Example C100_case : let rows := [mkSt 0 0 0; mkSt 30 (PI / 2) 0] in
  (Some [mid; mscale 2 mid] = None <-> @None (list M3) <> None) /\ length [mid; mscale 2 mid] = length rows /\
  exists n h, given_covariances rows (Some [mid; mscale 2 mid]) None (Some mid) = (Some n, Some h) /\
    nth_error n 1 = Some (madd (mscale 2 mid) mid).
Proof.
  cbv zeta. split; [split; [discriminate|congruence]|]. split; [reflexivity|].
  eexists _, _. split; reflexivity.
Qed.
