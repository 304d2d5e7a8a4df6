(** Property theorems C05, C14-C16, C45, C46, C48-C51 (welleng/survey.py). *)
Require Import Reals Lra ZArith String List Sorted.
Require Import Verif.Base Verif.NumPy Verif.Spec Verif.Spec_Lists Verif.M_Utils Verif.M_Survey.
Require Import Verif.P_Utils Verif.P_Utils3 Verif.P_Survey Verif.P_Survey3 Verif.P_Survey4 Verif.P_Tvd Verif.P_Survey5.
Import ListNotations.
Open Scope R_scope.

(** * C05: [interp_station a b x] is the station that interpolation computes at
    distance x after a *)
Theorem C05_insertion_changes_nothing : forall pre a b post x start unit mc mc',
  get_dogleg (st_inc a) (st_azi a) (st_inc b) (st_azi b) < PI ->
  st_md a < st_md b -> 0 <= x <= st_md b - st_md a ->
  MinCurve (pre ++ a :: b :: post) start unit = Some mc ->
  MinCurve (pre ++ a :: interp_station a b x :: b :: post) start unit = Some mc' ->
  mc_poss mc = without_entry (S (length pre)) (mc_poss mc').
Proof. exact insert_unchanged. Qed.
Print Assumptions C05_insertion_changes_nothing.
Example C05_case : let a := mkSt 0 0 0 in let b := mkSt 100 (PI/2) 0 in
  get_dogleg (st_inc a) (st_azi a) (st_inc b) (st_azi b) < PI /\ st_md a < st_md b /\
  0 <= 40 <= st_md b - st_md a.
Proof. simpl. rewrite dogleg_quarter. pose proof PI_RGT_0. lra. Qed.
Theorem C05_inserted_station : forall a b x,
  let theta := get_dogleg (st_inc a) (st_azi a) (st_inc b) (st_azi b) in
  let m := interp_station a b x in
  theta < PI -> st_md a < st_md b -> 0 <= x <= st_md b - st_md a ->
  st_md m = st_md a + x /\
  get_dogleg (st_inc a) (st_azi a) (st_inc m) (st_azi m) = theta * (x / (st_md b - st_md a)) /\
  get_dogleg (st_inc m) (st_azi m) (st_inc b) (st_azi b)
    = theta * (1 - x / (st_md b - st_md a)) /\
  exists p q, direction_nev (st_inc m) (st_azi m)
    = vadd (vscale p (direction_nev (st_inc a) (st_azi a)))
           (vscale q (direction_nev (st_inc b) (st_azi b))).
Proof. exact interp_station_spec. Qed.
Print Assumptions C05_inserted_station.
(** the light-weight position used by clearance is the position of the
    interpolated survey *)
Theorem C05_position_only_interpolation : forall s x k r h n a b nev,
  interpolate_at s x k = Some (r, h) -> node_of r = Some n ->
  nth_error (sv_rows s) k = Some a -> nth_error (sv_rows s) (S k) = Some b ->
  nth_error (sv_nev s) k = Some nev ->
  (h_unit (sv_header s) = "meters" \/ h_unit (sv_header s) = "feet")%string ->
  nd_pos n = interpolate_pos_nev nev a b x.
Proof. exact interpolate_at_same. Qed.
Print Assumptions C05_position_only_interpolation.

(** * C14 *)
Theorem C14_consistent : forall ref convergence declination deg azi,
  let a := process_azi_ref ref convergence declination deg azi in
  az_true_rad a - convergence = az_grid_rad a /\ az_true_rad a - declination = az_mag_rad a /\
  az_grid_deg a = degrees (az_grid_rad a) /\
  az_true_deg a = degrees (az_true_rad a) /\
  az_mag_deg a = degrees (az_mag_rad a).
Proof. exact azi_consistent. Qed.
Print Assumptions C14_consistent.
Theorem C14_input_kept : forall ref c d deg azi,
  let a := process_azi_ref ref c d deg azi in
  (match ref, deg with
   | RefGrid, true => az_grid_deg a | RefGrid, false => az_grid_rad a
   | RefTrue, true => az_true_deg a | RefTrue, false => az_true_rad a
   | RefMagnetic, true => az_mag_deg a | RefMagnetic, false => az_mag_rad a end) = azi.
Proof. exact azi_input_spec. Qed.
Print Assumptions C14_input_kept.
Theorem C14_rebuild : forall ref c d deg azi ref',
  let a := process_azi_ref ref c d deg azi in
  let azi' := match ref' with RefGrid => az_grid_rad a | RefTrue => az_true_rad a | RefMagnetic => az_mag_rad a end in
  let azi_deg' := match ref' with RefGrid => az_grid_deg a | RefTrue => az_true_deg a | RefMagnetic => az_mag_deg a end in
  process_azi_ref ref' c d false azi' = a /\ process_azi_ref ref' c d true azi_deg' = a.
Proof. exact azi_rebuild_rad. Qed.
Print Assumptions C14_rebuild.

(** * C15: build, query a depth, build again from the same inputs and the same
    (caller-owned) header, which is h' after the query *)
Theorem C15_query_rewrites_header : forall h rows deg sx sn s md n h' s',
  Survey h rows deg sx sn (h_unit h) = Some s ->
  survey_interpolate_md s md = NodeOk n h' ->
  Survey h' rows deg sx sn (h_unit h') = Some s' ->
  h_ref h' = RefGrid /\ h_convergence h' = h_convergence h /\ h_declination h' = h_declination h /\
  sv_rows s' = map (fun st => mkSt (st_md st) (st_inc st) (st_azi st
     + match h_ref h with RefGrid => 0 | RefTrue => h_convergence h
                     | RefMagnetic => h_convergence h - h_declination h end)) (sv_rows s) /\
  (h_ref h = RefGrid -> h' = h /\ s' = s).
Proof. exact query_then_rebuild. Qed.
Print Assumptions C15_query_rewrites_header.
Theorem C15_rebuild_same_iff : forall h rows deg sx sn s md n h' s',
  Survey h rows deg sx sn (h_unit h) = Some s ->
  survey_interpolate_md s md = NodeOk n h' ->
  Survey h' rows deg sx sn (h_unit h') = Some s' ->
  (sv_rows s' = sv_rows s <->
   match h_ref h with RefGrid => 0 | RefTrue => h_convergence h
                 | RefMagnetic => h_convergence h - h_declination h end = 0).
Proof. exact query_then_rebuild_differs. Qed.
Print Assumptions C15_rebuild_same_iff.
Example C15_case : exists s n h', Survey ex_header ex_rows false vzero vzero "meters" = Some s /\
  survey_interpolate_md s 150 = NodeOk n h' /\ h_ref ex_header = RefTrue /\ h_convergence ex_header <> 0.
Proof.
  destruct ex_survey as [s H]. destruct (ex_query s H) as [n [h' Q]]. exists s, n, h'.
  split; auto. split; auto. split. reflexivity. simpl. lra.
Qed.

(** * C16 *)
Theorem C16_lookup : forall h rows deg sx sn unit s md first last,
  Survey h rows deg sx sn unit = Some s ->
  strictly_increasing (map st_md (sv_rows s)) ->
  nth_error (sv_rows s) 0 = Some first ->
  nth_error (sv_rows s) (pred (length (sv_rows s))) = Some last ->
  (survey_interpolate_md s md = NodeNone <-> st_md last < md) /\
  (st_md first <= md <= st_md last ->
   exists k a b pa n h',
      nth_error (sv_rows s) k = Some a /\ nth_error (sv_rows s) (S k) = Some b /\
      nth_error (sv_nev s) k = Some pa /\
      survey_interpolate_md s md = NodeOk n h' /\
      st_md a <= md <= st_md b /\ nd_md n = md /\
      nd_pos n = vadd pa (min_curve_step (md - st_md a) (st_inc a) (st_azi a)
                   (st_inc (interp_station a b (md - st_md a))) (st_azi (interp_station a b (md - st_md a)))) /\
      nd_vec n = direction_nev (st_inc (interp_station a b (md - st_md a))) (st_azi (interp_station a b (md - st_md a))) /\
      (nd_interp n = false <-> (md = st_md a \/ md = st_md b))) /\
  (md < st_md first -> exists pa n h', nth_error (sv_nev s) 0 = Some pa /\
      survey_interpolate_md s md = NodeOk n h' /\ nd_md n = st_md first /\ nd_interp n = false).
Proof. exact md_lookup. Qed.
Print Assumptions C16_lookup.
Theorem C16_at_a_station : forall h rows deg sx sn unit s k st p,
  Survey h rows deg sx sn unit = Some s ->
  strictly_increasing (map st_md (sv_rows s)) ->
  (forall i a b, nth_error (sv_rows s) i = Some a -> nth_error (sv_rows s) (S i) = Some b ->
     get_dogleg (st_inc a) (st_azi a) (st_inc b) (st_azi b) < PI) ->
  nth_error (sv_rows s) k = Some st -> nth_error (sv_nev s) k = Some p ->
  exists n h', survey_interpolate_md s (st_md st) = NodeOk n h' /\
    nd_md n = st_md st /\ nd_pos n = p /\ nd_vec n = direction_nev (st_inc st) (st_azi st) /\
    nd_interp n = false.
Proof. exact md_lookup_station. Qed.
Print Assumptions C16_at_a_station.
Example C16_case : exists s, Survey ex_header ex_rows false vzero vzero "meters" = Some s /\
  strictly_increasing (map st_md (sv_rows s)) /\
  (forall i a b, nth_error (sv_rows s) i = Some a -> nth_error (sv_rows s) (S i) = Some b ->
     get_dogleg (st_inc a) (st_azi a) (st_inc b) (st_azi b) < PI).
Proof.
  destruct ex_survey as [s H]. exists s. split; auto. split. apply ex_increasing; auto.
  rewrite (ex_survey_rows s H). pose proof PI_RGT_0. intros i a b A B.
  destruct i as [|[|[|i]]]; simpl in A, B; try (destruct i; discriminate); try discriminate;
  injection A; injection B; intros; subst a b; simpl.
  - rewrite (proj2 (dogleg_0_iff _ _ _ _)); [auto | reflexivity].
  - rewrite (dogleg_is 0 (0 - 1/10) (PI/2) (0-1/10) (PI/2)); [lra | lra |].
    rewrite direction_dot, cos_PI2, sin_0, cos_0. ring.
Qed.

(** * C45: [key] is the rounded measured depth *)
Theorem C45_remove_duplicates : forall (A : Type) (key : A -> Z) l r,
  keys_nondecreasing key l -> remove_duplicates key l = Some r ->
  StronglySorted (fun a b => (key a < key b)%Z) r /\
  (forall x, In x r -> first_of_its_key key l x) /\
  (forall y, In y l -> exists x, In x r /\ key x = key y).
Proof. exact (fun A key => @remove_duplicates_spec A key). Qed.
Print Assumptions C45_remove_duplicates.
Example C45_case : keys_nondecreasing (fun z => z) [1; 1; 2; 5; 5; 5]%Z /\
  remove_duplicates (fun z => z) [1; 1; 2; 5; 5; 5]%Z = Some [1; 2; 5]%Z.
Proof. split; [simpl; repeat split; discriminate | reflexivity]. Qed.
(** rows out of depth order: a repeated depth that is not adjacent survives *)
Theorem C45_unordered_refuted : exists (l r : list Z),
  remove_duplicates (fun z => z) l = Some r /\ ~ NoDup r.
Proof. exists [1; 2; 1]%Z, [1; 2; 1]%Z. split. reflexivity. intro H. inversion H. apply H2. simpl. auto. Qed.
Print Assumptions C45_unordered_refuted.

(** * C46 *)
Theorem C46_one_value_per_station : forall h rows deg sx sn unit s vs,
  Survey h rows deg sx sn unit = Some s ->
  length (fst (survey_vertical_section s vs)) = length rows /\
  nth_error (fst (survey_vertical_section s vs)) 0 = Some 0.
Proof. exact vs_survey_first. Qed.
Print Assumptions C46_one_value_per_station.
Theorem C46_increment : forall h rows deg sx sn unit s vs k a b p q v w,
  Survey h rows deg sx sn unit = Some s ->
  nth_error (sv_rows s) k = Some a -> nth_error (sv_rows s) (S k) = Some b ->
  nth_error (sv_nev s) k = Some p -> nth_error (sv_nev s) (S k) = Some q ->
  nth_error (fst (survey_vertical_section s vs)) k = Some v ->
  nth_error (fst (survey_vertical_section s vs)) (S k) = Some w ->
  st_inc a = st_inc b -> 0 < st_inc a <= PI -> st_md a <= st_md b ->
  get_dogleg (st_inc a) (st_azi a) (st_inc b) (st_azi b) < PI ->
  let section := vs - match h_ref h with RefGrid => 0 | RefTrue => h_convergence h
                                    | RefMagnetic => h_convergence h - h_declination h end in
  let proj := (vx q - vx p) * cos section + (vy q - vy p) * sin section in
  (Rabs (st_azi b - st_azi a) <= PI -> w - v = proj) /\
  (PI <= Rabs (st_azi b - st_azi a) <= 2 * PI -> w - v = - proj).
Proof. exact vs_survey_increment. Qed.
Print Assumptions C46_increment.
Theorem C46_overwrites_azimuth : forall h rows deg sx sn unit s vs k a,
  Survey h rows deg sx sn unit = Some s -> nth_error (sv_rows s) k = Some a ->
  exists before after,
    nth_error (ref_azimuths s) k = Some before /\
    nth_error (snd (survey_vertical_section s vs)) k = Some after /\
    (st_inc a = 0 -> after = vs) /\ (st_inc a <> 0 -> after = before).
Proof. exact vs_mutation. Qed.
Print Assumptions C46_overwrites_azimuth.
(** 1 degree and 359 degrees: a wellbore going north for 100 m, asked along north *)
Example C46_wrap_case : let a := mkSt 0 (PI/2) (radians 1) in let b := mkSt 100 (PI/2) (radians 359) in
  st_inc a = st_inc b /\ 0 < st_inc a <= PI /\ st_md a <= st_md b /\
  PI <= Rabs (st_azi b - st_azi a) <= 2 * PI.
Proof.
  pose proof PI_RGT_0. simpl. unfold radians.
  assert (359 * (PI/180) - 1 * (PI/180) >= 0) by lra.
  rewrite Rabs_right by auto. lra.
Qed.

(** * C48: the two position attributes of one survey *)
Theorem C48_pos_nev : forall h rows deg sx sn unit s k p q,
  Survey h rows deg sx sn unit = Some s ->
  nth_error (sv_nev s) k = Some p -> nth_error (sv_pos_nev s) k = Some q ->
  vx q = (vx p - vx sn + vy sx) * h_gsf h + vx sn /\
  vy q = (vy p - vy sn + vx sx) * h_gsf h + vy sn /\
  vz q = vz p + vz sx.
Proof. exact Survey_pos_nev. Qed.
Print Assumptions C48_pos_nev.
Theorem C48_agree : forall h rows deg sx sn unit s,
  Survey h rows deg sx sn unit = Some s -> h_gsf h = 1 -> sx = vzero ->
  sv_pos_nev s = sv_nev s.
Proof. exact pos_nev_agrees. Qed.
Print Assumptions C48_agree.
Theorem C48_agree_refuted : exists s,
  Survey (mkHeader RefGrid 0 0 1 None "meters") [(0, 0, 0); (100, 0, 0)] false (mkV 5 6 7) vzero "meters" = Some s
  /\ sv_pos_nev s <> sv_nev s.
Proof. exact ex_two_stations. Qed.
Print Assumptions C48_agree_refuted.

(** * C49: slicing *)
Theorem C49_slice : forall s start stop r,
  slice_survey s start stop = Some r ->
  sv_rows r = map (fun st => mkSt (st_md st) (st_inc st) (st_azi st
     - match h_ref (sv_header s) with RefGrid => 0 | RefTrue => h_convergence (sv_header s)
                     | RefMagnetic => h_convergence (sv_header s) - h_declination (sv_header s) end))
     (firstn (stop - start) (skipn start (sv_rows s)))
  /\ sv_nev r = firstn (stop - start) (skipn start (sv_nev s)).
Proof. exact slice_spec. Qed.
Print Assumptions C49_slice.

(** * C50: projecting ahead *)
Theorem C50_project_ahead_curve : forall pos vec delta_md dls toolface md p v m,
  is_unit vec -> 0 < dls ->
  project_ahead pos vec delta_md dls toolface md = (p, v, m) ->
  circular_arc pos vec delta_md (radians (delta_md / 30 * dls)) p v /\ m = md + delta_md /\ is_unit v.
Proof. exact project_ahead_arc. Qed.
Print Assumptions C50_project_ahead_curve.
Theorem C50_project_ahead_straight : forall pos vec delta_md toolface md,
  project_ahead pos vec delta_md 0 toolface md = (vadd pos (vscale delta_md vec), vec, md + delta_md).
Proof. exact project_ahead_straight. Qed.
Print Assumptions C50_project_ahead_straight.
Example C50_case : is_unit (mkV (3/5) 0 (4/5)) /\ 0 < 3.
Proof. split. apply along_345. lra. Qed.

(** * C51: interpolating at a true vertical depth.  The query uses one interval
    (a, b); unless the requested depth is that of the point half a turn further
    on the circle of that interval, the node returned is at that depth, on the
    arc (or straight line) from a to b. *)
Theorem C51_tvd_query : forall h rows deg sx sn unit s tvd n h',
  Survey h rows deg sx sn unit = Some s ->
  strictly_increasing (map st_md (sv_rows s)) ->
  interpolate_tvd s tvd = TvdOk n h' ->
  exists k a b p, nth_error (sv_rows s) k = Some a /\ nth_error (sv_rows s) (S k) = Some b /\
    nth_error (sv_nev s) k = Some p /\
    let u := direction_nev (st_inc a) (st_azi a) in
    let w := direction_nev (st_inc b) (st_azi b) in
    let th := get_dogleg (st_inc a) (st_azi a) (st_inc b) (st_azi b) in
    let dl := st_md b - st_md a in
    let bend := vscale (/ sin th) (vsub w (vscale (cos th) u)) in
    (th < PI ->
     ~ (0 < th /\ tvd = vz (arc_point p u bend (dl / th) PI)) ->
     vz (nd_pos n) = tvd /\ (0 < th -> st_md a <= nd_md n <= st_md b) /\
     nd_pos n = interpolate_pos_nev p a b (nd_md n - st_md a) /\
     nd_vec n = direction_nev (st_inc (interp_station a b (nd_md n - st_md a)))
                              (st_azi (interp_station a b (nd_md n - st_md a))) /\
     (nd_interp n = true <-> st_md a < nd_md n)).
Proof. exact tvd_query_spec. Qed.
Print Assumptions C51_tvd_query.
Example C51_case : exists s n h',
  Survey bad_header [(0, 0, 0); (100, 0, 0)] false vzero vzero "meters" = Some s /\
  strictly_increasing (map st_md (sv_rows s)) /\
  interpolate_tvd s 40 = TvdOk n h'.
Proof. exact tvd_ok_case. Qed.
(** the excluded case is real: a well dropping through vertical, inclination 45
    degrees north to 45 degrees south; asking for the depth of its last station
    returns the first station, at depth 0 *)
Theorem C51_tvd_query_refuted : exists s n h',
  Survey bad_header bad_rows false vzero vzero "meters" = Some s /\
  strictly_increasing (map st_md (sv_rows s)) /\
  (exists q, nth_error (sv_nev s) 1 = Some q /\ vz q = bad_depth) /\
  interpolate_tvd s bad_depth = TvdOk n h' /\ vz (nd_pos n) = 0 /\ nd_md n = 0 /\ bad_depth <> 0.
Proof. exact tvd_wrong. Qed.
Print Assumptions C51_tvd_query_refuted.

(** * C59: what a survey contains *)
Theorem C59_accepts : forall h rows deg sx sn unit,
  (exists s, Survey h rows deg sx sn unit = Some s) <->
  unit = h_unit h /\ (unit = "meters" \/ unit = "feet")%string /\ (2 <= length rows)%nat.
Proof. exact Survey_accepts. Qed.
Print Assumptions C59_accepts.
Theorem C59_stations : forall h rows deg sx sn unit s, Survey h rows deg sx sn unit = Some s ->
  sv_header s = h /\
  length (sv_rows s) = length rows /\ length (sv_azi_true s) = length rows /\ length (sv_azi_mag s) = length rows /\
  length (sv_dogleg s) = length rows /\ length (sv_delta_md s) = length rows /\ length (sv_xyz s) = length rows /\
  length (sv_nev s) = length rows /\ length (sv_pos_nev s) = length rows /\ length (sv_interpolated s) = length rows /\
  forall k md inc azi, nth_error rows k = Some (md, inc, azi) ->
    let rad x := if deg then x * (PI / 180) else x in
    exists g t m,
      nth_error (sv_rows s) k = Some (mkSt md (rad inc) g) /\
      nth_error (sv_azi_true s) k = Some t /\ nth_error (sv_azi_mag s) k = Some m /\
      nth_error (sv_interpolated s) k = Some false /\
      t - h_convergence h = g /\ t - h_declination h = m /\
      rad azi = match h_ref h with RefGrid => g | RefTrue => t | RefMagnetic => m end.
Proof. exact Survey_stations. Qed.
Print Assumptions C59_stations.
Theorem C59_intervals : forall h rows deg sx sn unit s, Survey h rows deg sx sn unit = Some s ->
  nth_error (sv_dogleg s) 0 = Some 0 /\ nth_error (sv_nev s) 0 = Some sn /\ nth_error (sv_xyz s) 0 = Some sx /\
  (forall a, nth_error (sv_rows s) 0 = Some a -> nth_error (sv_delta_md s) 0 = Some (st_md a)) /\
  (forall k p, nth_error (sv_nev s) k = Some p ->
     nth_error (sv_xyz s) k = Some (mkV (vy p - vy sn + vx sx) (vx p - vx sn + vy sx) (vz p - vz sn + vz sx))) /\
  forall k a b p q, nth_error (sv_rows s) k = Some a -> nth_error (sv_rows s) (S k) = Some b ->
    nth_error (sv_nev s) k = Some p -> nth_error (sv_nev s) (S k) = Some q ->
    nth_error (sv_delta_md s) (S k) = Some (st_md b - st_md a) /\
    q = vadd p (min_curve_step (st_md b - st_md a) (st_inc a) (st_azi a) (st_inc b) (st_azi b)) /\
    exists dl, nth_error (sv_dogleg s) (S k) = Some dl /\
      angle_between (direction_nev (st_inc a) (st_azi a)) (direction_nev (st_inc b) (st_azi b)) dl.
Proof. exact Survey_intervals. Qed.
Print Assumptions C59_intervals.
Example C59_case : exists s, Survey (mkHeader RefMagnetic (1/10) (1/20) 1 None "feet") [(0, 0, 0); (100, 5, 10); (250, 20, 350)] true (mkV 5 6 7) (mkV 1 2 3) "feet" = Some s.
Proof. apply C59_accepts. simpl. repeat split; auto. Qed.
Theorem C06_intervals : forall svy start unit mc, MinCurve svy start unit = Some mc ->
  length (mc_delta_md mc) = length svy /\ length (mc_dogleg mc) = length svy /\
  length (mc_rf mc) = length svy /\ length (mc_dls mc) = length svy /\
  (forall a, nth_error svy 0 = Some a -> nth_error (mc_delta_md mc) 0 = Some (st_md a)) /\
  nth_error (mc_dogleg mc) 0 = Some 0 /\ nth_error (mc_rf mc) 0 = Some 1 /\
  forall k a b, nth_error svy k = Some a -> nth_error svy (S k) = Some b ->
    nth_error (mc_delta_md mc) (S k) = Some (st_md b - st_md a) /\
    exists dl, nth_error (mc_dogleg mc) (S k) = Some dl /\
      angle_between (direction_nev (st_inc a) (st_azi a)) (direction_nev (st_inc b) (st_azi b)) dl /\
      nth_error (mc_rf mc) (S k) = Some (if Req_EM_T dl 0 then 1 else tan (dl / 2) / (dl / 2)).
Proof. exact MinCurve_intervals. Qed.
Print Assumptions C06_intervals.

(** * C60 *)
Theorem C60_annulus : forall od mid id len1 len2,
  annular_volume od (Some mid) (Some len1) + annular_volume mid (Some id) (Some len1) = annular_volume od (Some id) (Some len1) /\
  annular_volume od (Some id) (Some len1) + annular_volume od (Some id) (Some len2) = annular_volume od (Some id) (Some (len1 + len2)) /\
  annular_volume od None (Some len1) = PI * (od / 2) ^ 2 * len1 /\
  annular_volume od (Some id) None = annular_volume od (Some id) (Some 1) /\
  annular_volume od (Some 0) (Some len1) = annular_volume od None (Some len1).
Proof. exact annular_additive. Qed.
Print Assumptions C60_annulus.
Theorem C60_annulus_positive : forall od id len, 0 <= id -> 0 <= od -> 0 < len ->
  (0 < annular_volume od (Some id) (Some len) <-> id < od).
Proof. exact annular_positive. Qed.
Print Assumptions C60_annulus_positive.
Theorem C60_conversion : forall data f, f <> 0 ->
  linear_convert (linear_convert data f) (/ f) = data /\ length (linear_convert data f) = length data /\ forall k, nth_error data k = Some None <-> nth_error (linear_convert data f) k = Some None.
Proof. exact convert_roundtrip. Qed.
Print Assumptions C60_conversion.
Example C60_case : 0 <= 5 /\ 5 < 8 /\ 0 < 10 /\ 0.3048 <> 0.
Proof. lra. Qed.
