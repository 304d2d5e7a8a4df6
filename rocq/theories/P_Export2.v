(** Lemmas: the tolerance of export_csv is not met, and the table of survey_to_df. *)
Require Import Reals ZArith Ascii String List Bool Lra Lia Psatz.
Require Import Verif.Base Verif.NumPy Verif.Spec Verif.Spec_Lists Verif.Spec_Rates Verif.M_Utils Verif.M_Connector Verif.M_Survey Verif.M_Rates Verif.M_Sections Verif.M_Text Verif.M_Export.
Require Import Verif.Spec_Text Verif.Spec_Export Verif.Spec_Sections Verif.Spec_RatesCases.
Require Import Verif.P_Trig Verif.P_Text Verif.P_Survey Verif.P_Survey2 Verif.P_Survey3 Verif.P_Survey4 Verif.P_Survey5 Verif.P_Rates Verif.P_Rates2 Verif.P_Rates6 Verif.P_Sections Verif.P_Sections2 Verif.P_Sections7 Verif.P_Export.
Import ListNotations.
Open Scope list_scope.
Local Open Scope R_scope.

Lemma is_close_same : forall t a, 0 <= t -> is_close t t a a = true.
Proof.
  intros t a H. unfold is_close. destruct (Rle_dec _ _) as [|N]; auto. elim N.
  replace (a - a) with 0 by ring. rewrite Rabs_R0. pose proof (Rabs_pos a). nra.
Qed.
(** two arcs of one plane: only the ends are listed, whatever the optimiser does *)
Lemma bend_only_ends : forall s x, Survey (grid_header "meters") bend_rows false vzero vzero "meters" = Some s ->
  sv_rows s = [mkSt 0 (PI / 6) 0; mkSt 30 (PI / 3) 0; mkSt 120 (PI / 2) 0] -> 0 <= x ->
  section_starts s x x false = [0; 2]%nat.
Proof.
  intros s x H R X. unfold section_starts. rewrite (bend_starts s H R), R. cbn [pairwise]. unfold section_continuous. cbn [fst snd close_rows andb].
  unfold right_side; cbn [vx vy vz]. rewrite !is_close_same by auto. reflexivity.
Qed.
Theorem tolerance_missed : exists s r,
  Survey (grid_header "meters") bend_rows false vzero vzero "meters" = Some s /\
  Survey (grid_header "meters") [(0, 30, 0); (120, 90, 0)] true vzero vzero "meters" = Some r /\
  10 < vz (last (sv_nev r) vzero) - vz (last (sv_nev s) vzero) /\
  forall x tolerance d v a items, 0 <= x <= 1 -> exists data,
    export_csv x s false tolerance false d v a items = Frame csv_columns data /\
    map (firstn 3) data = [[Fin 0; Fin 30; Fin 0]; [Fin 120; Fin 90; Fin 0]].
Proof.
  destruct (bend_case "meters") as (s & p & q & z & H & R & N & S1 & S2 & A); auto. pose proof PI_RGT_0 as HP.
  assert (NE : exists r, resurvey s 0 false = Some r) by (apply (resurvey_accepts _ _ _ _ _ _ _ 0 false H); auto). destruct NE as [r HR].
  assert (DEG : degrees (PI / 6) = 30 /\ degrees (PI / 2) = 90 /\ degrees 0 = 0) by (unfold degrees; repeat split; field; lra).
  destruct DEG as (D1 & D2 & D3).
  assert (ST : section_starts s 0 0 false = [0; 2]%nat) by (apply bend_only_ends; auto; lra).
  exists s, r. split; auto.
  pose proof (resurvey_rows _ _ _ _ _ _ _ _ _ _ H HR) as RR. rewrite ST in RR. cbn [map h_ref grid_header] in RR. unfold row_at in RR. rewrite R in RR. cbn [nth st_md st_inc st_azi] in RR.
  rewrite !Rplus_0_r in RR.
  split; [|split].
  - unfold resurvey in HR. destruct (Survey_stations _ _ _ _ _ _ _ H) as (HH & _).
    rewrite HH, N in HR. cbn [hd] in HR.
    assert (P0 : p = vzero).
    { destruct (Survey_intervals _ _ _ _ _ _ _ H) as (_ & N0 & _). rewrite N in N0. injection N0 as N0. exact N0. }
    rewrite P0 in HR. rewrite <- HR. f_equal. unfold control_rows.
    unfold get_sections. rewrite ST. cbn [tl pairwise map]. unfold first_point, next_point, row_at. rewrite R. cbn [nth st_md st_inc st_azi].
    destruct (Req_EM_T _ 0); cbn [tp_md tp_inc tp_azi]; rewrite D1, D2, D3; reflexivity.
  - destruct (Survey_intervals _ _ _ _ _ _ _ HR) as (_ & N0 & _).
    destruct (Survey_stations _ _ _ _ _ _ _ HR) as (_ & L0 & _ & _ & _ & _ & _ & LN & _). rewrite <- L0, RR in LN. cbn [length] in LN.
    destruct (sv_nev r) as [|p' [|q' [|? ?]]] eqn:NR; try discriminate LN.
    injection N0 as N0. rewrite N in N0. simpl in N0. subst p'.
    assert (SA : section_arc p (direction_nev (PI / 6) 0) q' (direction_nev (PI / 2) 0) (120 - 0) (PI / 3) (high_side (PI / 6) 0)).
    { destruct (high_unit (PI / 6) 0) as [H1 H2].
      apply (Survey_section _ _ _ _ _ _ _ 0 (mkSt 0 (PI / 6) 0) (mkSt 120 (PI / 2) 0) p q' (PI / 3) (high_side (PI / 6) 0) HR); rewrite ?RR, ?NR; auto; try lra.
      - unfold dir. cbn [st_inc st_azi]. replace (PI / 2) with (PI / 6 + PI / 3) by field. apply planar_angle. lra.
      - unfold dir. cbn [st_inc st_azi]. rewrite planar_tangent. f_equal. field. }
    destruct S1 as (_ & _ & _ & S1 & _), S2 as (_ & _ & _ & S2 & _), SA as (_ & _ & _ & SA & _).
    rewrite planar_point in S1, S2, SA. rewrite N. cbn [last]. rewrite S2, S1, SA. unfold vadd; cbn [vz].
    replace (PI / 6 + PI / 6) with (PI / 3) by field. replace (PI / 3 + PI / 6) with (PI / 2) by field. replace (PI / 6 + PI / 3) with (PI / 2) by field.
    rewrite sin_PI2, sin_PI3, sin_PI6.
    replace (30 / (PI / 6)) with (180 * / PI) by (field; lra). replace (90 / (PI / 6)) with (540 * / PI) by (field; lra). replace ((120 - 0) / (PI / 3)) with (360 * / PI) by (field; lra).
    assert (IP : / 4 <= / PI) by (apply Rinv_le_contravar; [lra|pose proof PI_4; lra]).
    pose proof half_root3 as [H3 H3'].
    assert (sqrt 3 * sqrt 3 = 3) by (apply sqrt_sqrt; lra).
    assert (173 / 100 < sqrt 3) by nra.
    match goal with |- 10 < ?e => replace e with (180 * / PI * (sqrt 3 - 3 / 2)) by (simpl; field; lra) end.
    nra.
  - intros x tolerance d v a items [X _].
    destruct (export_frame _ _ _ _ _ _ x tolerance false d v a items H) as (data & E & L & NTH). exists data. split; auto.
    rewrite (bend_only_ends s x H R X) in L, NTH. cbn [length] in L.
    destruct (NTH 0%nat 0%nat (mkSt 0 (PI / 6) 0) p) as (r0 & E0 & _); [reflexivity|rewrite R; reflexivity|rewrite N; reflexivity|].
    destruct (NTH 1%nat 2%nat (mkSt 120 (PI / 2) 0) z) as (r1 & E1 & _); [reflexivity|rewrite R; reflexivity|rewrite N; reflexivity|].
    destruct data as [|d0 [|d1 [|? ?]]]; try discriminate L. cbn [nth_error] in E0, E1. injection E0 as ->. injection E1 as ->.
    unfold station_columns. cbn [st_md st_inc st_azi app map firstn]. unfold degrees in D1, D2, D3. rewrite D1, D2, D3. reflexivity.
Qed.

(** ** survey_to_df *)
Theorem table_length : forall big s, length (survey_to_df big s) = length (sv_rows s).
Proof. intros. unfold survey_to_df. rewrite map_length, seq_length. reflexivity. Qed.
Lemma table_nth : forall big s k a, nth_error (sv_rows s) k = Some a -> nth_error (survey_to_df big s) k = Some (df_station big s k).
Proof.
  intros big s k a A. unfold survey_to_df. assert (K : (k < length (sv_rows s))%nat) by (apply nth_error_Some; congruence).
  apply map_nth_error.
  destruct (nth_error (seq 0 (length (sv_rows s))) k) as [m|] eqn:E.
  - apply nth_error_nth with (d := 0%nat) in E. rewrite seq_nth in E by auto. f_equal. lia.
  - apply nth_error_None in E. rewrite seq_length in E. lia.
Qed.
Theorem table_station : forall h rows deg sx sn unit s big k a p q t r, Survey h rows deg sx sn unit = Some s ->
  nth_error (survey_to_df big s) k = Some r -> nth_error (sv_rows s) k = Some a ->
  nth_error (sv_nev s) k = Some p -> nth_error (sv_xyz s) k = Some q -> nth_error (sv_azi_true s) k = Some t ->
  df_md r = st_md a /\ df_inc r = st_inc a * (180 / PI) /\ df_azi_grid r = st_azi a * (180 / PI) /\ df_azi_true r = t * (180 / PI) /\
  df_northing r = vx sn + h_gsf h * (vx p - vx sn + vy sx) /\
  df_easting r = vy sn + h_gsf h * (vy p - vy sn + vx sx) /\
  df_tvdss r = vz p + vz sx /\
  (df_x r, df_y r, df_z r) = (vx q, vy q, vz q).
Proof.
  intros h rows deg sx sn unit s big k a p q t r H T A P Q Z.
  rewrite (table_nth big s k a A) in T. injection T as <-. unfold df_station. unfold row_at.
  rewrite (nth_error_nth _ _ st0 A), (nth_error_nth _ _ vzero Q), (nth_error_nth _ _ 0 Z). cbn [df_md df_inc df_azi_grid df_azi_true df_northing df_easting df_tvdss df_x df_y df_z].
  unfold Survey in H. destruct (negb _); [discriminate|]. destruct (M_Utils.MinCurve _ sx unit) as [mc|]; [|discriminate]. injection H as H. subst s. cbn [sv_rows sv_nev sv_xyz sv_pos_nev] in *.
  rewrite nth_error_map, Q in P. injection P as <-.
  assert (PN : forall f, nth k (map f (mc_poss mc)) vzero = f q).
  { intros f. apply nth_error_nth. rewrite nth_error_map, Q. reflexivity. }
  rewrite PN. unfold degrees. repeat split; unfold get_nev, vadd; cbn [vx vy vz]; simpl; ring.
Qed.
Theorem table_toolface : forall big s k r tf, nth_error (survey_to_df big s) k = Some r -> nth_error (cv_toolface (survey_curves s)) k = Some tf ->
  0 <= df_toolface r < 360 /\ exists n, df_toolface r = tf * (180 / PI) + 360 * IZR n.
Proof.
  intros big s k r tf T F.
  assert (K : (k < length (sv_rows s))%nat) by (rewrite <- (table_length big s); apply nth_error_Some; congruence).
  destruct (nth_error (sv_rows s) k) as [a|] eqn:A; [|apply nth_error_None in A; lia].
  rewrite (table_nth big s k a A) in T. injection T as <-. unfold df_station. rewrite (nth_error_nth _ _ 0 F). cbn [df_toolface].
  split; [apply rmod_bounds; lra|]. unfold rmod. exists (1 - rfloor (degrees (tf + 2 * PI) / 360))%Z.
  pose proof PI_RGT_0. rewrite minus_IZR. unfold degrees. field. lra.
Qed.
Theorem table_rates : forall big s k r a d tf, nth_error (survey_to_df big s) k = Some r -> nth_error (sv_rows s) k = Some a ->
  nth_error (cv_dls (survey_curves s)) k = Some (Fin d) -> nth_error (cv_toolface (survey_curves s)) k = Some tf ->
  df_dls r = Fin d /\ df_build_rate r = Rabs (d * cos tf) /\
  (sin (st_inc a) <> 0 -> df_turn_rate r = Rabs (d * sin tf / sin (st_inc a))) /\
  (sin (st_inc a) = 0 -> df_turn_rate r = if Req_EM_T (d * sin tf) 0 then 0 else big).
Proof.
  intros big s k r a d tf T A D F. rewrite (table_nth big s k a A) in T. injection T as <-. unfold df_station.
  destruct (rates_everywhere s k a d tf A D F) as (B & T1 & T2 & T3). cbn [df_dls df_build_rate df_turn_rate].
  rewrite (nth_error_nth _ _ NaN D), (nth_error_nth _ _ NaN B). split; auto. split; auto. split.
  - intro NZ. rewrite (nth_error_nth _ _ NaN (T1 NZ)). reflexivity.
  - intro Z. destruct (Req_EM_T (d * sin tf) 0) as [E|E].
    + rewrite (nth_error_nth _ _ NaN (T2 Z E)). reflexivity.
    + rewrite (nth_error_nth _ _ NaN (T3 Z E)). reflexivity.
Qed.
Theorem vertical_turn : exists s a, Survey (grid_header "meters") cusp_rows false vzero vzero "meters" = Some s /\
  nth_error (sv_rows s) 1 = Some a /\ st_inc a = 0 /\
  forall big, exists r, nth_error (survey_to_df big s) 1 = Some r /\ df_dls r = Fin 30 /\ df_turn_rate r = big.
Proof.
  destruct (grid_survey "meters" cusp_rows) as (s & H & R & L); [auto|cbn; lia|]. cbn [map cusp_rows] in R. pose proof PI_RGT_0 as HP.
  destruct (Survey_stations _ _ _ _ _ _ _ H) as (HH & _).
  exists s, (mkSt 30 0 0). split; auto. rewrite R. split; [reflexivity|]. split; [reflexivity|]. intros big.
  assert (A1 : nth_error (sv_rows s) 1 = Some (mkSt 30 0 0)) by (rewrite R; reflexivity).
  assert (A0 : nth_error (sv_rows s) 0 = Some (mkSt 0 (PI / 6) 0)) by (rewrite R; reflexivity).
  assert (A2 : nth_error (sv_rows s) 2 = Some (mkSt 60 (PI / 6) (PI / 2))) by (rewrite R; reflexivity).
  assert (D : nth_error (cv_dls (survey_curves s)) 1 = Some (Fin 30)).
  { rewrite (dls_next s 0 _ _ (PI / 6) A0 A1).
    - rewrite HH. cbn [h_unit grid_header st_md]. replace (rate_length "meters") with 30 by reflexivity. do 2 f_equal. field. lra.
    - cbn [st_inc st_azi]. replace 0 with (PI / 6 - PI / 6) at 2 by ring. apply planar_angle_drop. lra.
    - cbn [st_md]. lra. }
  assert (F : nth_error (cv_toolface (survey_curves s)) 1 = Some (PI / 2)).
  { cbn [survey_curves cv_toolface]. rewrite (toolfaces_nth _ _ _ _ A1 A2). f_equal. unfold toolface_start. cbn [st_inc st_azi].
    replace (PI / 2 - 0) with (PI / 2) by ring. rewrite cos_0, sin_0.
    replace (sin (PI / 6) * 1 * cos (PI / 2) - 0 * cos (PI / 6)) with (sin (PI / 6) * cos (PI / 2)) by ring.
    apply arctan2_polar; [rewrite sin_PI6; lra|lra]. }
  exists (df_station big s 1). split; [exact (table_nth big s 1 _ A1)|].
  destruct (table_rates big s 1 _ _ _ _ (table_nth big s 1 _ A1) A1 D F) as (H1 & _ & _ & H2).
  split; [exact H1|]. rewrite H2 by (cbn [st_inc]; apply sin_0). rewrite sin_PI2.
  destruct (Req_EM_T (30 * 1) 0); [lra|reflexivity].
Qed.
