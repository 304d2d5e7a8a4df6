(** Concrete surveys for control points and tortuosity; refutations. *)
Require Import Reals ZArith Bool String List Lra Lia Psatz.
Require Import Verif.Base Verif.NumPy Verif.Spec Verif.Spec_Lists Verif.Spec_Rates Verif.M_Utils Verif.M_Survey Verif.M_Connector Verif.M_Rates Verif.M_Sections Verif.Spec_Sections
  Verif.Spec_RatesCases Verif.Spec_SectionsCases.
Require Import Verif.P_Trig Verif.P_Utils Verif.P_Utils2 Verif.P_Survey Verif.P_Survey2 Verif.P_Survey3 Verif.P_Survey4 Verif.P_Survey5 Verif.P_Rates Verif.P_Rates2 Verif.P_Rates3 Verif.P_Rates4 Verif.P_Rates6
  Verif.P_Connector8 Verif.P_Splice3 Verif.P_Sections Verif.P_Sections2 Verif.P_Sections3 Verif.P_Sections4 Verif.P_Sections5 Verif.P_Sections6.
Import ListNotations.
Open Scope R_scope.

Lemma cross_high : forall i a, cross (direction_nev i a) (high_side i a) = right_side a.
Proof.
  intros. unfold direction_nev, high_side, right_side, cross; simpl. pose proof (sin2_cos2' i) as P.
  assert (Q : sin i * sin i = 1 - cos i * cos i) by lra. apply V3_eq; simpl; ring [Q].
Qed.
Lemma high_unit : forall i a, is_unit (high_side i a) /\ orthogonal (direction_nev i a) (high_side i a).
Proof.
  intros. unfold is_unit, orthogonal, direction_nev, high_side, dot; simpl. pose proof (sin2_cos2' i) as P. pose proof (sin2_cos2' a) as R.
  assert (Q : sin i * sin i = 1 - cos i * cos i) by lra. assert (Q' : sin a * sin a = 1 - cos a * cos a) by lra. split; ring [Q Q'].
Qed.
Lemma planar_normal : forall m m' i t a, 0 < t < PI -> plane_normal (mkSt m i a) (mkSt m' (i + t) a) = Some (right_side a).
Proof.
  intros m m' i t a T. rewrite <- (cross_high i a).
  apply (normal_of_section (mkSt m i a) (mkSt m' (i + t) a) vzero (arc_point vzero (direction_nev i a) (high_side i a) (1 / t) t) 1 t (high_side i a)).
  cbn [st_inc st_azi]. destruct (high_unit i a) as [H1 H2]. split; auto. split; auto. split; auto. split; auto. symmetry. apply planar_tangent.
Qed.
Lemma straight_normal : forall m m' i a, plane_normal (mkSt m i a) (mkSt m' i a) = None.
Proof. intros. unfold plane_normal. rewrite !vec_nev_of_dir. cbn [st_inc st_azi]. rewrite cross_self. apply row_unit_zero. Qed.
Lemma planar_dls : forall x m m' i t a, m < m' -> 0 <= t <= PI -> pair_dls x (mkSt m i a) (mkSt m' (i + t) a) = Fin (x * degrees t / (m' - m)).
Proof.
  intros x m m' i t a M T. unfold pair_dls. rewrite (pair_angle_is (mkSt m i a) (mkSt m' (i + t) a) t) by (apply planar_angle; auto).
  cbn [st_md]. rewrite ediv_ne by lra. cbn [ext_scale]. f_equal. unfold Rdiv. ring.
Qed.
Lemma planar_point : forall p i r t, arc_point p (direction_nev i 0) (high_side i 0) r t =
  vadd p (mkV (r * (cos i - cos (i + t))) 0 (r * (sin (i + t) - sin i))).
Proof.
  intros [] i r t. unfold arc_point, direction_nev, high_side, vadd, vscale; simpl. rewrite cos_plus, sin_plus, sin_0, cos_0.
  apply V3_eq; simpl; ring.
Qed.
Lemma is_close_refl : forall a, is_close 0 0 a a = true.
Proof. intro a. apply is_close_iff. unfold near. rewrite Rminus_diag_eq by auto. rewrite Rabs_R0. lra. Qed.

(** ** vertical, then one circular build surveyed twice *)
Lemma build_case : exists s,
  Survey (grid_header "meters") build_rows false vzero vzero "meters" = Some s /\
  sv_rows s = [mkSt 0 0 0; mkSt 30 0 0; mkSt 60 (PI / 6) 0; mkSt 90 (PI / 3) 0] /\
  section_data s = [(None, Fin 0); (Some (right_side 0), Fin 30); (Some (right_side 0), Fin 30)] /\
  section_starts s 0 0 true = [0; 1; 3]%nat /\ length (sv_nev s) = 4%nat.
Proof.
  destruct (grid_survey "meters" build_rows) as (s & H & R & L); [auto|simpl; lia|].
  pose proof PI_RGT_0 as HP. exists s. split; auto. simpl in R. split; auto.
  destruct (Survey_stations _ _ _ _ _ _ _ H) as (HH & _).
  assert (D : section_data s = [(None, Fin 0); (Some (right_side 0), Fin 30); (Some (right_side 0), Fin 30)]).
  { unfold section_data, survey_curves. cbn [cv_normals cv_dls]. unfold normals, dls_list. cbn [tl]. rewrite R, HH. cbn [pairwise combine h_unit grid_header].
    replace (rate_length "meters") with 30 by reflexivity.
    rewrite straight_normal.
    replace (pair_dls 30 (mkSt 0 0 0) (mkSt 30 0 0)) with (Fin 0).
    2:{ replace (mkSt 30 0 0) with (mkSt 30 (0 + 0) 0) by (f_equal; ring). rewrite planar_dls by lra. f_equal. unfold degrees. field. lra. }
    replace (mkSt 60 (PI / 6) 0) with (mkSt 60 (0 + PI / 6) 0) at 1 2 by (f_equal; ring).
    rewrite planar_normal, planar_dls by lra.
    replace (mkSt 90 (PI / 3) 0) with (mkSt 90 (PI / 6 + PI / 6) 0) by (f_equal; field).
    rewrite planar_normal, planar_dls by lra.
    replace (30 * degrees (PI / 6) / (60 - 30)) with 30 by (unfold degrees; field; lra).
    replace (30 * degrees (PI / 6) / (90 - 60)) with 30 by (unfold degrees; field; lra). reflexivity. }
  split; auto. split; [|rewrite L; reflexivity].
  unfold section_starts. rewrite D, R. cbn [pairwise]. unfold section_continuous. cbn [fst snd close_rows andb].
  unfold right_side; cbn [vx vy vz]. rewrite !is_close_refl. cbn [andb around_equal]. rewrite Z.eqb_refl. reflexivity.
Qed.

(** ** two arcs of one plane, merged when the dls is not compared *)
Lemma bend_starts : forall s, Survey (grid_header "meters") bend_rows false vzero vzero "meters" = Some s ->
  sv_rows s = [mkSt 0 (PI / 6) 0; mkSt 30 (PI / 3) 0; mkSt 120 (PI / 2) 0] ->
  section_data s = [(Some (right_side 0), Fin 30); (Some (right_side 0), Fin 10)].
Proof.
  intros s H R. pose proof PI_RGT_0 as HP. destruct (Survey_stations _ _ _ _ _ _ _ H) as (HH & _).
  unfold section_data, survey_curves. cbn [cv_normals cv_dls]. unfold normals, dls_list. cbn [tl]. rewrite R, HH. cbn [pairwise combine h_unit grid_header].
  replace (rate_length "meters") with 30 by reflexivity.
  replace (mkSt 120 (PI / 2) 0) with (mkSt 120 (PI / 3 + PI / 6) 0) by (f_equal; field).
  rewrite (planar_normal 30 120), (planar_dls 30 30 120) by lra.
  replace (mkSt 30 (PI / 3) 0) with (mkSt 30 (PI / 6 + PI / 6) 0) by (f_equal; field).
  rewrite planar_normal, planar_dls by lra.
  replace (30 * degrees (PI / 6) / (30 - 0)) with 30 by (unfold degrees; field; lra).
  replace (30 * degrees (PI / 6) / (120 - 30)) with 10 by (unfold degrees; field; lra). reflexivity.
Qed.
Lemma half_root3 : 0 < sqrt 3 < 2.
Proof. split; [apply sqrt_lt_R0; lra|]. replace 2 with (sqrt (2 * 2)) by (rewrite sqrt_square; lra). apply sqrt_lt_1_alt. lra. Qed.

Lemma merged_arcs_refuted : exists s r,
  Survey (grid_header "meters") bend_rows false vzero vzero "meters" = Some s /\
  resurvey s 0 false = Some r /\
  vz (last (sv_nev s) vzero) < vz (last (sv_nev r) vzero).
Proof.
  destruct (bend_case "meters") as (s & p & q & z & H & R & N & S1 & S2 & A); auto. pose proof PI_RGT_0 as HP.
  assert (NE : exists r, resurvey s 0 false = Some r) by (apply (resurvey_accepts _ _ _ _ _ _ _ 0 false H); auto). destruct NE as [r HR].
  exists s, r. split; auto. split; auto.
  assert (ST : section_starts s 0 0 false = [0; 2]%nat).
  { unfold section_starts. rewrite (bend_starts s H R), R. cbn [pairwise]. unfold section_continuous. cbn [fst snd close_rows andb].
    unfold right_side; cbn [vx vy vz]. rewrite !is_close_refl. reflexivity. }
  pose proof (resurvey_rows _ _ _ _ _ _ _ _ _ _ H HR) as RR. rewrite ST in RR. cbn [map h_ref grid_header] in RR. unfold row_at in RR. rewrite R in RR. cbn [nth st_md st_inc st_azi] in RR.
  rewrite !Rplus_0_r in RR.
  destruct (Survey_intervals _ _ _ _ _ _ _ HR) as (_ & N0 & _).
  destruct (Survey_stations _ _ _ _ _ _ _ HR) as (_ & L0 & _ & _ & _ & _ & _ & LN & _). rewrite <- L0, RR in LN. cbn [length] in LN.
  destruct (sv_nev r) as [|p' [|q' [|? ?]]] eqn:NR; try discriminate LN.
  injection N0 as N0. rewrite N in N0. simpl in N0. subst p'.
  assert (SA : section_arc p (direction_nev (PI / 6) 0) q' (direction_nev (PI / 2) 0) (120 - 0) (PI / 3) (high_side (PI / 6) 0)).
  { destruct (high_unit (PI / 6) 0) as [H1 H2].
    apply (Survey_section _ _ _ _ _ _ _ 0 (mkSt 0 (PI / 6) 0) (mkSt 120 (PI / 2) 0) p q' (PI / 3) (high_side (PI / 6) 0) HR); rewrite ?RR, ?NR; auto; try lra.
    - unfold dir. cbn [st_inc st_azi]. replace (PI / 2) with (PI / 6 + PI / 3) by field. apply planar_angle. lra.
    - unfold dir. cbn [st_inc st_azi]. rewrite planar_tangent. f_equal. field. }
  destruct S1 as (_ & _ & _ & S1 & _), S2 as (_ & _ & _ & S2 & _), SA as (_ & _ & _ & SA & _).
  rewrite planar_point in S1, S2, SA. rewrite N. cbn [last]. rewrite S2, S1, SA. unfold vadd; cbn [vz].
  replace (PI / 6 + PI / 6) with (PI / 3) by field. replace (PI / 3 + PI / 6) with (PI / 2) by field. replace (PI / 6 + PI / 3) with (PI / 2) by field.
  rewrite sin_PI2, sin_PI3, sin_PI6.
  replace (30 / (PI / 6)) with (180 * / PI) by (field; lra). replace (90 / (PI / 6)) with (540 * / PI) by (field; lra). replace ((120 - 0) / (PI / 3)) with (360 * / PI) by (field; lra).
  pose proof (Rinv_0_lt_compat _ HP) as IP. pose proof half_root3 as [H3 H3'].
  assert (sqrt 3 * sqrt 3 = 3) by (apply sqrt_sqrt; lra).
  assert (34 / 20 < sqrt 3) by nra.
  nra.
Qed.

(** ** the hypotheses of the theorems on the vertical-and-build survey *)
Lemma build_dls : forall s, Survey (grid_header "meters") build_rows false vzero vzero "meters" = Some s ->
  length (sv_rows s) = 4%nat -> section_data s = [(None, Fin 0); (Some (right_side 0), Fin 30); (Some (right_side 0), Fin 30)] ->
  cv_dls (survey_curves s) = [Fin 0; Fin 0; Fin 30; Fin 30].
Proof.
  intros s H L D. unfold section_data, survey_curves in *. cbn [cv_normals cv_dls] in *. unfold dls_list in *. cbn [tl] in D.
  destruct (sv_rows s) as [|a [|b [|c [|d [|? ?]]]]]; try discriminate L. cbn [pairwise combine normals] in *.
  injection D as _ D1 _ D2 _ D3. rewrite D1, D2, D3. reflexivity.
Qed.
Lemma build_hypotheses : forall s, Survey (grid_header "meters") build_rows false vzero vzero "meters" = Some s ->
  sv_rows s = [mkSt 0 0 0; mkSt 30 0 0; mkSt 60 (PI / 6) 0; mkSt 90 (PI / 3) 0] ->
  cv_dls (survey_curves s) = [Fin 0; Fin 0; Fin 30; Fin 30] -> section_starts s 0 0 true = [0; 1; 3]%nat ->
  strictly_increasing (map st_md (sv_rows s)) /\
  forall i j, neighbours (section_starts s 0 0 true) i j ->
    (forall k d d', (i < k)%nat -> (S k <= j)%nat -> nth_error (cv_dls (survey_curves s)) k = Some d -> nth_error (cv_dls (survey_curves s)) (S k) = Some d' ->
      alike_rounded (around 2) d d' -> d = d') /\
    (forall a b d, nth_error (sv_rows s) i = Some a -> nth_error (sv_rows s) j = Some b ->
      nth_error (cv_dls (survey_curves s)) j = Some (Fin d) ->
      d * ((st_md b - st_md a) / rate_length "meters") < 180).
Proof.
  intros s H R D ST. rewrite R, D, ST. split; [cbn; repeat split; lra|].
  intros i j (pre & post & E).
  assert (C : (i = 0 /\ j = 1)%nat \/ (i = 1 /\ j = 3)%nat).
  { destruct pre as [|? [|? [|? ?]]]; try discriminate E; injection E; intros; subst; auto.
    destruct l; discriminate. }
  replace (rate_length "meters") with 30 by reflexivity.
  destruct C as [[-> ->]|[-> ->]]; split.
  - intros; lia.
  - intros a b d A B Q. cbn in A, B, Q. injection A as <-. injection B as <-. injection Q as <-. cbn. lra.
  - intros k d d' K1 K2 A B _. assert (k = 2%nat) by lia. subst k. cbn in A, B. congruence.
  - intros a b d A B Q. cbn in A, B, Q. injection A as <-. injection B as <-. injection Q as <-. cbn. lra.
Qed.

(** ** a level well on a stretched grid *)
Lemma stretched_case : exists s,
  Survey stretched_header level_rows false vzero vzero "meters" = Some s /\
  sv_rows s = [mkSt 0 (PI / 2) 0; mkSt 100 (PI / 2) 0] /\
  ti_starts s (1 / 10) None = [0]%nat /\ chord s 0 1 = 1001 / 10 /\ along s 0 1 = 100.
Proof.
  assert (A : exists s, Survey stretched_header level_rows false vzero vzero "meters" = Some s) by (apply Survey_accepts; auto).
  destruct A as [s H]. exists s. split; auto.
  assert (R : sv_rows s = [mkSt 0 (PI / 2) 0; mkSt 100 (PI / 2) 0]).
  { rewrite (Survey_rows _ _ _ _ _ _ _ H). reflexivity. }
  split; auto.
  destruct (Survey_stations _ _ _ _ _ _ _ H) as (HH & _ & _ & _ & _ & _ & _ & LN & LP & _).
  split.
  { unfold ti_starts, section_data, survey_curves. cbn [cv_normals cv_dls]. unfold normals, dls_list. cbn [tl]. rewrite R. reflexivity. }
  split; [|unfold along, depth_at; rewrite R; cbn; lra].
  destruct (sv_nev s) as [|p [|q [|? ?]]] eqn:N; try discriminate LN.
  destruct (sv_pos_nev s) as [|p' [|q' [|? ?]]] eqn:P; try discriminate LP.
  assert (Q : q = vadd p (vscale 100 (mkV 1 0 0))).
  { destruct (straight_run _ _ _ _ _ _ _ H 0 1) with (d := 1%nat) (a := mkSt 0 (PI / 2) 0) (b := mkSt 100 (PI / 2) 0) (p := p) (q := q) as [_ E]; rewrite ?R, ?N; auto.
    - intros k a b K A B. assert (k = 0%nat) by lia. subst k. cbn in A, B. injection A as <-. injection B as <-. reflexivity.
    - rewrite E. unfold heading. cbn [st_md st_inc st_azi]. unfold direction_nev. rewrite sin_PI2, cos_PI2, sin_0, cos_0.
      f_equal. f_equal; [ring|]. f_equal; ring. }
  destruct (Survey_pos_nev _ _ _ _ _ _ _ 0 p p' H ltac:(rewrite N; auto) ltac:(rewrite P; auto)) as (X1 & Y1 & Z1).
  destruct (Survey_pos_nev _ _ _ _ _ _ _ 1 q q' H ltac:(rewrite N; auto) ltac:(rewrite P; auto)) as (X2 & Y2 & Z2).
  unfold chord. rewrite P. cbn [nth].
  replace (vsub q' p') with (mkV (1001 / 10) 0 0).
  - unfold norm, dot. cbn [vx vy vz]. replace (1001 / 10 * (1001 / 10) + 0 * 0 + 0 * 0) with ((1001 / 10) * (1001 / 10)) by ring. apply sqrt_square. lra.
  - subst q. cbn [h_gsf stretched_header] in *. unfold vadd, vscale in *. cbn [vx vy vz] in *. apply V3_eq; unfold vsub; cbn [vx vy vz]; rewrite ?X1, ?X2, ?Y1, ?Y2, ?Z1, ?Z2; field.
Qed.
Lemma negative_ti_refuted : exists s l y,
  Survey stretched_header level_rows false vzero vzero "meters" = Some s /\
  tortuosity_index s (1 / 10) None [] = Some l /\ nth_error l 1 = Some (Fin y) /\ y < 0.
Proof.
  destruct stretched_case as (s & H & R & ST & CH & AL).
  assert (ONE : forall k i, last_before (ti_starts s (1 / 10) None) k i -> i = 0%nat).
  { rewrite ST. intros k i ([Q|[]] & _). auto. }
  destruct (ti_values _ _ _ _ _ _ _ (1 / 10) None [] (3048 / 10000) (10 ^ 7) H) as (l & T & _ & _ & V); try reflexivity; try lra.
  - rewrite R. cbn. split; auto. lra.
  - rewrite R. intros k i K LB. pose proof (ONE k i LB). subst i. destruct LB as (_ & K0 & _). cbn in K. assert (k = 1%nat) by lia. subst k. rewrite CH. lra.
  - destruct (V 1%nat) as (v & SM & E); [rewrite R; cbn; lia|].
    exists s, l. eexists. split; [auto|]. split; [auto|]. split; [exact E|].
    rewrite ST, AL. replace (INR (number_before [0%nat] 1)) with 1 by reflexivity.
    inversion SM as [|i k v' LB SM' K E']. pose proof (ONE _ _ LB). subst i k v. inversion SM' as [Q|i k v'' LB' _ K E'].
    + rewrite CH, AL. lra.
    + destruct LB' as (_ & LB' & _). lia.
Qed.

(** ** the two bends as one plane: chords from the first station *)
Lemma bend_tortuosity_case : exists s,
  Survey (grid_header "meters") bend_rows false vzero vzero "meters" = Some s /\
  strictly_increasing (map st_md (sv_rows s)) /\
  (forall m a b t, nth_error (sv_rows s) m = Some a -> nth_error (sv_rows s) (S m) = Some b ->
     angle_between (heading a) (heading b) t -> t < PI) /\
  ti_starts s (1 / 10) None = [0]%nat /\
  (forall k i, (k < length (sv_rows s))%nat -> last_before (ti_starts s (1 / 10) None) k i -> chord s i k <> 0).
Proof.
  destruct (bend_case "meters") as (s & p & q & z & H & R & N & S1 & S2 & A); auto. pose proof PI_RGT_0 as HP.
  exists s. split; auto. split; [rewrite R; cbn; repeat split; lra|]. split.
  { rewrite R. intros m a b t X Y T.
    assert (T6 : angle_between (heading a) (heading b) (PI / 6)).
    { destruct m as [|[|m]]; cbn in X, Y; [| |destruct m; discriminate]; injection X as <-; injection Y as <-; unfold heading; cbn [st_inc st_azi].
      - replace (PI / 3) with (PI / 6 + PI / 6) by field. apply planar_angle. lra.
      - replace (PI / 2) with (PI / 3 + PI / 6) by field. apply planar_angle. lra. }
    destruct T as [T0 T], T6 as [_ T6]. assert (t = PI / 6); [|lra].
    apply cos_inj_0_PI; try lra; try apply T0. }
  assert (ST : ti_starts s (1 / 10) None = [0]%nat).
  { unfold ti_starts. rewrite (bend_starts s H R). cbn [pairwise]. unfold ti_continuous. cbn [fst snd close_rows andb].
    assert (RC : forall a, is_close (1 / 10) (1 / 10) a a = true).
    { intro a. apply is_close_iff. unfold near. rewrite Rminus_diag_eq by auto. rewrite Rabs_R0. pose proof (Rabs_pos a). lra. }
    rewrite !RC. reflexivity. }
  split; auto. rewrite ST, R. intros k i K ([<-|[]] & K0 & _). cbn in K.
  unfold chord. rewrite (pos_nev_agrees _ _ _ _ _ _ _ H) by reflexivity. rewrite N.
  destruct S1 as (_ & _ & _ & S1 & _), S2 as (_ & _ & _ & S2 & _). rewrite planar_point in S1, S2.
  replace (PI / 6 + PI / 6) with (PI / 3) in S1 by field. replace (PI / 3 + PI / 6) with (PI / 2) in S2 by field.
  rewrite cos_PI3, cos_PI6 in S1. rewrite cos_PI2, cos_PI3 in S2. pose proof half_root3 as [H3 H3'].
  assert (sqrt 3 * sqrt 3 = 3) by (apply sqrt_sqrt; lra). assert (1 < sqrt 3) by nra.
  assert (I1 : 0 < 30 / (PI / 6)) by (apply Rdiv_lt_0_compat; lra). assert (I2 : 0 < 90 / (PI / 6)) by (apply Rdiv_lt_0_compat; lra).
  assert (P1 : 0 < vx q - vx p) by (rewrite S1; unfold vadd; cbn [vx]; nra).
  assert (P2 : 0 < vx z - vx q) by (rewrite S2; unfold vadd; cbn [vx]; nra).
  assert (NZ : forall u v, 0 < vx u - vx v -> norm (vsub u v) <> 0).
  { intros u v P Q. unfold norm in Q. apply sqrt_eq_0 in Q; [|apply dot_self_ge0].
    apply dot_self_eq0 in Q. assert (vx (vsub u v) = 0) by (rewrite Q; reflexivity). unfold vsub in *. cbn [vx] in *. lra. }
  assert (k = 1 \/ k = 2)%nat as [-> | ->] by lia; cbn [nth]; apply NZ; lra.
Qed.

(** ** the index is computed with the numbers as if they were meters *)
Lemma ddi_feet : forall h rows deg sx sn s, Survey h rows deg sx sn "feet" = Some s ->
  forall k a p v, nth_error (sv_rows s) k = Some a -> nth_error (sv_nev s) k = Some p ->
    nth_error (directional_difficulty_index s) k = Some v ->
    let turned := fold_right Rplus 0 (map degrees (firstn (S k) (sv_dogleg s))) in
    let x := st_md a * sqrt (vx p ^ 2 + vy p ^ 2) * turned / vz p in
    vz p <> 0 -> 0 < x -> exists w, Rpower 10 w = x /\ Rpower 10 (v - w) = 10000 / 3048.
Proof.
  intros h rows deg sx sn s H k a p v A P D turned x Z X.
  destruct (ddi_values _ _ _ _ _ _ _ H) as [_ V]. destruct (V k a p v A P D) as [V1 _]. fold turned in V1.
  replace (st_md a / (3048 / 10000) * (sqrt (vx p ^ 2 + vy p ^ 2) / (3048 / 10000)) * turned / (vz p / (3048 / 10000))) with (x * (10000 / 3048)) in V1 by (unfold x; field; auto).
  assert (Y : Rpower 10 v = x * (10000 / 3048)) by (apply V1; auto; lra).
  assert (L : ln 10 <> 0). { rewrite <- ln_1. intro Q. apply ln_inv in Q; lra. }
  exists (ln x / ln 10).
  assert (W : Rpower 10 (ln x / ln 10) = x). { unfold Rpower. replace (ln x / ln 10 * ln 10) with (ln x) by (field; auto). apply exp_ln; auto. }
  split; auto. unfold Rminus. rewrite Rpower_plus, Rpower_Ropp, W, Y. field. lra.
Qed.
Lemma rounding_separates : forall x y, alike_rounded (around 2) (Fin x) (Fin y) -> Rabs (x - y) <= 1 / 100.
Proof.
  intros x y E. cbn in E. pose proof (around_near 2 x y E). lra.
Qed.
Lemma bend_difficulty_case : exists s p, Survey (grid_header "feet") bend_rows false vzero vzero "feet" = Some s /\
  nth_error (sv_rows s) 1 = Some (mkSt 30 (PI / 3) 0) /\ nth_error (sv_nev s) 1 = Some p /\ vz p <> 0 /\
  0 < 30 * sqrt (vx p ^ 2 + vy p ^ 2) * fold_right Rplus 0 (map degrees (firstn 2 (sv_dogleg s))) / vz p.
Proof.
  destruct (bend_case "feet") as (s & p & q & z & H & R & N & S1 & S2 & A); auto. pose proof PI_RGT_0 as HP.
  destruct (Survey_intervals _ _ _ _ _ _ _ H) as (D0 & N0 & _ & _ & _ & ST).
  rewrite N in N0. injection N0 as N0.
  destruct (ST 0%nat (mkSt 0 (PI / 6) 0) (mkSt 30 (PI / 3) 0) p q) as (_ & _ & dl & D1 & AN); rewrite ?R, ?N; auto.
  assert (DL : dl = PI / 6).
  { cbn [st_inc st_azi] in AN. destruct AN as [B1 B2].
    assert (AN' : angle_between (direction_nev (PI / 6) 0) (direction_nev (PI / 6 + PI / 6) 0) (PI / 6)) by (apply planar_angle; lra).
    replace (PI / 6 + PI / 6) with (PI / 3) in AN' by field. destruct AN' as [B3 B4].
    apply cos_inj_0_PI; auto. rewrite <- B2 in B4. auto. }
  exists s, q. rewrite R, N. split; auto. split; auto. split; auto.
  destruct S1 as (_ & _ & _ & S1 & _). rewrite planar_point in S1.
  replace (PI / 6 + PI / 6) with (PI / 3) in S1 by field. rewrite cos_PI3, cos_PI6, sin_PI3, sin_PI6, N0 in S1.
  pose proof half_root3 as [H3 H3'].
  assert (sqrt 3 * sqrt 3 = 3) by (apply sqrt_sqrt; lra). assert (1 < sqrt 3) by nra.
  assert (I1 : 0 < 30 / (PI / 6)) by (apply Rdiv_lt_0_compat; lra).
  assert (P1 : 0 < vx q) by (rewrite S1; unfold vadd; cbn [vx vzero]; nra).
  assert (P3 : 0 < vz q) by (rewrite S1; unfold vadd; cbn [vz vzero]; nra).
  split; [lra|].
  destruct (sv_dogleg s) as [|d0 [|d1 dr]]; try discriminate D1. cbn in D0, D1. injection D0 as ->. injection D1 as ->. subst dl.
  cbn [firstn map fold_right].
  assert (0 < degrees 0 + (degrees (PI / 6) + 0)).
  { unfold degrees. replace (0 * _ + _) with 30 by (field; lra). lra. }
  assert (0 < sqrt (vx q ^ 2 + vy q ^ 2)) by (apply sqrt_lt_R0; nra).
  apply Rdiv_lt_0_compat; auto. apply Rmult_lt_0_compat; auto. lra.
Qed.
