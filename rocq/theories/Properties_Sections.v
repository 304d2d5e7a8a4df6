(** Property theorems C101-C103: control points, tortuosity and directional
    difficulty of a survey. *)
Require Import Reals ZArith Bool String List Lra Lia Psatz.
Require Import Verif.Base Verif.NumPy Verif.Spec Verif.Spec_Lists Verif.Spec_Rates Verif.M_Utils Verif.M_Survey Verif.M_Connector Verif.M_Rates Verif.M_Sections
  Verif.Spec_Sections Verif.Spec_RatesCases Verif.Spec_SectionsCases.
Require Import Verif.P_Rates6 Verif.P_Sections Verif.P_Sections2 Verif.P_Sections3 Verif.P_Sections5 Verif.P_Sections6 Verif.P_Sections7.
Import ListNotations.
Local Open Scope R_scope.

(** * C101: control points *)
Theorem C101_ascending : forall s rtol atol dc, (2 <= length (sv_rows s))%nat -> ascending (section_starts s rtol atol dc).
Proof. exact starts_ascending. Qed.
Print Assumptions C101_ascending.
Theorem C101_first_last : forall s rtol atol dc, (2 <= length (sv_rows s))%nat ->
  hd_error (section_starts s rtol atol dc) = Some 0%nat /\
  hd_error (rev (section_starts s rtol atol dc)) = Some (length (sv_rows s) - 1)%nat.
Proof. exact starts_first_last. Qed.
Print Assumptions C101_first_last.
Theorem C101_boundaries : forall s rtol atol dc k n1 n2 d1 d2, (2 <= length (sv_rows s))%nat -> (S (S k) < length (sv_rows s))%nat ->
  nth_error (cv_normals (survey_curves s)) k = Some n1 -> nth_error (cv_normals (survey_curves s)) (S k) = Some n2 ->
  nth_error (cv_dls (survey_curves s)) (S k) = Some d1 -> nth_error (cv_dls (survey_curves s)) (S (S k)) = Some d2 ->
  (In (S k) (section_starts s rtol atol dc) <->
   ~ (same_plane rtol atol n1 n2 /\ (dc = true -> alike_rounded (around 2) d1 d2))).
Proof. exact starts_iff. Qed.
Print Assumptions C101_boundaries.
Theorem C101_rounding : forall x y, alike_rounded (around 2) (Fin x) (Fin y) -> Rabs (x - y) <= 1 / 100.
Proof. exact rounding_separates. Qed.
Print Assumptions C101_rounding.
Theorem C101_shape : forall s rtol atol dc,
  length (tl (get_sections s rtol atol dc)) = length (section_starts s rtol atol dc) /\
  hd_error (get_sections s rtol atol dc) = hd_error (tl (get_sections s rtol atol dc)).
Proof. exact sections_shape. Qed.
Print Assumptions C101_shape.
Theorem C101_points : forall s rtol atol dc i k t a p,
  nth_error (section_starts s rtol atol dc) i = Some k -> nth_error (tl (get_sections s rtol atol dc)) i = Some t ->
  nth_error (sv_rows s) k = Some a -> nth_error (sv_nev s) k = Some p ->
  tp_md t = st_md a /\ tp_inc t = degrees (st_inc a) /\ tp_azi t = degrees (st_azi a) /\
  tp_location t = mkV (vy p) (vx p) (- vz p) /\ tp_tie_on t = false /\
  tp_method t = (if Nat.eqb i 0 then "2" else "920")%string.
Proof. exact sections_points. Qed.
Print Assumptions C101_points.
Theorem C101_rates : forall h rows deg sx sn unit s rtol atol dc i lb k t a b c,
  Survey h rows deg sx sn unit = Some s ->
  nth_error (section_starts s rtol atol dc) i = Some lb -> nth_error (section_starts s rtol atol dc) (S i) = Some k ->
  nth_error (tl (get_sections s rtol atol dc)) (S i) = Some t ->
  nth_error (sv_rows s) lb = Some a -> nth_error (sv_rows s) (S lb) = Some b -> nth_error (sv_rows s) k = Some c ->
  (heading b = heading a ->
     tp_dls t = Fin 0 /\ tp_toolface t = 0 /\ tp_build_rate t = Fin 0 /\ tp_turn_rate t = Fin 0) /\
  (heading b <> heading a -> st_md a < st_md c ->
     let per := (if String.eqb (h_unit h) "meters" then 30 else 100) / (st_md c - st_md a) in
     (forall d, nth_error (cv_dls (survey_curves s)) k = Some d -> tp_dls t = d) /\
     tp_build_rate t = Fin (Rabs (degrees (st_inc c) - degrees (st_inc a)) * per) /\
     exists w, tp_turn_rate t = Fin (w * per) /\
       let d := degrees (st_azi c) - degrees (st_azi a) in
       (Rabs d < 360 -> -180 <= w <= 180 /\ (w = d \/ w = d + 360 \/ w = d - 360))).
Proof. exact sections_rates. Qed.
Print Assumptions C101_rates.
Theorem C101_toolface : forall h rows deg sx sn unit s rtol atol dc i lb k t a c n cc tf,
  Survey h rows deg sx sn unit = Some s ->
  nth_error (section_starts s rtol atol dc) i = Some lb -> nth_error (section_starts s rtol atol dc) (S i) = Some k ->
  nth_error (tl (get_sections s rtol atol dc)) (S i) = Some t ->
  nth_error (sv_rows s) lb = Some a -> nth_error (sv_rows s) k = Some c ->
  circular_between (sv_rows s) lb k n cc ->
  0 <= st_azi a < 2 * PI -> 0 <= st_azi c < 2 * PI -> 0 <= st_inc c <= PI ->
  nth_error (cv_toolface (survey_curves s)) lb = Some tf ->
  sin (radians (tp_toolface t)) = sin tf /\ cos (radians (tp_toolface t)) = cos tf.
Proof. exact sections_toolface. Qed.
Print Assumptions C101_toolface.
Theorem C101_resurvey_success : forall h rows deg sx sn unit s tol dc, Survey h rows deg sx sn unit = Some s ->
  ((exists r, resurvey s tol dc = Some r) <-> unit = "meters"%string).
Proof. exact resurvey_accepts. Qed.
Print Assumptions C101_resurvey_success.
Theorem C101_resurvey_rows : forall h rows deg sx sn unit s tol dc r, Survey h rows deg sx sn unit = Some s -> resurvey s tol dc = Some r ->
  sv_rows r = map (fun k => let a := row_at s k in mkSt (st_md a) (st_inc a)
      (st_azi a + match h_ref h with RefGrid => 0 | RefTrue => - h_convergence h | RefMagnetic => h_declination h - h_convergence h end))
    (section_starts s tol tol dc).
Proof. exact resurvey_rows. Qed.
Print Assumptions C101_resurvey_rows.
Theorem C101_reproduces : forall h rows deg sx sn unit s tol dc r,
  Survey h rows deg sx sn unit = Some s -> h_ref h = RefGrid -> resurvey s tol dc = Some r ->
  (forall i j, neighbours (section_starts s tol tol dc) i j ->
     straight_between (sv_rows s) i j \/ exists n c, circular_between (sv_rows s) i j n c) ->
  length (sv_rows r) = length (section_starts s tol tol dc) /\
  (forall i k, nth_error (section_starts s tol tol dc) i = Some k ->
     nth_error (sv_rows r) i = nth_error (sv_rows s) k /\ nth_error (sv_nev r) i = nth_error (sv_nev s) k) /\
  forall tolerance, resurvey_misfit s tol dc tolerance = Some (Rabs tolerance).
Proof. exact resurvey_reproduces. Qed.
Print Assumptions C101_reproduces.
Theorem C101_arcs : forall h rows deg sx sn unit s i j,
  Survey h rows deg sx sn unit = Some s -> strictly_increasing (map st_md (sv_rows s)) ->
  neighbours (section_starts s 0 0 true) i j ->
  (forall k d d', (i < k)%nat -> (S k <= j)%nat -> nth_error (cv_dls (survey_curves s)) k = Some d -> nth_error (cv_dls (survey_curves s)) (S k) = Some d' ->
     alike_rounded (around 2) d d' -> d = d') ->
  (forall a b d, nth_error (sv_rows s) i = Some a -> nth_error (sv_rows s) j = Some b ->
     nth_error (cv_dls (survey_curves s)) j = Some (Fin d) ->
     d * ((st_md b - st_md a) / rate_length unit) < 180) ->
  straight_between (sv_rows s) i j \/ exists n c, circular_between (sv_rows s) i j n c.
Proof. exact sections_are_arcs. Qed.
Print Assumptions C101_arcs.
Theorem C101_merged_arcs_refuted : exists s r,
  Survey (grid_header "meters") bend_rows false vzero vzero "meters" = Some s /\
  resurvey s 0 false = Some r /\
  vz (last (sv_nev s) vzero) < vz (last (sv_nev r) vzero).
Proof. exact merged_arcs_refuted. Qed.
Print Assumptions C101_merged_arcs_refuted.
(** a hold and a build surveyed at three stations: one control point where the
    build starts; every hypothesis above holds *)
Example C101_case : exists s,
  Survey (grid_header "meters") build_rows false vzero vzero "meters" = Some s /\
  section_starts s 0 0 true = [0; 1; 3]%nat /\
  strictly_increasing (map st_md (sv_rows s)) /\
  (forall i j, neighbours (section_starts s 0 0 true) i j ->
     straight_between (sv_rows s) i j \/ exists n c, circular_between (sv_rows s) i j n c) /\
  exists r, resurvey s 0 true = Some r /\ resurvey_misfit s 0 true 1 = Some 1.
Proof.
  destruct build_case as (s & H & R & D & ST & L). exists s.
  pose proof (build_dls s H ltac:(rewrite R; reflexivity) D) as DL.
  destruct (build_hypotheses s H R DL ST) as [INC HY].
  split; auto. split; auto. split; auto.
  assert (AR : forall i j, neighbours (section_starts s 0 0 true) i j ->
     straight_between (sv_rows s) i j \/ exists n c, circular_between (sv_rows s) i j n c).
  { intros i j N. destruct (HY i j N) as [H1 H2]. exact (sections_are_arcs _ _ _ _ _ _ _ i j H INC N H1 H2). }
  split; auto.
  destruct (proj2 (resurvey_accepts _ _ _ _ _ _ _ 0 true H) eq_refl) as [r HR]. exists r. split; auto.
  destruct (resurvey_reproduces _ _ _ _ _ _ _ 0 true r H eq_refl HR AR) as (_ & _ & M).
  rewrite (M 1). f_equal. apply Rabs_pos_eq. lra.
Qed.
(** its build section is circular, with attitudes in the ranges of C101_toolface *)
Example C101_toolface_case : exists s n c,
  Survey (grid_header "meters") build_rows false vzero vzero "meters" = Some s /\
  nth_error (section_starts s 0 0 true) 1 = Some 1%nat /\ nth_error (section_starts s 0 0 true) 2 = Some 3%nat /\
  circular_between (sv_rows s) 1 3 n c.
Proof.
  destruct build_case as (s & H & R & D & ST & L).
  pose proof (build_dls s H ltac:(rewrite R; reflexivity) D) as DL.
  destruct (build_hypotheses s H R DL ST) as [INC HY].
  assert (N : neighbours (section_starts s 0 0 true) 1%nat 3%nat) by (rewrite ST; exists [0%nat], []; reflexivity).
  destruct (HY _ _ N) as [H1 H2].
  destruct (sections_are_arcs _ _ _ _ _ _ _ _ _ H INC N H1 H2) as [SB|(n & c & CB)].
  - exfalso. specialize (SB 2%nat (mkSt 60 (PI / 6) 0) (mkSt 90 (PI / 3) 0) ltac:(lia) ltac:(rewrite R; auto) ltac:(rewrite R; auto)).
    unfold heading, direction_nev in SB. cbn [st_inc st_azi] in SB. injection SB as _ _ SB.
    rewrite cos_PI3, cos_PI6 in SB. assert (sqrt 3 * sqrt 3 = 3) by (apply sqrt_sqrt; lra). nra.
  - exists s, n, c. rewrite ST. auto.
Qed.

(** * C102: tortuosity *)
Theorem C102_sections : forall s rtol dt k n1 n2 d1 d2, (S (S k) < length (sv_rows s))%nat ->
  nth_error (cv_normals (survey_curves s)) k = Some n1 -> nth_error (cv_normals (survey_curves s)) (S k) = Some n2 ->
  nth_error (cv_dls (survey_curves s)) (S k) = Some d1 -> nth_error (cv_dls (survey_curves s)) (S (S k)) = Some d2 ->
  (In (S k) (ti_starts s rtol dt) <->
   ~ (same_plane rtol rtol n1 n2 /\ (forall t, dt = Some t -> near_ext t rtol d1 d2))).
Proof. exact ti_starts_iff. Qed.
Print Assumptions C102_sections.
Theorem C102_index : forall h rows deg sx sn unit s rtol dt kwargs coeff kappa,
  Survey h rows deg sx sn unit = Some s -> strictly_increasing (map st_md (sv_rows s)) ->
  kwarg kwargs "coeff" (3048 / 10000) = coeff -> kwarg kwargs "kapa" (10 ^ 7) = kappa -> 0 < coeff ->
  (forall k i, (k < length (sv_rows s))%nat -> last_before (ti_starts s rtol dt) k i -> chord s i k <> 0) ->
  exists l, tortuosity_index s rtol dt kwargs = Some l /\ length l = length (sv_rows s) /\ nth_error l 0 = Some (Fin 0) /\
    forall k, (1 <= k < length (sv_rows s))%nat ->
      let n := INR (number_before (ti_starts s rtol dt) k) in
      exists v, summed (ti_starts s rtol dt) (fun i j => along s i j / chord s i j - 1) k v /\
        nth_error l k = Some (Fin (n / (n + 1) * (kappa * coeff / along s 0 k) * v)).
Proof. exact ti_values. Qed.
Print Assumptions C102_index.
Theorem C102_modified_index : forall h rows deg sx sn unit s rtol dt kwargs coeff kappa,
  Survey h rows deg sx sn unit = Some s -> strictly_increasing (map st_md (sv_rows s)) ->
  kwarg kwargs "coeff" 1 = coeff -> kwarg kwargs "kapa" 1 = kappa -> 0 < coeff ->
  (forall k i, (k < length (sv_rows s))%nat -> last_before (ti_starts s rtol dt) k i -> chord s i k <> 0) ->
  exists l, modified_tortuosity_index s rtol dt kwargs = Some l /\ length l = length (sv_rows s) /\ nth_error l 0 = Some (Fin 0) /\
    forall k, (1 <= k < length (sv_rows s))%nat ->
      let n := INR (number_before (ti_starts s rtol dt) k) in
      exists v, summed (ti_starts s rtol dt) (fun i j => / chord s i j - / along s i j) k v /\
        nth_error l k = Some (Fin (n / (n + 1) * (kappa * along s 0 k) * v)).
Proof. exact mti_values. Qed.
Print Assumptions C102_modified_index.
Theorem C102_sign : forall h rows deg sx sn unit s rtol dt kwargs coeff kappa,
  Survey h rows deg sx sn unit = Some s -> strictly_increasing (map st_md (sv_rows s)) ->
  (forall m a b t, nth_error (sv_rows s) m = Some a -> nth_error (sv_rows s) (S m) = Some b ->
     angle_between (heading a) (heading b) t -> t < PI) ->
  kwarg kwargs "coeff" (3048 / 10000) = coeff -> kwarg kwargs "kapa" (10 ^ 7) = kappa -> 0 < coeff -> 0 < kappa ->
  (forall k i, (k < length (sv_rows s))%nat -> last_before (ti_starts s rtol dt) k i -> chord s i k <> 0) ->
  0 <= h_gsf h <= 1 ->
  exists l, tortuosity_index s rtol dt kwargs = Some l /\
    forall k, (k < length (sv_rows s))%nat -> exists y, nth_error l k = Some (Fin y) /\ 0 <= y /\
      (h_gsf h = 1 -> (y = 0 <-> forall m a b, (m < k)%nat -> nth_error (sv_rows s) m = Some a -> nth_error (sv_rows s) (S m) = Some b -> heading b = heading a)).
Proof. exact ti_sign. Qed.
Print Assumptions C102_sign.
Theorem C102_modified_sign : forall h rows deg sx sn unit s rtol dt kwargs coeff kappa,
  Survey h rows deg sx sn unit = Some s -> strictly_increasing (map st_md (sv_rows s)) ->
  (forall m a b t, nth_error (sv_rows s) m = Some a -> nth_error (sv_rows s) (S m) = Some b ->
     angle_between (heading a) (heading b) t -> t < PI) ->
  kwarg kwargs "coeff" 1 = coeff -> kwarg kwargs "kapa" 1 = kappa -> 0 < coeff -> 0 < kappa ->
  (forall k i, (k < length (sv_rows s))%nat -> last_before (ti_starts s rtol dt) k i -> chord s i k <> 0) ->
  0 <= h_gsf h <= 1 ->
  exists l, modified_tortuosity_index s rtol dt kwargs = Some l /\
    forall k, (k < length (sv_rows s))%nat -> exists y, nth_error l k = Some (Fin y) /\ 0 <= y /\
      (h_gsf h = 1 -> (y = 0 <-> forall m a b, (m < k)%nat -> nth_error (sv_rows s) m = Some a -> nth_error (sv_rows s) (S m) = Some b -> heading b = heading a)).
Proof. exact mti_sign. Qed.
Print Assumptions C102_modified_sign.
Theorem C102_stretched_grid_refuted : exists s l y,
  Survey stretched_header level_rows false vzero vzero "meters" = Some s /\
  tortuosity_index s (1 / 10) None [] = Some l /\ nth_error l 1 = Some (Fin y) /\ y < 0.
Proof. exact negative_ti_refuted. Qed.
Print Assumptions C102_stretched_grid_refuted.
Theorem C102_coefficient : forall h rows deg sx sn unit s rtol dt kw1 kw2 l1 l2,
  Survey h rows deg sx sn unit = Some s -> strictly_increasing (map st_md (sv_rows s)) ->
  0 < kwarg kw1 "coeff" (3048 / 10000) -> 0 < kwarg kw2 "coeff" (3048 / 10000) -> kwarg kw1 "kapa" (10 ^ 7) = kwarg kw2 "kapa" (10 ^ 7) ->
  (forall k i, (k < length (sv_rows s))%nat -> last_before (ti_starts s rtol dt) k i -> chord s i k <> 0) ->
  tortuosity_index s rtol dt kw1 = Some l1 -> tortuosity_index s rtol dt kw2 = Some l2 ->
  forall k, (k < length (sv_rows s))%nat -> exists x y, nth_error l1 k = Some (Fin x) /\ nth_error l2 k = Some (Fin y) /\
    x * kwarg kw2 "coeff" (3048 / 10000) = y * kwarg kw1 "coeff" (3048 / 10000).
Proof. exact ti_coeff. Qed.
Print Assumptions C102_coefficient.
Theorem C102_modified_coefficient : forall h rows deg sx sn unit s rtol dt kw1 kw2,
  Survey h rows deg sx sn unit = Some s -> strictly_increasing (map st_md (sv_rows s)) ->
  0 < kwarg kw1 "coeff" 1 -> 0 < kwarg kw2 "coeff" 1 -> kwarg kw1 "kapa" 1 = kwarg kw2 "kapa" 1 ->
  (forall k i, (k < length (sv_rows s))%nat -> last_before (ti_starts s rtol dt) k i -> chord s i k <> 0) ->
  modified_tortuosity_index s rtol dt kw1 = modified_tortuosity_index s rtol dt kw2.
Proof. exact mti_coeff. Qed.
Print Assumptions C102_modified_coefficient.
Theorem C102_keywords : forall s rtol dt name v kw, name <> "coeff"%string -> name <> "kapa"%string ->
  tortuosity_index s rtol dt ((name, v) :: kw) = tortuosity_index s rtol dt kw /\
  modified_tortuosity_index s rtol dt ((name, v) :: kw) = modified_tortuosity_index s rtol dt kw.
Proof. exact ti_kappa_ignored. Qed.
Print Assumptions C102_keywords.
Theorem C102_method_tolerance : forall s rtol dt kw, survey_tortuosity_index s rtol dt kw = tortuosity_index s rtol None kw.
Proof. exact ti_method_dls_tol. Qed.
Print Assumptions C102_method_tolerance.
Example C102_case : exists s,
  Survey (grid_header "meters") bend_rows false vzero vzero "meters" = Some s /\
  strictly_increasing (map st_md (sv_rows s)) /\
  (forall m a b t, nth_error (sv_rows s) m = Some a -> nth_error (sv_rows s) (S m) = Some b ->
     angle_between (heading a) (heading b) t -> t < PI) /\
  ti_starts s (1 / 10) None = [0]%nat /\
  (forall k i, (k < length (sv_rows s))%nat -> last_before (ti_starts s (1 / 10) None) k i -> chord s i k <> 0) /\
  exists l y, tortuosity_index s (1 / 10) None [] = Some l /\ nth_error l 2 = Some (Fin y) /\ 0 < y.
Proof.
  destruct bend_tortuosity_case as (s & H & INC & TU & ST & CH). exists s.
  split; auto. split; auto. split; auto. split; auto. split; auto.
  assert (R : sv_rows s = [mkSt 0 (PI / 6) 0; mkSt 30 (PI / 3) 0; mkSt 120 (PI / 2) 0]).
  { destruct (bend_case "meters") as (s' & p & q & z & H' & R & _); auto. rewrite H in H'. injection H' as <-. auto. }
  destruct (ti_sign _ _ _ _ _ _ _ (1 / 10) None [] (3048 / 10000) (10 ^ 7) H INC TU eq_refl eq_refl ltac:(lra) ltac:(lra) CH ltac:(cbn; lra)) as (l & T & V).
  destruct (V 2%nat ltac:(rewrite R; cbn; lia)) as (y & E & Y & Z). exists l, y. split; auto. split; auto.
  destruct (Req_dec y 0) as [Y0|]; [exfalso|lra].
  pose proof (proj1 (Z eq_refl) Y0 0%nat _ _ ltac:(lia) ltac:(rewrite R; reflexivity) ltac:(rewrite R; reflexivity)) as Q.
  unfold heading, direction_nev in Q. cbn [st_inc st_azi] in Q. injection Q as _ _ Q.
  rewrite cos_PI3, cos_PI6 in Q. assert (sqrt 3 * sqrt 3 = 3) by (apply sqrt_sqrt; lra). nra.
Qed.

(** * C103: directional difficulty *)
Theorem C103_value : forall h rows deg sx sn unit s, Survey h rows deg sx sn unit = Some s ->
  length (directional_difficulty_index s) = length (sv_rows s) /\
  forall k a p v, nth_error (sv_rows s) k = Some a -> nth_error (sv_nev s) k = Some p ->
    nth_error (directional_difficulty_index s) k = Some v ->
    let ft := 3048 / 10000 in
    let turned := fold_right Rplus 0 (map degrees (firstn (S k) (sv_dogleg s))) in
    let x := (st_md a / ft) * (sqrt (vx p ^ 2 + vy p ^ 2) / ft) * turned / (vz p / ft) in
    (vz p <> 0 -> 0 < x -> Rpower 10 v = x) /\ ((vz p <> 0 -> x <= 0) -> v = 0).
Proof. exact ddi_values. Qed.
Print Assumptions C103_value.
Theorem C103_feet : forall h rows deg sx sn s, Survey h rows deg sx sn "feet" = Some s ->
  forall k a p v, nth_error (sv_rows s) k = Some a -> nth_error (sv_nev s) k = Some p ->
    nth_error (directional_difficulty_index s) k = Some v ->
    let turned := fold_right Rplus 0 (map degrees (firstn (S k) (sv_dogleg s))) in
    let x := st_md a * sqrt (vx p ^ 2 + vy p ^ 2) * turned / vz p in
    vz p <> 0 -> 0 < x -> exists w, Rpower 10 w = x /\ Rpower 10 (v - w) = 10000 / 3048.
Proof. exact ddi_feet. Qed.
Print Assumptions C103_feet.
(** a foot survey whose second station has depth, departure and a bend above it *)
Example C103_case : exists s p, Survey (grid_header "feet") bend_rows false vzero vzero "feet" = Some s /\
  nth_error (sv_rows s) 1 = Some (mkSt 30 (PI / 3) 0) /\ nth_error (sv_nev s) 1 = Some p /\ vz p <> 0 /\
  0 < 30 * sqrt (vx p ^ 2 + vy p ^ 2) * fold_right Rplus 0 (map degrees (firstn 2 (sv_dogleg s))) / vz p.
Proof. exact bend_difficulty_case. Qed.
