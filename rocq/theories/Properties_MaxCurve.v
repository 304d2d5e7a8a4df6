(** Property theorems C104: the maximum curvature method. *)
Require Import Reals ZArith Bool String List Lra Lia Psatz.
Require Import Verif.Base Verif.NumPy Verif.Spec Verif.Spec_Lists Verif.Spec_Rates Verif.M_Utils Verif.M_Survey Verif.M_Rates Verif.M_MaxCurve
  Verif.Spec_Sections Verif.Spec_MaxCurve Verif.Spec_RatesCases.
Require Import Verif.P_Survey Verif.P_Rates Verif.P_Rates6 Verif.P_MaxCurve.
Import ListNotations.
Local Open Scope R_scope.

(** * C104: maximum curvature *)
Theorem C104_success : forall h rows deg sx sn unit s noise, Survey h rows deg sx sn unit = Some s ->
  (unit <> "meters"%string -> fst (maximum_curvature s noise) = MaxAssertion) /\
  (unit = "meters"%string ->
     ((exists r, fst (maximum_curvature s noise) = MaxOk r) <->
      forall k d, nth_error (cv_dls (survey_curves s)) (S k) = Some d -> exists x, d = Fin x /\ x + noise <> 0) /\
     ((exists r, fst (maximum_curvature s noise) = MaxOk r) \/ fst (maximum_curvature s noise) = MaxNan)).
Proof. exact max_success. Qed.
Print Assumptions C104_success.
Theorem C104_header : forall s noise, let h := sv_header s in let h' := snd (maximum_curvature s noise) in
  h_ref h' = RefGrid /\ h_convergence h' = h_convergence h /\ h_declination h' = h_declination h /\
  h_gsf h' = h_gsf h /\ h_vs_azimuth h' = h_vs_azimuth h /\ h_unit h' = h_unit h.
Proof. exact max_header. Qed.
Print Assumptions C104_header.
Theorem C104_originals : forall h rows deg sx sn unit s noise r, Survey h rows deg sx sn unit = Some s -> fst (maximum_curvature s noise) = MaxOk r ->
  length (sv_rows r) = (2 * length (sv_rows s) - 1)%nat /\
  length (sv_nev r) = (2 * length (sv_rows s) - 1)%nat /\
  h_ref (sv_header r) = RefGrid /\
  nth_error (sv_nev r) 0 = nth_error (sv_nev s) 0 /\ nth_error (sv_xyz r) 0 = nth_error (sv_xyz s) 0 /\
  forall k a f, nth_error (sv_rows s) k = Some a -> nth_error (sv_interpolated s) k = Some f ->
    nth_error (sv_rows r) (2 * k) = Some a /\ nth_error (sv_interpolated r) (2 * k) = Some f.
Proof. exact max_originals. Qed.
Print Assumptions C104_originals.
Theorem C104_added : forall h rows deg sx sn unit s noise r k a b d tf n, Survey h rows deg sx sn unit = Some s -> fst (maximum_curvature s noise) = MaxOk r ->
  nth_error (sv_rows s) k = Some a -> nth_error (sv_rows s) (S k) = Some b ->
  nth_error (cv_dls (survey_curves s)) (S k) = Some (Fin d) -> nth_error (cv_toolface (survey_curves s)) k = Some tf -> arc_side a tf n ->
  let t := radians (d + noise) * (st_md b - st_md a) / 60 in
  exists m, nth_error (sv_rows r) (2 * k + 1) = Some m /\ nth_error (sv_interpolated r) (2 * k + 1) = Some true /\
    heading m = arc_tangent (heading a) n t /\
    (t <= PI -> st_md m = (st_md a + st_md b) / 2) /\
    (PI < t -> st_md m = st_md a + 2 * (st_md b - st_md a) * t / PI).
Proof. exact max_added. Qed.
Print Assumptions C104_added.
Theorem C104_first_half : forall h rows deg sx sn unit s noise r k a b d tf n p q m,
  Survey h rows deg sx sn unit = Some s -> fst (maximum_curvature s noise) = MaxOk r ->
  nth_error (sv_rows s) k = Some a -> nth_error (sv_rows s) (S k) = Some b ->
  nth_error (cv_dls (survey_curves s)) (S k) = Some (Fin d) -> nth_error (cv_toolface (survey_curves s)) k = Some tf -> arc_side a tf n ->
  nth_error (sv_rows r) (2 * k + 1) = Some m ->
  nth_error (sv_nev r) (2 * k) = Some p -> nth_error (sv_nev r) (2 * k + 1) = Some q ->
  let t := radians (d + noise) * (st_md b - st_md a) / 60 in
  st_md a < st_md b -> 0 < t < PI ->
  section_arc p (heading a) q (heading m) ((st_md b - st_md a) / 2) t n /\
  nth_error (cv_dls (survey_curves r)) (2 * k + 1) = Some (Fin (d + noise)).
Proof. exact max_first_half. Qed.
Print Assumptions C104_first_half.
Theorem C104_no_noise : forall h rows deg sx sn unit s r,
  Survey h rows deg sx sn unit = Some s -> fst (maximum_curvature s 0) = MaxOk r ->
  strictly_increasing (map st_md (sv_rows s)) ->
  (forall k a b t, nth_error (sv_rows s) k = Some a -> nth_error (sv_rows s) (S k) = Some b ->
     angle_between (heading a) (heading b) t -> 0 < t < PI) ->
  (forall k a, nth_error (sv_rows s) k = Some a -> 0 < st_inc a < PI \/ st_inc a = 0 /\ st_azi a = 0) ->
  forall k p, nth_error (sv_nev s) k = Some p -> nth_error (sv_nev r) (2 * k) = Some p.
Proof. exact max_same. Qed.
Print Assumptions C104_no_noise.
Theorem C104_depth_order_refuted : exists s r a b m,
  Survey (grid_header "meters") bend_rows false vzero vzero "meters" = Some s /\
  fst (maximum_curvature s 1000) = MaxOk r /\
  nth_error (sv_rows r) 0 = Some a /\ nth_error (sv_rows r) 1 = Some m /\ nth_error (sv_rows r) 2 = Some b /\
  st_md a < st_md b < st_md m.
Proof. exact max_depth_refuted. Qed.
Print Assumptions C104_depth_order_refuted.
Theorem C104_vertical_refuted : exists s r m,
  Survey (grid_header "meters") east_rows false vzero vzero "meters" = Some s /\
  sv_rows s = [mkSt 0 0 (PI / 2); mkSt 30 (PI / 6) (PI / 2)] /\
  (forall a, In a (sv_rows s) -> vx (heading a) = 0 /\ 0 <= vy (heading a)) /\
  fst (maximum_curvature s 0) = MaxOk r /\ nth_error (sv_rows r) 1 = Some m /\
  0 < vx (heading m) /\ vy (heading m) = 0.
Proof. exact max_vertical_refuted. Qed.
Print Assumptions C104_vertical_refuted.
(** two bends with a noise of 1 degree per 30 m: the hypotheses hold in the first
    section *)
Example C104_case : exists s r tf,
  Survey (grid_header "meters") bend_rows false vzero vzero "meters" = Some s /\
  fst (maximum_curvature s 1) = MaxOk r /\
  nth_error (cv_dls (survey_curves s)) 1 = Some (Fin 30) /\ nth_error (cv_toolface (survey_curves s)) 0 = Some tf /\
  (forall n, n = toolface_dir (PI / 6) 0 tf -> arc_side (mkSt 0 (PI / 6) 0) tf n) /\
  0 < radians (30 + 1) * (30 - 0) / 60 < PI.
Proof.
  destruct (max_bend_case 1) as (s & r & H & R & D & HR); [lra|]. pose proof PI_RGT_0 as HP.
  exists s, r. eexists. split; auto. split; auto. split; [rewrite D; auto|]. split.
  { cbn [survey_curves cv_toolface]. apply toolfaces_nth with (b := mkSt 30 (PI / 3) 0); rewrite R; reflexivity. }
  split; [intros n ->; left; cbn [st_inc st_azi]; split; auto; lra|]. unfold radians. lra.
Qed.
(** and without noise the hypotheses of C104_no_noise *)
Example C104_no_noise_case : exists s r,
  Survey (grid_header "meters") bend_rows false vzero vzero "meters" = Some s /\
  fst (maximum_curvature s 0) = MaxOk r /\
  strictly_increasing (map st_md (sv_rows s)) /\
  (forall k a b t, nth_error (sv_rows s) k = Some a -> nth_error (sv_rows s) (S k) = Some b ->
     angle_between (heading a) (heading b) t -> 0 < t < PI) /\
  (forall k a, nth_error (sv_rows s) k = Some a -> 0 < st_inc a < PI \/ st_inc a = 0 /\ st_azi a = 0).
Proof.
  destruct (max_bend_case 0) as (s & r & H & R & D & HR); [lra|]. pose proof PI_RGT_0 as HP.
  exists s, r. split; auto. split; auto. split; [rewrite R; cbn; lra|]. split.
  - rewrite R. intros [|[|k]] a b t A B AN; cbn in A, B; [| |destruct k; discriminate]; injection A as <-; injection B as <-.
    + rewrite <- (pair_angle_is (mkSt 0 (PI / 6) 0) (mkSt 30 (PI / 3) 0) t) by exact AN.
      rewrite (pair_angle_is (mkSt 0 (PI / 6) 0) (mkSt 30 (PI / 3) 0) (PI / 6)); [lra|].
      cbn [st_inc st_azi]. replace (PI / 3) with (PI / 6 + PI / 6) by field. apply planar_angle. lra.
    + rewrite <- (pair_angle_is (mkSt 30 (PI / 3) 0) (mkSt 120 (PI / 2) 0) t) by exact AN.
      rewrite (pair_angle_is (mkSt 30 (PI / 3) 0) (mkSt 120 (PI / 2) 0) (PI / 6)); [lra|].
      cbn [st_inc st_azi]. replace (PI / 2) with (PI / 3 + PI / 6) by field. apply planar_angle. lra.
  - rewrite R. intros [|[|[|k]]] a A; cbn in A; [| | |destruct k; discriminate]; injection A as <-; cbn [st_inc]; left; lra.
Qed.
