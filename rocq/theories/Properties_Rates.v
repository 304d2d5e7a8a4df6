(** Property theorems C92-C97: toolfaces, build and turn rates, projection to
    the bit, centres of curvature and the survey header. *)
Require Import Reals ZArith Bool String List Lra Lia Psatz.
Require Import Verif.Base Verif.NumPy Verif.Spec Verif.Spec_Lists Verif.Spec_Rates Verif.M_Utils Verif.M_Survey Verif.M_Rates
  Verif.Spec_RatesCases Verif.M_Header Verif.Spec_Header.
Require Import Verif.P_Survey Verif.P_Survey3 Verif.P_Survey5 Verif.P_Rates Verif.P_Rates2 Verif.P_Rates3 Verif.P_Rates4 Verif.P_Rates5 Verif.P_Rates6 Verif.P_Header.
Import ListNotations.
Local Open Scope R_scope.

(** * C92: toolface *)
Theorem C92_toolface_start : forall h rows deg sx sn unit s k a b p q t tf,
  Survey h rows deg sx sn unit = Some s ->
  nth_error (sv_rows s) k = Some a -> nth_error (sv_rows s) (S k) = Some b ->
  nth_error (sv_nev s) k = Some p -> nth_error (sv_nev s) (S k) = Some q ->
  let u := direction_nev (st_inc a) (st_azi a) in
  let v := direction_nev (st_inc b) (st_azi b) in
  angle_between u v t -> 0 < t < PI ->
  nth_error (cv_toolface (survey_curves s)) k = Some tf ->
  - PI < tf <= PI /\
  section_arc p u q v (st_md b - st_md a) t (toolface_dir (st_inc a) (st_azi a) tf).
Proof. exact toolface_first. Qed.
Print Assumptions C92_toolface_start.
Theorem C92_toolface_last : forall h rows deg sx sn unit s k a b p q t tf n,
  Survey h rows deg sx sn unit = Some s ->
  nth_error (sv_rows s) k = Some a -> nth_error (sv_rows s) (S k) = Some b ->
  length (sv_rows s) = S (S k) ->
  nth_error (sv_nev s) k = Some p -> nth_error (sv_nev s) (S k) = Some q ->
  let u := direction_nev (st_inc a) (st_azi a) in
  let v := direction_nev (st_inc b) (st_azi b) in
  section_arc p u q v (st_md b - st_md a) t n ->
  nth_error (cv_toolface (survey_curves s)) (S k) = Some tf ->
  0 <= tf < 2 * PI /\ toolface_dir (st_inc b) (st_azi b) tf = arc_normal u n t.
Proof. exact toolface_final. Qed.
Print Assumptions C92_toolface_last.
Theorem C92_toolface_straight : forall h rows deg sx sn unit s k a b,
  Survey h rows deg sx sn unit = Some s ->
  nth_error (sv_rows s) k = Some a -> nth_error (sv_rows s) (S k) = Some b ->
  direction_nev (st_inc a) (st_azi a) = direction_nev (st_inc b) (st_azi b) ->
  nth_error (cv_toolface (survey_curves s)) k = Some 0 /\
  (length (sv_rows s) = S (S k) -> nth_error (cv_toolface (survey_curves s)) (S k) = Some 0).
Proof. exact toolface_straight. Qed.
Print Assumptions C92_toolface_straight.
(** the hypotheses hold at the first section of a build, and its arc bends to the high side *)
Example C92_case : exists s p q r,
  Survey (grid_header "meters") bend_rows false vzero vzero "meters" = Some s /\ sv_nev s = [p; q; r] /\
  length (sv_rows s) = 3%nat /\
  angle_between (direction_nev (PI / 6) 0) (direction_nev (PI / 3) 0) (PI / 6) /\
  section_arc q (direction_nev (PI / 3) 0) r (direction_nev (PI / 2) 0) 90 (PI / 6) (high_side (PI / 3) 0).
Proof.
  destruct (bend_case "meters") as (s & p & q & r & H & R & N & S1 & S2 & A); auto.
  exists s, p, q, r. rewrite R. auto.
Qed.

(** * C93: build and turn rates at the ends *)
Theorem C93_last : forall h rows deg sx sn unit s k a b p q t n incf azif di da,
  Survey h rows deg sx sn unit = Some s ->
  nth_error (sv_rows s) k = Some a -> nth_error (sv_rows s) (S k) = Some b ->
  length (sv_rows s) = S (S k) ->
  nth_error (sv_nev s) k = Some p -> nth_error (sv_nev s) (S k) = Some q ->
  let u := direction_nev (st_inc a) (st_azi a) in
  let v := direction_nev (st_inc b) (st_azi b) in
  let len := st_md b - st_md a in
  section_arc p u q v len t n -> 0 < len -> sin (st_inc b) <> 0 ->
  attitude_along (fun s => arc_tangent u n (t + s * (t / len))) incf azif di da ->
  let per := if String.eqb unit "meters" then 30 else 100 in
  nth_error (cv_build_rate (survey_curves s)) (S k) = Some (Fin (per * Rabs (degrees di))) /\
  nth_error (cv_turn_rate (survey_curves s)) (S k) = Some (Fin (per * Rabs (degrees da))).
Proof. exact last_rates. Qed.
Print Assumptions C93_last.
Theorem C93_last_exists : forall p u q i a len t n,
  is_unit u -> section_arc p u q (direction_nev i a) len t n -> 0 < i < PI ->
  exists incf azif di da,
    attitude_along (fun s => arc_tangent u n (t + s * (t / len))) incf azif di da /\
    incf 0 = i /\ azif 0 = a.
Proof. exact last_rates_exist. Qed.
Print Assumptions C93_last_exists.
Theorem C93_first : forall h rows deg sx sn unit s a,
  Survey h rows deg sx sn unit = Some s -> nth_error (sv_rows s) 0 = Some a ->
  nth_error (cv_build_rate (survey_curves s)) 0 = Some (Fin 0) /\
  (sin (st_inc a) <> 0 -> nth_error (cv_turn_rate (survey_curves s)) 0 = Some (Fin 0)) /\
  (sin (st_inc a) = 0 -> nth_error (cv_turn_rate (survey_curves s)) 0 = Some NaN).
Proof. exact first_rates. Qed.
Print Assumptions C93_first.
Theorem C93_every : forall s k a d tf,
  nth_error (sv_rows s) k = Some a ->
  nth_error (cv_dls (survey_curves s)) k = Some (Fin d) ->
  nth_error (cv_toolface (survey_curves s)) k = Some tf ->
  nth_error (cv_build_rate (survey_curves s)) k = Some (Fin (Rabs (d * cos tf))) /\
  (sin (st_inc a) <> 0 ->
   nth_error (cv_turn_rate (survey_curves s)) k = Some (Fin (Rabs (d * sin tf / sin (st_inc a))))) /\
  (sin (st_inc a) = 0 -> d * sin tf = 0 -> nth_error (cv_turn_rate (survey_curves s)) k = Some NaN) /\
  (sin (st_inc a) = 0 -> d * sin tf <> 0 -> nth_error (cv_turn_rate (survey_curves s)) k = Some PInf).
Proof. exact rates_everywhere. Qed.
Print Assumptions C93_every.
Theorem C93_dls_first : forall s, nth_error (cv_dls (survey_curves s)) 0 = Some (Fin 0).
Proof. exact dls_first. Qed.
Print Assumptions C93_dls_first.
Theorem C93_dls : forall s k a b t,
  nth_error (sv_rows s) k = Some a -> nth_error (sv_rows s) (S k) = Some b ->
  angle_between (direction_nev (st_inc a) (st_azi a)) (direction_nev (st_inc b) (st_azi b)) t ->
  st_md a <> st_md b ->
  nth_error (cv_dls (survey_curves s)) (S k)
  = Some (Fin (rate_length (h_unit (sv_header s)) * (t * (180 / PI)) / (st_md b - st_md a))).
Proof. exact dls_next. Qed.
Print Assumptions C93_dls.
Example C93_case : exists s p q r,
  Survey (grid_header "feet") bend_rows false vzero vzero "feet" = Some s /\ sv_nev s = [p; q; r] /\
  length (sv_rows s) = 3%nat /\ 0 < 90 /\ sin (PI / 2) <> 0 /\ 0 < PI / 2 < PI /\
  section_arc q (direction_nev (PI / 3) 0) r (direction_nev (PI / 2) 0) 90 (PI / 6) (high_side (PI / 3) 0).
Proof.
  destruct (bend_case "feet") as (s & p & q & r & H & R & N & S1 & S2 & A); auto.
  exists s, p, q, r. rewrite R, sin_PI2. pose proof PI_RGT_0.
  split; auto. split; auto. split; auto. split; [lra|]. split; [lra|]. split; [lra|]. auto.
Qed.

(** * C94: build and turn rates inside the survey *)
Theorem C94_interior : forall h rows deg sx sn unit s k a b p q t n d incf azif di da,
  Survey h rows deg sx sn unit = Some s ->
  nth_error (sv_rows s) k = Some a -> nth_error (sv_rows s) (S k) = Some b ->
  nth_error (sv_nev s) k = Some p -> nth_error (sv_nev s) (S k) = Some q ->
  let u := direction_nev (st_inc a) (st_azi a) in
  let v := direction_nev (st_inc b) (st_azi b) in
  let r := (st_md b - st_md a) / t in
  section_arc p u q v (st_md b - st_md a) t n -> st_md a < st_md b -> sin (st_inc a) <> 0 ->
  attitude_along (fun s => arc_tangent u n (s / r)) incf azif di da ->
  nth_error (cv_dls (survey_curves s)) k = Some (Fin d) ->
  nth_error (cv_build_rate (survey_curves s)) k = Some (Fin (Rabs d * (r * Rabs di))) /\
  nth_error (cv_turn_rate (survey_curves s)) k = Some (Fin (Rabs d * (r * Rabs da))).
Proof. exact interior_rates. Qed.
Print Assumptions C94_interior.
Theorem C94_interior_iff : forall h rows deg sx sn unit s k a b c p q t n d t' incf azif di da,
  Survey h rows deg sx sn unit = Some s ->
  nth_error (sv_rows s) k = Some c -> nth_error (sv_rows s) (S k) = Some a -> nth_error (sv_rows s) (S (S k)) = Some b ->
  nth_error (sv_nev s) (S k) = Some p -> nth_error (sv_nev s) (S (S k)) = Some q ->
  let u := direction_nev (st_inc a) (st_azi a) in
  let v := direction_nev (st_inc b) (st_azi b) in
  let r := (st_md b - st_md a) / t in
  section_arc p u q v (st_md b - st_md a) t n -> st_md c < st_md a < st_md b -> sin (st_inc a) <> 0 ->
  angle_between (direction_nev (st_inc c) (st_azi c)) u t' ->
  attitude_along (fun s => arc_tangent u n (s / r)) incf azif di da ->
  di <> 0 ->
  let per := if String.eqb unit "meters" then 30 else 100 in
  nth_error (cv_build_rate (survey_curves s)) (S k) = Some (Fin d) ->
  (d = per * Rabs (degrees di) <-> t' / (st_md a - st_md c) = t / (st_md b - st_md a)).
Proof. exact interior_rates_iff. Qed.
Print Assumptions C94_interior_iff.
Theorem C94_interior_refuted : exists s b br,
  Survey (grid_header "meters") bend_rows false vzero vzero "meters" = Some s /\
  nth_error (sv_rows s) 1 = Some b /\ nth_error (cv_build_rate (survey_curves s)) 1 = Some (Fin br) /\
  exists incf azif di da,
    attitude_along (fun x => arc_tangent (direction_nev (PI / 3) 0) (high_side (PI / 3) 0) (x / (90 / (PI / 6)))) incf azif di da /\
    br = 3 * (30 * Rabs (degrees di)) /\ 0 < br.
Proof. exact interior_refuted. Qed.
Print Assumptions C94_interior_refuted.
Example C94_case : exists s p q r incf azif di da,
  Survey (grid_header "meters") bend_rows false vzero vzero "meters" = Some s /\ sv_nev s = [p; q; r] /\
  section_arc q (direction_nev (PI / 3) 0) r (direction_nev (PI / 2) 0) 90 (PI / 6) (high_side (PI / 3) 0) /\
  attitude_along (fun s => arc_tangent (direction_nev (PI / 3) 0) (high_side (PI / 3) 0) (s / (90 / (PI / 6)))) incf azif di da /\
  di <> 0.
Proof.
  destruct (bend_case "meters") as (s & p & q & r & H & R & N & S1 & S2 & A); auto.
  pose proof PI_RGT_0.
  assert (E : 90 / (PI / 6) <> 0). { replace (90 / (PI / 6)) with (540 * / PI) by (field; lra). apply Rmult_integral_contrapositive_currified; [lra|apply Rinv_neq_0_compat; lra]. }
  exists s, p, q, r. eexists _, _, _, _. split; [exact H|]. split; [exact N|]. split; [exact S2|].
  split; [apply bend_attitude; exact E|]. apply Rinv_neq_0_compat. exact E.
Qed.

(** * C95: project_to_bit *)
Theorem C95_continues_the_arc : forall h rows deg sx sn s k a b p q t n d,
  Survey h rows deg sx sn "meters" = Some s ->
  nth_error (sv_rows s) k = Some a -> nth_error (sv_rows s) (S k) = Some b ->
  length (sv_rows s) = S (S k) ->
  nth_error (sv_nev s) k = Some p -> nth_error (sv_nev s) (S k) = Some q ->
  let u := direction_nev (st_inc a) (st_azi a) in
  let v := direction_nev (st_inc b) (st_azi b) in
  let r := (st_md b - st_md a) / t in
  section_arc p u q v (st_md b - st_md a) t n -> st_md a < st_md b -> 0 < st_inc b < PI ->
  project_to_bit s d None None
  = Some (arc_point p u n r (t + d / r), arc_tangent u n (t + d / r), st_md b + d).
Proof. exact bit_continues_arc. Qed.
Print Assumptions C95_continues_the_arc.
Theorem C95_continues_the_line : forall h rows deg sx sn unit s k a b p q d,
  Survey h rows deg sx sn unit = Some s ->
  nth_error (sv_rows s) k = Some a -> nth_error (sv_rows s) (S k) = Some b ->
  length (sv_rows s) = S (S k) ->
  nth_error (sv_nev s) k = Some p -> nth_error (sv_nev s) (S k) = Some q ->
  let v := direction_nev (st_inc b) (st_azi b) in
  direction_nev (st_inc a) (st_azi a) = v ->
  project_to_bit s d None None = Some (vadd q (vscale d v), v, st_md b + d).
Proof. exact bit_straight. Qed.
Print Assumptions C95_continues_the_line.
Theorem C95_explicit : forall h rows deg sx sn unit s k b q d dls tf,
  Survey h rows deg sx sn unit = Some s ->
  nth_error (sv_rows s) k = Some b -> length (sv_rows s) = S k ->
  nth_error (sv_nev s) k = Some q ->
  0 < dls -> 0 < st_inc b < PI ->
  let v := direction_nev (st_inc b) (st_azi b) in
  let n := toolface_dir (st_inc b) (st_azi b) tf in
  let r := 30 * 360 / (2 * PI * dls) in
  project_to_bit s d (Some dls) (Some tf)
  = Some (arc_point q v n r (d / r), arc_tangent v n (d / r), st_md b + d).
Proof. exact bit_explicit. Qed.
Print Assumptions C95_explicit.
Theorem C95_vertical : forall h rows deg sx sn s k a b p q t n d c,
  Survey h rows deg sx sn "meters" = Some s ->
  nth_error (sv_rows s) k = Some a -> nth_error (sv_rows s) (S k) = Some b ->
  length (sv_rows s) = S (S k) ->
  nth_error (sv_nev s) k = Some p -> nth_error (sv_nev s) (S k) = Some q ->
  let u := direction_nev (st_inc a) (st_azi a) in
  let v := direction_nev (st_inc b) (st_azi b) in
  let r := (st_md b - st_md a) / t in
  section_arc p u q v (st_md b - st_md a) t n -> st_md a < st_md b -> st_inc b = 0 ->
  arc_normal u n t = mkV (cos c) (sin c) 0 ->
  let m := mkV (cos (c - st_azi b)) (sin (c - st_azi b)) 0 in
  project_to_bit s d None None = Some (arc_point q v m r (d / r), arc_tangent v m (d / r), st_md b + d).
Proof. exact bit_vertical. Qed.
Print Assumptions C95_vertical.
Theorem C95_vertical_refuted : exists s n p q, 
  Survey (grid_header "meters") drop_rows false vzero vzero "meters" = Some s /\ sv_nev s = [p; q] /\
  let u := direction_nev (PI / 6) (PI / 2) in
  let r := 30 / (PI / 6) in
  section_arc p u q (direction_nev 0 (PI / 2)) 30 (PI / 6) n /\
  forall d, 0 < d / r < PI ->
    exists pos dir, project_to_bit s d None None = Some (pos, dir, 30 + d) /\
      vx dir < 0 /\ vy dir = 0 /\
      vx (arc_tangent u n (PI / 6 + d / r)) = 0 /\ vy (arc_tangent u n (PI / 6 + d / r)) < 0.
Proof. exact vertical_refuted. Qed.
Print Assumptions C95_vertical_refuted.
Theorem C95_feet_refuted : forall h rows deg sx sn s k a b p q t n d,
  Survey h rows deg sx sn "feet" = Some s ->
  nth_error (sv_rows s) k = Some a -> nth_error (sv_rows s) (S k) = Some b ->
  length (sv_rows s) = S (S k) ->
  nth_error (sv_nev s) k = Some p -> nth_error (sv_nev s) (S k) = Some q ->
  let u := direction_nev (st_inc a) (st_azi a) in
  let v := direction_nev (st_inc b) (st_azi b) in
  let r := (st_md b - st_md a) / t in
  section_arc p u q v (st_md b - st_md a) t n -> st_md a < st_md b -> 0 < st_inc b < PI ->
  exists p', project_to_bit s d None None
    = Some (p', arc_tangent u n (t + 10 / 3 * (d / r)), st_md b + d) /\
  (0 < d / r < PI / 2 -> arc_tangent u n (t + 10 / 3 * (d / r)) <> arc_tangent u n (t + d / r)).
Proof. exact bit_feet. Qed.
Print Assumptions C95_feet_refuted.
Example C95_case : exists s p q n,
    Survey (grid_header "meters") drop_rows false vzero vzero "meters" = Some s /\ sv_nev s = [p; q] /\
    section_arc p (direction_nev (PI / 6) (PI / 2)) q (direction_nev 0 (PI / 2)) 30 (PI / 6) n /\
    arc_normal (direction_nev (PI / 6) (PI / 2)) n (PI / 6) = mkV (cos (3 * (PI / 2))) (sin (3 * (PI / 2))) 0.
Proof. destruct drop_case as (s & p & q & n & H & _ & N & SA & AN). exists s, p, q, n. auto. Qed.
Example C95_feet_case : exists s p q r,
  Survey (grid_header "feet") bend_rows false vzero vzero "feet" = Some s /\ sv_nev s = [p; q; r] /\
  section_arc q (direction_nev (PI / 3) 0) r (direction_nev (PI / 2) 0) 90 (PI / 6) (high_side (PI / 3) 0) /\
  0 < PI / 2 < PI.
Proof.
  destruct (bend_case "feet") as (s & p & q & r & H & R & N & S1 & S2 & A); auto.
  exists s, p, q, r. pose proof PI_RGT_0. split; auto. split; auto. split; auto. lra.
Qed.

(** * C96: centres of curvature *)
Theorem C96_section : forall h rows deg sx sn unit s k a b p q t n,
  Survey h rows deg sx sn unit = Some s ->
  nth_error (sv_rows s) k = Some a -> nth_error (sv_rows s) (S k) = Some b ->
  nth_error (sv_nev s) k = Some p -> nth_error (sv_nev s) (S k) = Some q ->
  let u := direction_nev (st_inc a) (st_azi a) in
  let v := direction_nev (st_inc b) (st_azi b) in
  let r := (st_md b - st_md a) / t in
  section_arc p u q v (st_md b - st_md a) t n -> st_md a < st_md b ->
  nth_error (cv_normals (survey_curves s)) k = Some (Some (cross u n)) /\
  nth_error (cv_curve_radius (survey_curves s)) (S k) = Some (Fin r) /\
  nth_error (cv_vec_radius (survey_curves s)) (S k) = Some (Some (arc_normal u n t)) /\
  (k = 0%nat -> nth_error (cv_vec_radius (survey_curves s)) 0 = Some (Some n)) /\
  arc_centre q (arc_normal u n t) r = arc_centre p n r.
Proof. exact curve_of_section. Qed.
Print Assumptions C96_section.
Theorem C96_straight_section : forall h rows deg sx sn unit s k a b,
  Survey h rows deg sx sn unit = Some s ->
  nth_error (sv_rows s) k = Some a -> nth_error (sv_rows s) (S k) = Some b ->
  direction_nev (st_inc a) (st_azi a) = direction_nev (st_inc b) (st_azi b) -> st_md a <> st_md b ->
  nth_error (cv_normals (survey_curves s)) k = Some None /\
  nth_error (cv_curve_radius (survey_curves s)) (S k) = Some PInf /\
  nth_error (cv_vec_radius (survey_curves s)) (S k) = Some None.
Proof. exact curve_of_straight. Qed.
Print Assumptions C96_straight_section.
Theorem C96_first_radius : forall s, nth_error (cv_curve_radius (survey_curves s)) 0 = Some PInf.
Proof. exact curve_radius_first. Qed.
Print Assumptions C96_first_radius.
Theorem C96_centres : forall h rows deg sx sn unit s k a b p q t n,
  Survey h rows deg sx sn unit = Some s ->
  nth_error (sv_rows s) k = Some a -> nth_error (sv_rows s) (S k) = Some b ->
  nth_error (sv_nev s) k = Some p -> nth_error (sv_nev s) (S k) = Some q ->
  let u := direction_nev (st_inc a) (st_azi a) in
  let v := direction_nev (st_inc b) (st_azi b) in
  let r := (st_md b - st_md a) / t in
  section_arc p u q v (st_md b - st_md a) t n -> st_md a < st_md b ->
  let m := pred (length rows) in
  let '(starts, ends) := get_circle_radius s in
  length starts = (2 * m)%nat /\ length ends = (2 * m)%nat /\
  nth_error ends k = Some p /\ nth_error ends (m + k) = Some q /\
  nth_error starts (m + k) = Some (Some (arc_centre p n r)) /\
  (k = 0%nat -> nth_error starts k = Some None) /\
  (forall r', nth_error (cv_curve_radius (survey_curves s)) k = Some (Fin r') ->
     nth_error starts k = Some (Some (arc_centre p n r'))) /\
  (nth_error (cv_curve_radius (survey_curves s)) k = Some PInf -> nth_error starts k = Some None) /\
  forall x, dist (arc_point p u n r x) (arc_centre p n r) = r.
Proof. exact circle_centres_bent. Qed.
Print Assumptions C96_centres.
Theorem C96_first_half_iff : forall h rows deg sx sn unit s k a b c p q t n t',
  Survey h rows deg sx sn unit = Some s ->
  nth_error (sv_rows s) k = Some c -> nth_error (sv_rows s) (S k) = Some a -> nth_error (sv_rows s) (S (S k)) = Some b ->
  nth_error (sv_nev s) (S k) = Some p -> nth_error (sv_nev s) (S (S k)) = Some q ->
  let u := direction_nev (st_inc a) (st_azi a) in
  let v := direction_nev (st_inc b) (st_azi b) in
  section_arc p u q v (st_md b - st_md a) t n -> st_md c < st_md a < st_md b ->
  angle_between (direction_nev (st_inc c) (st_azi c)) u t' ->
  (nth_error (fst (get_circle_radius s)) (S k) = Some (Some (arc_centre p n ((st_md b - st_md a) / t)))
   <-> t' / (st_md a - st_md c) = t / (st_md b - st_md a)).
Proof. exact first_half_centre_iff. Qed.
Print Assumptions C96_first_half_iff.
Theorem C96_straight : forall h rows deg sx sn unit s k a b p q,
  Survey h rows deg sx sn unit = Some s ->
  nth_error (sv_rows s) k = Some a -> nth_error (sv_rows s) (S k) = Some b ->
  nth_error (sv_nev s) k = Some p -> nth_error (sv_nev s) (S k) = Some q ->
  direction_nev (st_inc a) (st_azi a) = direction_nev (st_inc b) (st_azi b) ->
  nth_error (fst (get_circle_radius s)) k = Some None /\
  nth_error (fst (get_circle_radius s)) (pred (length rows) + k) = Some None.
Proof. exact circle_straight. Qed.
Print Assumptions C96_straight.
Example C96_case : exists s p q r,
  Survey (grid_header "meters") bend_rows false vzero vzero "meters" = Some s /\ sv_nev s = [p; q; r] /\
  section_arc p (direction_nev (PI / 6) 0) q (direction_nev (PI / 3) 0) 30 (PI / 6) (high_side (PI / 6) 0) /\
  section_arc q (direction_nev (PI / 3) 0) r (direction_nev (PI / 2) 0) 90 (PI / 6) (high_side (PI / 3) 0) /\
  PI / 6 / 30 <> PI / 6 / 90.
Proof.
  destruct (bend_case "meters") as (s & p & q & r & H & R & N & S1 & S2 & A); auto.
  exists s, p, q, r. pose proof PI_RGT_0. split; auto. split; auto. split; auto. split; auto. lra.
Qed.

(** * C97: the survey header *)
Theorem C97_outcomes : forall w a,
  let in_range (x : option R) b := forall v, x = Some v -> - b <= v <= b in
  let located := in_range (ha_latitude a) 90 /\ in_range (ha_longitude a) 180 /\
    (ha_azi_reference a = "true" \/ ha_azi_reference a = "magnetic" \/ ha_azi_reference a = "grid")%string in
  let dated := forall d, ha_date a = Some d -> w_valid_date w d = true in
  let m := fst (mag_source w (ha_defaults a) (match ha_date a with None => w_today w | Some d => d end)) in
  let sourced := (ha_dip a = None -> mg_dip m <> None) /\ (ha_declination a = None -> mg_declination m <> None) in
  (SurveyHeader w a = HAssertion <-> ~ located) /\
  (SurveyHeader w a = HValue <-> located /\ ~ dated) /\
  (SurveyHeader w a = HType <-> located /\ dated /\ ~ sourced) /\
  ((exists h, SurveyHeader w a = HOk h) <-> located /\ dated /\ sourced).
Proof. exact header_outcomes. Qed.
Print Assumptions C97_outcomes.
Theorem C97_given : forall w a h, SurveyHeader w a = HOk h ->
  let rad x := if ha_deg a then x * (PI / 180) else x in
  hd_convergence h = rad (ha_convergence a) /\ hd_inc_limit h = rad (ha_inc_limit a) /\
  hd_vs_azimuth h = rad (ha_vs_azimuth a) /\ hd_gsf h = ha_gsf a /\
  (forall b, ha_b_total a = Some b -> hd_b_total h = Some b) /\
  (forall d, ha_dip a = Some d -> hd_dip h = rad d) /\
  (forall d, ha_declination a = Some d -> hd_declination h = rad d) /\
  (forall x, ha_latitude a = Some x -> hd_latitude h = x) /\ (ha_latitude a = None -> hd_latitude h = 51.4934) /\
  (forall x, ha_longitude a = Some x -> hd_longitude h = x) /\ (ha_longitude a = None -> hd_longitude h = 0.0098) /\
  (forall x, ha_altitude a = Some x -> hd_altitude h = x) /\ (ha_altitude a = None -> hd_altitude h = 0) /\
  (hd_azi_reference h = RefTrue <-> ha_azi_reference a = "true"%string) /\
  (hd_azi_reference h = RefMagnetic <-> ha_azi_reference a = "magnetic"%string) /\
  (hd_azi_reference h = RefGrid <-> ha_azi_reference a = "grid"%string).
Proof. exact header_values. Qed.
Print Assumptions C97_given.
Theorem C97_omitted : forall w a h, SurveyHeader w a = HOk h ->
  let given := match ha_date a with None => w_today w | Some d => d end in
  exists m,
    (w_installed w = true /\ w_first w = Some m /\ hd_date h = given \/
     w_installed w = true /\ w_first w = None /\ w_second w = Some m /\ hd_date h = w_today w \/
     w_installed w = true /\ w_first w = None /\ w_second w = None /\ m = ha_defaults a /\ hd_date h = w_today w \/
     w_installed w = false /\ m = ha_defaults a /\ hd_date h = given) /\
    (ha_b_total a = None -> hd_b_total h = mg_b_total m) /\
    (ha_dip a = None -> exists v, mg_dip m = Some v /\ hd_dip h = - (v * (PI / 180))) /\
    (ha_declination a = None -> exists v, mg_declination m = Some v /\ hd_declination h = v * (PI / 180)).
Proof. exact header_omitted. Qed.
Print Assumptions C97_omitted.
Theorem C97_all_given : forall w w' a h h' b d c,
  ha_b_total a = Some b -> ha_dip a = Some d -> ha_declination a = Some c ->
  SurveyHeader w a = HOk h -> SurveyHeader w' a = HOk h' ->
  hd_b_total h = hd_b_total h' /\ hd_dip h = hd_dip h' /\ hd_declination h = hd_declination h'.
Proof. exact header_all_given. Qed.
Print Assumptions C97_all_given.
Theorem C97_omitted_dip_reversed : forall w a h h' b d c, w_installed w = false ->
  ha_deg a = true -> ha_defaults a = mkMag (Some b) (Some d) (Some c) ->
  SurveyHeader w (with_mag a None None None) = HOk h ->
  SurveyHeader w (with_mag a (Some b) (Some d) (Some c)) = HOk h' ->
  hd_b_total h' = hd_b_total h /\ hd_declination h' = hd_declination h /\ hd_dip h' = - hd_dip h.
Proof. exact explicit_source. Qed.
Print Assumptions C97_omitted_dip_reversed.
Theorem C97_dip_from_location : forall w a h v, SurveyHeader w a = HOk h ->
  w_installed w = true -> ha_dip a = None ->
  (exists m, w_first w = Some m /\ mg_dip m = Some v) ->
  hd_dip h = radians (factors_dip true v) /\ hd_dip h = - radians (factors_dip false v).
Proof. exact factors_dip_agrees. Qed.
Print Assumptions C97_dip_from_location.
Theorem C97_degrees_or_radians : forall w a, ha_deg a = true -> SurveyHeader w (in_radians a) = SurveyHeader w a.
Proof. exact header_deg_rad. Qed.
Print Assumptions C97_degrees_or_radians.
Theorem C97_default_limit_refuted :
  let w := mkWorld false None None "2024-01-01" (fun _ => true) in
  exists h h', SurveyHeader w default_args = HOk h /\
    SurveyHeader w (mkArgs None None None None None None None 0 "true" (1 / 10000) false "meters" "meters"
      default_mag 0 1) = HOk h' /\
    hd_inc_limit h = radians (1 / 10000) /\ hd_inc_limit h' = 1 / 10000 /\
    hd_dip h' = hd_dip h /\ hd_declination h' = hd_declination h /\ hd_inc_limit h < hd_inc_limit h'.
Proof. exact default_limit_refuted. Qed.
Print Assumptions C97_default_limit_refuted.
Theorem C97_date_iff : forall w a h, SurveyHeader w a = HOk h ->
  forall d, ha_date a = Some d ->
  (hd_date h = d <-> w_installed w = false \/ w_first w <> None \/ d = w_today w).
Proof. exact date_lost. Qed.
Print Assumptions C97_date_iff.
Theorem C97_units : forall w a h, SurveyHeader w a = HOk h ->
  (hd_depth_unit h = Some "meters"%string <-> ha_depth_unit a = "m"%string \/ ha_depth_unit a = "meters"%string) /\
  (hd_depth_unit h = Some "feet"%string <-> ha_depth_unit a = "ft"%string \/ ha_depth_unit a = "feet"%string) /\
  (hd_surface_unit h = Some "meters"%string <-> ha_surface_unit a = "m"%string \/ ha_surface_unit a = "meters"%string) /\
  (hd_surface_unit h = Some "feet"%string <-> ha_surface_unit a = "ft"%string \/ ha_surface_unit a = "feet"%string) /\
  (hd_surface_unit h = None <-> ~ In (ha_surface_unit a) ["m"; "meters"; "ft"; "feet"]%string) /\
  (header_view h = None <-> ~ In (ha_depth_unit a) ["m"; "meters"; "ft"; "feet"]%string).
Proof. exact header_units. Qed.
Print Assumptions C97_units.
(** no calculator, defaults: success with every field filled in *)
Example C97_case : exists h,
  SurveyHeader (mkWorld false None None "2024-01-01" (fun _ => true)) default_args = HOk h /\
  hd_dip h = - (70 * (PI / 180)) /\ header_view h <> None.
Proof.
  eexists. split; [reflexivity|]. split; [cbn; unfold radians; ring|]. cbn. discriminate.
Qed.
(** a calculator that fails for the given date and works for today's *)
Example C97_retry_case : exists h,
  SurveyHeader (mkWorld true None (Some (mkMag (Some 48000) (Some 66) (Some 1))) "2024-01-01" (fun _ => true))
    (mkArgs (Some 60) (Some 2) None (Some "1985-06-01"%string) None None None 0 "grid" 0 true "feet" "m" default_mag 0 1) = HOk h /\
  hd_date h = "2024-01-01"%string /\ hd_b_total h = Some 48000.
Proof.
  assert (B1 : in_bounds (Some 60) 90 = true) by (apply in_bounds_iff; intros v E; injection E as <-; lra).
  assert (B2 : in_bounds (Some 2) 180 = true) by (apply in_bounds_iff; intros v E; injection E as <-; lra).
  eexists. split; [|split].
  - unfold SurveyHeader. cbn [ha_latitude ha_longitude]. rewrite B1, B2. reflexivity.
  - reflexivity.
  - reflexivity.
Qed.
