(** Property theorems C109-C113: clearance runs, stations added at minima, hole sizes and the kick-off point. *)
Require Import Reals ZArith Bool String List Lra Lia Psatz.
Require Import Verif.Base Verif.NumPy Verif.M_Utils Verif.M_Survey Verif.M_Error Verif.M_Clearance Verif.M_MaxCurve Verif.M_Refine
  Verif.Spec Verif.Spec_Lists Verif.Spec_Clearance Verif.Spec_Refine.
Require Import Verif.P_Utils Verif.P_Refine2 Verif.P_Refine3 Verif.P_Refine4 Verif.P_Refine5 Verif.P_Refine6.
Import ListNotations.
Local Open Scope R_scope.

(** * C109: the refined reference *)
Theorem C109_refined_reference : forall h rows deg sx sn s cov radius off opt mini c,
  Survey h rows deg sx sn "meters" = Some s ->
  strictly_increasing (map st_md (sv_rows s)) ->
  (forall i a b, nth_error (sv_rows s) i = Some a -> nth_error (sv_rows s) (S i) = Some b ->
     get_dogleg (st_inc a) (st_azi a) (st_inc b) (st_azi b) < PI) ->
  length cov = length (sv_rows s) -> length radius = length (sv_rows s) -> descends mini ->
  let sf := factors (clearance_run opt c (mkWell s cov radius) off) in
  exists ref results, refined_run opt mini c (mkWell s cov radius) off = Some (ref, results) /\
    let new := w_survey ref in let added := sv_interpolated new in
    length added = length (sv_rows new) /\ length (sv_nev new) = length (sv_rows new) /\
    length (w_cov ref) = length (sv_rows new) /\ length (w_radius ref) = length (sv_rows new) /\
    length results = length (sv_rows new) /\
    unmarked added (sv_rows new) = sv_rows s /\ unmarked added (sv_nev new) = sv_nev s /\
    unmarked added (w_cov ref) = cov /\ unmarked added (w_radius ref) = radius /\
    strictly_increasing (map st_md (sv_rows new)) /\
    (forall i a b, nth_error (sv_rows new) i = Some a -> nth_error (sv_rows new) (S i) = Some b ->
       get_dogleg (st_inc a) (st_azi a) (st_inc b) (st_azi b) < PI) /\
    (forall l, (forall i, dips sf i -> In i l) -> (length (sv_rows new) <= length (sv_rows s) + length l)%nat) /\
    (forall i u v w, dips sf i -> nth_error (sv_rows s) (i - 1) = Some u -> nth_error (sv_rows s) i = Some v -> nth_error (sv_rows s) (S i) = Some w ->
       let x := mini (objective opt c (mkWell s cov radius) off sf i (st_md v - st_md u) (st_md w - st_md v)) (- (st_md v - st_md u)) (st_md w - st_md v) in
       x <> 0 -> x <> st_md v - st_md u -> x <> st_md w - st_md v ->
       exists j a, nth_error (sv_rows new) j = Some a /\ st_md a = st_md v + x /\ nth_error added j = Some true) /\
    forall j, nth_error added j = Some true ->
      exists a p r i u v w n h' k z, nth_error (sv_rows new) j = Some a /\ nth_error (sv_nev new) j = Some p /\
        nth_error (w_cov ref) j = Some mzero /\ nth_error (w_radius ref) j = Some r /\
        dips sf i /\ nth_error (sv_rows s) (i - 1) = Some u /\ nth_error (sv_rows s) i = Some v /\ nth_error (sv_rows s) (S i) = Some w /\
        (st_md u < st_md a < st_md v \/ st_md v < st_md a < st_md w) /\
        st_md a = st_md v + mini (objective opt c (mkWell s cov radius) off sf i (st_md v - st_md u) (st_md w - st_md v))
                              (- (st_md v - st_md u)) (st_md w - st_md v) /\
        survey_interpolate_md s (st_md a) = NodeOk n h' /\ nd_md n = st_md a /\ nd_pos n = p /\
        nd_vec n = direction_nev (st_inc a) (st_azi a) /\
        nth_error (sv_rows s) k = Some z /\ st_md a < st_md z /\ nth_error radius k = Some r /\
        (forall l y, (l < k)%nat -> nth_error (sv_rows s) l = Some y -> st_md y < st_md a).
Proof. exact refined_reference. Qed.
Print Assumptions C109_refined_reference.
(** a vertical well of three stations, two searches that meet the assumptions, and
    an offset for which the factor dips at the second station: 115 is added *)
Example C109_case : exists s so,
  Survey (wit_h "meters") [(0, 0, 0); (100, 0, 0); (200, 0, 0)] false vzero vzero "meters" = Some s /\
  strictly_increasing (map st_md (sv_rows s)) /\
  (forall i a b, nth_error (sv_rows s) i = Some a -> nth_error (sv_rows s) (S i) = Some b ->
     get_dogleg (st_inc a) (st_azi a) (st_inc b) (st_azi b) < PI) /\
  length (repeat wit_cov 3) = length (sv_rows s) /\ length (wit_holes 3) = length (sv_rows s) /\ descends wit_mini /\
  In 115 (minimum_depths wit_opt wit_mini wit_c (mkWell s (repeat wit_cov 3) (wit_holes 3)) (mkWell so [mzero; mzero] (wit_holes 2))).
Proof.
  destruct (wit_ref "meters" (or_introl eq_refl)) as (s & HS & RS & NS). destruct (wit_off "meters" (or_introl eq_refl)) as (so & HO & RO & NO).
  exists s, so. split; auto. split; [rewrite RS; simpl; repeat constructor; lra|]. split.
  { assert (D : get_dogleg 0 0 0 0 < PI). { replace (get_dogleg 0 0 0 0) with 0; [apply PI_RGT_0|]. symmetry. apply dogleg_0_iff. reflexivity. }
    rewrite RS. intros [|[|[|i]]] a b A B; simpl in *; try discriminate; injection A as <-; injection B as <-; exact D. }
  split; [rewrite RS; reflexivity|]. split; [rewrite RS; reflexivity|]. split; [exact wit_mini_ok|]. apply (wit_found "meters"); auto.
Qed.

(** * C110: the refined results *)
Theorem C110_refined_results : forall h rows deg sx sn s cov radius off opt mini c ref results,
  Survey h rows deg sx sn "meters" = Some s ->
  strictly_increasing (map st_md (sv_rows s)) ->
  (forall i a b, nth_error (sv_rows s) i = Some a -> nth_error (sv_rows s) (S i) = Some b ->
     get_dogleg (st_inc a) (st_azi a) (st_inc b) (st_azi b) < PI) ->
  length cov = length (sv_rows s) -> length radius = length (sv_rows s) -> descends mini -> 0 < c_k c ->
  refined_run opt mini c (mkWell s cov radius) off = Some (ref, results) ->
  unmarked (sv_interpolated (w_survey ref)) results = clearance_run opt c (mkWell s cov radius) off /\
  forall j r, nth_error (sv_interpolated (w_survey ref)) j = Some true -> nth_error results j = Some (Some r) ->
    ru_ref_pcr r = 0 /\
    exists a p q oc rr ro, nth_error (sv_rows (w_survey ref)) j = Some a /\ nth_error (sv_nev (w_survey ref)) j = Some p /\
      nth_error (w_radius ref) j = Some rr /\ nth_error (w_radius off) (nearest_station (sv_nev (w_survey off)) p) = Some ro /\
      iscwsa_rule (c_k c) (c_sigma_pa c) (c_Sm c) rr ro (st_inc a) (st_azi a) p q mzero oc = Some r /\
      forall rc r', iscwsa_rule (c_k c) (c_sigma_pa c) (c_Sm c) rr ro (st_inc a) (st_azi a) p q rc oc = Some r' ->
        ru_wellbore_separation r = ru_wellbore_separation r' /\ ru_eou_boundary r <= ru_eou_boundary r' /\
        forall sf sf', ru_sf r = Fin sf -> ru_sf r' = Fin sf' -> 0 < ru_wellbore_separation r ->
          sf' <= sf /\ (0 < ru_ref_pcr r' -> sf' < sf).
Proof. exact refined_results. Qed.
Print Assumptions C110_refined_results.
(** the well of C109_case with its offset: every factor reported is above one, yet
    at the added station the rule with the well's own uncertainty gives less *)
Theorem C110_minimum_refuted :
  exists h rows sx sn s cov radius off opt mini c ref results,
    Survey h rows false sx sn "meters" = Some s /\
    strictly_increasing (map st_md (sv_rows s)) /\
    (forall i a b, nth_error (sv_rows s) i = Some a -> nth_error (sv_rows s) (S i) = Some b ->
       get_dogleg (st_inc a) (st_azi a) (st_inc b) (st_azi b) < PI) /\
    length cov = length (sv_rows s) /\ length radius = length (sv_rows s) /\
    never_worse opt /\ descends mini /\ 0 < c_k c /\ c_sigma_pa c <> 0 /\
    refined_run opt mini c (mkWell s cov radius) off = Some (ref, results) /\
    (forall r, In r results -> exists f, factor r = Fin f /\ 1 < f) /\
    exists j a p o rc oc rr ro r v,
      nth_error (sv_interpolated (w_survey ref)) j = Some true /\ nth_error (sv_rows (w_survey ref)) j = Some a /\
      nth_error (sv_nev (w_survey ref)) j = Some p /\ nth_error (w_radius ref) j = Some rr /\
      (forall x, In x cov -> x = rc) /\ (forall x, In x (w_cov off) -> x = oc) /\ (forall x, In x (w_radius off) -> x = ro) /\
      psd rc /\ psd oc /\ In o (sv_nev (w_survey off)) /\
      iscwsa_rule (c_k c) (c_sigma_pa c) (c_Sm c) rr ro (st_inc a) (st_azi a) p o rc oc = Some r /\
      ru_sf r = Fin v /\ v < 1.
Proof. exact hidden_minimum. Qed.
Print Assumptions C110_minimum_refuted.

(** * C111: hole sizes and units *)
Theorem C111_radius : forall n a,
  (survey_radius n a = None <-> exists l, a = RadiusList l /\ length l <> 1%nat /\ length l <> n) /\
  forall l, survey_radius n a = Some l -> length l = n /\
    (forall arg, clearance_radius (Some l) n arg = l) /\
    (a = RadiusNone -> forall i r, nth_error l i = Some r -> r = 0.3048) /\
    (forall x, a = RadiusNumber x \/ a = RadiusList [x] -> forall i r, nth_error l i = Some r -> r = x) /\
    (forall l', a = RadiusList l' -> length l' <> 1%nat -> l' = l).
Proof. exact radius_values. Qed.
Print Assumptions C111_radius.
Theorem C111_run_holes : forall opt c ref off i r, nth_error (clearance_run opt c ref off) i = Some (Some r) ->
  exists p rr ro, nth_error (sv_nev (w_survey ref)) i = Some p /\ nth_error (w_radius ref) i = Some rr /\
    nth_error (w_radius off) (nearest_station (sv_nev (w_survey off)) p) = Some ro /\ ru_calc_hole r = rr + ro.
Proof. exact run_holes. Qed.
Print Assumptions C111_run_holes.
Theorem C111_other_units : forall opt mini c ref off, h_unit (sv_header (w_survey ref)) <> "meters"%string ->
  (refined_run opt mini c ref off = None <-> minimum_depths opt mini c ref off <> []) /\
  (forall r, refined_run opt mini c ref off = Some r -> r = (ref, clearance_run opt c ref off)).
Proof. exact other_units. Qed.
Print Assumptions C111_other_units.
Example C111_case :
  survey_radius 3 RadiusNone = Some [0.3048; 0.3048; 0.3048] /\ survey_radius 2 (RadiusList [0.1; 0.2]) = Some [0.1; 0.2] /\
  survey_radius 3 (RadiusList [0.1; 0.2]) = None /\ clearance_radius (Some [0.1; 0.2]) 2 0.4572 = [0.1; 0.2].
Proof. repeat split. Qed.
(** the well of C109_case in feet *)
Example C111_units_case : exists s so, h_unit (sv_header s) <> "meters"%string /\
  refined_run wit_opt wit_mini wit_c (mkWell s (repeat wit_cov 3) (wit_holes 3)) (mkWell so [mzero; mzero] (wit_holes 2)) = None.
Proof.
  destruct (wit_ref "feet" (or_intror eq_refl)) as (s & HS & RS & NS). destruct (wit_off "feet" (or_intror eq_refl)) as (so & HO & RO & NO).
  exists s, so. assert (U : h_unit (sv_header s) <> "meters"%string).
  { unfold Survey in HS. destruct (negb _); [discriminate|]. match type of HS with context [MinCurve ?a ?b ?c] => destruct (MinCurve a b c) as [mc|]; [|discriminate] end. injection HS as <-. discriminate. }
  split; auto.
  apply (other_units wit_opt wit_mini wit_c (mkWell s (repeat wit_cov 3) (wit_holes 3)) (mkWell so [mzero; mzero] (wit_holes 2)) U).
  pose proof (wit_found "feet" s so RS NS HO RO NO) as I. intro Z. rewrite Z in I. exact I.
Qed.

(** * C112: the kick-off point *)
Theorem C112_kick_off : forall h rows deg sx sn unit s cov radius err d,
  Survey h rows deg sx sn unit = Some s -> strictly_increasing (map st_md (sv_rows s)) ->
  get_ref (mkWell s cov radius) err None = Some (mkWell s cov radius) /\
  (get_ref (mkWell s cov radius) err (Some d) = None <->
     forall k a b, nth_error (sv_rows s) k = Some a -> nth_error (sv_rows s) (S k) = Some b -> st_md a < d) /\
  ((forall a, hd_error (sv_rows s) = Some a -> d <= st_md a) ->
     get_ref (mkWell s cov radius) err (Some d) = Some (mkWell s cov radius)) /\
  forall r a0, get_ref (mkWell s cov radius) err (Some d) = Some r -> hd_error (sv_rows s) = Some a0 -> st_md a0 < d ->
    exists ki xyz nev, (0 < ki)%nat /\
      (forall k a, nth_error (sv_rows s) k = Some a -> ((k < ki)%nat <-> st_md a < d)) /\
      nth_error (sv_xyz s) ki = Some xyz /\ nth_error (sv_nev s) ki = Some nev /\
      sv_nev (w_survey r) = skipn ki (sv_nev s) /\ w_radius r = skipn ki radius /\
      w_cov r = match err with Some c => c | None => skipn ki cov end /\
      length (sv_rows (w_survey r)) = (length (sv_rows s) - ki)%nat /\
      (forall k a, nth_error (sv_rows s) (ki + k) = Some a ->
         nth_error (sv_rows (w_survey r)) k =
           Some (mkSt (st_md a) (st_inc a)
             (st_azi a + match h_ref h with RefGrid => 0 | RefTrue => - h_convergence h | RefMagnetic => h_declination h - h_convergence h end))) /\
      (h_ref h = RefGrid ->
         sv_rows (w_survey r) = skipn ki (sv_rows s) /\ sv_xyz (w_survey r) = skipn ki (sv_xyz s) /\
         Survey h (map (fun a => (st_md a, st_inc a, st_azi a)) (skipn ki (sv_rows s))) false xyz nev unit = Some (w_survey r)).
Proof. exact kop_reference. Qed.
Print Assumptions C112_kick_off.
(** the same well with kick-off at 50: the stations at 100 and 200 are left *)
Example C112_case : exists s r,
  Survey (wit_h "meters") [(0, 0, 0); (100, 0, 0); (200, 0, 0)] false vzero vzero "meters" = Some s /\
  strictly_increasing (map st_md (sv_rows s)) /\ hd_error (sv_rows s) = Some (mkSt 0 0 0) /\ 0 < 50 /\
  get_ref (mkWell s (repeat wit_cov 3) (wit_holes 3)) None (Some 50) = Some r.
Proof.
  destruct (wit_ref "meters" (or_introl eq_refl)) as (s & HS & RS & NS).
  assert (SI : strictly_increasing (map st_md (sv_rows s))) by (rewrite RS; simpl; repeat constructor; lra).
  destruct (kop_reference _ _ _ _ _ _ s (repeat wit_cov 3) (wit_holes 3) None 50 HS SI) as (_ & K & _).
  destruct (get_ref (mkWell s (repeat wit_cov 3) (wit_holes 3)) None (Some 50)) as [r|] eqn:G.
  - exists s, r. split; auto. split; auto. split; [rewrite RS; reflexivity|]. split; [lra|exact G].
  - exfalso. destruct K as [K _]. pose proof (K eq_refl 1%nat (mkSt 100 0 0) (mkSt 200 0 0)) as C. rewrite RS in C. specialize (C eq_refl eq_refl). cbn [st_md] in C. lra.
Qed.

(** * C113: a whole run *)
Theorem C113_whole_run : forall h rows deg sx sn unit s cov radius ref opt c,
  Survey h rows deg sx sn unit = Some s -> strictly_increasing (map st_md (sv_rows s)) ->
  (forall i a b, nth_error (sv_rows s) i = Some a -> nth_error (sv_rows s) (S i) = Some b ->
     get_dogleg (st_inc a) (st_azi a) (st_inc b) (st_azi b) < PI) ->
  length cov = length (sv_rows s) -> length radius = length (sv_rows s) -> (forall m, In m cov -> psd m) ->
  (forall m, In m (w_cov ref) -> psd m) ->
  never_worse opt -> 0 < c_k c -> c_sigma_pa c <> 0 ->
  let run := clearance_run opt c ref (mkWell s cov radius) in
  length run = length (sv_rows (w_survey ref)) /\
  forall i a p rc rr, nth_error (sv_rows (w_survey ref)) i = Some a -> nth_error (sv_nev (w_survey ref)) i = Some p ->
    nth_error (w_cov ref) i = Some rc -> nth_error (w_radius ref) i = Some rr ->
    exists r q nd h' m b e ca cb t j o ro,
      nth_error run i = Some (Some r) /\ ru_distance r = dist p q /\
      nth_error (sv_rows s) m = Some b /\ nth_error (sv_rows s) (S m) = Some e /\ 0 <= t <= 1 /\
      survey_interpolate_md s (st_md b + t * (st_md e - st_md b)) = NodeOk nd h' /\ nd_pos nd = q /\
      nth_error (sv_nev s) j = Some o /\ (forall k o', nth_error (sv_nev s) k = Some o' -> dist p o <= dist p o') /\
      dist p q <= dist p o /\ (j = m \/ j = S m) /\
      nth_error radius j = Some ro /\ ru_calc_hole r = rr + ro /\
      nth_error cov m = Some ca /\ nth_error cov (S m) = Some cb /\
      (p <> q -> exists u, points_along (vsub q p) u /\ ru_ref_pcr r * ru_ref_pcr r = qform rc u /\
                   ru_off_pcr r * ru_off_pcr r = (1 - t) * qform ca u + t * qform cb u) /\
      (p = q -> ru_ref_pcr r = 0 /\ ru_off_pcr r = 0) /\ 0 <= ru_ref_pcr r /\ 0 <= ru_off_pcr r /\
      ru_sf r = Fin ((dist p q - (rr + ro + c_Sm c)) /
                     (c_k c * sqrt (ru_ref_pcr r * ru_ref_pcr r + ru_off_pcr r * ru_off_pcr r + c_sigma_pa c * c_sigma_pa c))).
Proof. exact whole_run. Qed.
Print Assumptions C113_whole_run.
(** the offset of C109_case and a search that meets the assumptions *)
Example C113_case : exists so,
  Survey (wit_h "meters") [(0, PI/2, 0); (100, PI/2, 0)] false vzero (mkV 8 0 115) "meters" = Some so /\
  strictly_increasing (map st_md (sv_rows so)) /\
  (forall i a b, nth_error (sv_rows so) i = Some a -> nth_error (sv_rows so) (S i) = Some b ->
     get_dogleg (st_inc a) (st_azi a) (st_inc b) (st_azi b) < PI) /\
  length [mzero; mzero] = length (sv_rows so) /\ length (wit_holes 2) = length (sv_rows so) /\
  (forall m, In m [mzero; mzero] -> psd m) /\ psd wit_cov /\ never_worse wit_opt /\ 0 < c_k wit_c /\ c_sigma_pa wit_c <> 0.
Proof.
  destruct (wit_off "meters" (or_introl eq_refl)) as (so & HO & RO & NO). exists so. split; auto.
  split; [eapply wit_si; eauto|]. split; [eapply wit_bo; eauto|]. split; [rewrite RO; reflexivity|]. split; [rewrite RO; reflexivity|].
  split. { intros m [<-|[<-|[]]]; intro v; rewrite qform_mzero; lra. }
  split; [exact psd_wit|]. split; [exact wit_opt_ok|]. simpl. split; lra.
Qed.
