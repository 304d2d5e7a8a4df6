(** Property theorems C124: anti-collision results do not depend on the frame. *)
Require Import Reals ZArith Lra Psatz Lia Bool String List.
Require Import Verif.Base Verif.NumPy Verif.Spec Verif.Spec_Lists Verif.M_Utils Verif.M_Survey Verif.M_Error Verif.M_Clearance
  Verif.M_MaxCurve Verif.M_Refine Verif.Spec_Refine Verif.Spec_Frames.
Require Import Verif.P_Utils Verif.P_Survey2 Verif.P_Refine3 Verif.P_Refine6 Verif.P_Frames Verif.P_Frames2 Verif.P_Frames3.
Import ListNotations.
Local Open Scope R_scope.

(** * C124 *)
Theorem C124_turned_survey : forall w t h rows deg sx sn unit s sx', 
  Survey h rows deg sx sn unit = Some s ->
  exists s', Survey h (turned_rows w deg rows) deg sx'
      (moved (turn w) t sn) unit = Some s' /\
    moved_survey (turn w) t s s' /\ sv_dogleg s' = sv_dogleg s /\ sv_delta_md s' = sv_delta_md s.
Proof. exact survey_turned. Qed.
Print Assumptions C124_turned_survey.
Theorem C124_mirrored_survey : forall t h rows deg sx sn unit s, Survey h rows deg sx sn unit = Some s ->
  exists s', Survey (mirrored_header h) (map (fun r => let '(md, inc, azi) := r in (md, inc, - azi)) rows) deg sx
      (moved east_west t sn) unit = Some s' /\ moved_survey east_west t s s' /\ sv_dogleg s' = sv_dogleg s.
Proof. exact mirrored_survey. Qed.
Print Assumptions C124_mirrored_survey.
Theorem C124_results : forall Q t opt c ref off ref' off', isometry Q ->
  moved_well Q t ref ref' -> moved_well Q t off off' -> built (w_survey off) -> built (w_survey off') ->
  no_reversal (w_survey off) -> clearance_run opt c ref' off' = clearance_run opt c ref off.
Proof. exact clearance_moved. Qed.
Print Assumptions C124_results.
Theorem C124_turned_run : forall w t opt c h rows deg sx sn unit s cov rad h2 rows2 deg2 sx2 sn2 unit2 s2 cov2 rad2,
  Survey h rows deg sx sn unit = Some s -> Survey h2 rows2 deg2 sx2 sn2 unit2 = Some s2 -> no_reversal s2 ->
  exists s' s2',
    Survey h (turned_rows w deg rows) deg sx (moved (turn w) t sn) unit = Some s' /\
    Survey h2 (turned_rows w deg2 rows2) deg2 sx2 (moved (turn w) t sn2) unit2 = Some s2' /\
    clearance_run opt c (mkWell s' (map (turned_cov (turn w)) cov) rad) (mkWell s2' (map (turned_cov (turn w)) cov2) rad2) =
    clearance_run opt c (mkWell s cov rad) (mkWell s2 cov2 rad2).
Proof. exact turned_run. Qed.
Print Assumptions C124_turned_run.
Theorem C124_refined : forall Q t opt mini c ref off ref' off', isometry Q ->
  moved_well Q t ref ref' -> moved_well Q t off off' ->
  built (w_survey ref) -> built (w_survey ref') -> built (w_survey off) -> built (w_survey off') ->
  h_unit (sv_header (w_survey ref)) = "meters"%string ->
  strictly_increasing (map st_md (sv_rows (w_survey ref))) -> no_reversal (w_survey ref) -> no_reversal (w_survey off) ->
  length (w_radius ref) = length (sv_rows (w_survey ref)) -> descends mini ->
  exists r r' results, refined_run opt mini c ref off = Some (r, results) /\ refined_run opt mini c ref' off' = Some (r', results) /\
    moved_well Q t r r'.
Proof. exact refined_moved. Qed.
Print Assumptions C124_refined.
Theorem C124_horizontal_bearing : forall w t inc azi azi' p q, (vx (vsub q p) <> 0 \/ vy (vsub q p) <> 0) ->
  exists k : Z, Rabs (dl_hoz_bearing (delta_vectors inc azi' (moved (turn w) t p) (moved (turn w) t q))
    - (dl_hoz_bearing (delta_vectors inc azi p q) + w + 2 * PI * IZR k)) <= / 10 ^ 6.
Proof. exact bearing_moved. Qed.
Print Assumptions C124_horizontal_bearing.
Theorem C124_toolface : forall w t inc azi p q,
  dl_toolface (delta_vectors inc (azi + w) (moved (turn w) t p) (moved (turn w) t q)) = dl_toolface (delta_vectors inc azi p q).
Proof. exact toolface_moved. Qed.
Print Assumptions C124_toolface.
(** both are isometries; the wells of C109_case turned by 60 degrees, where a station is added *)
Example C124_isometries : (forall w, isometry (turn w)) /\ isometry east_west.
Proof. split; [exact turn_iso|exact mirror_iso]. Qed.
Example C124_case : exists s so s' so',
  let ref := mkWell s (repeat wit_cov 3) (wit_holes 3) in let off := mkWell so [mzero; mzero] (wit_holes 2) in
  let ref' := mkWell s' (map (turned_cov (turn (PI/3))) (repeat wit_cov 3)) (wit_holes 3) in
  let off' := mkWell so' (map (turned_cov (turn (PI/3))) [mzero; mzero]) (wit_holes 2) in
  let t := mkV 1000 2000 30 in
  moved_well (turn (PI/3)) t ref ref' /\ moved_well (turn (PI/3)) t off off' /\
  built s /\ built s' /\ built so /\ built so' /\ h_unit (sv_header s) = "meters"%string /\
  strictly_increasing (map st_md (sv_rows s)) /\ no_reversal s /\ no_reversal so /\ length (wit_holes 3) = length (sv_rows s) /\
  descends wit_mini /\ minimum_depths wit_opt wit_mini wit_c ref off <> [] /\ sv_nev so' <> sv_nev so.
Proof.
  destruct (wit_ref "meters" (or_introl eq_refl)) as (s & HS & RS & NS). destruct (wit_off "meters" (or_introl eq_refl)) as (so & HO & RO & NO).
  destruct (survey_turned (PI/3) (mkV 1000 2000 30) _ _ _ _ _ _ _ vzero HS) as (s' & HS' & MS & _).
  destruct (survey_turned (PI/3) (mkV 1000 2000 30) _ _ _ _ _ _ _ vzero HO) as (so' & HO' & MO & _).
  exists s, so, s', so'. cbv zeta.
  split; [split; auto|]. split; [split; auto|].
  split; [do 6 eexists; exact HS|]. split; [do 6 eexists; exact HS'|]. split; [do 6 eexists; exact HO|]. split; [do 6 eexists; exact HO'|].
  split; [apply Survey_inv in HS; destruct HS as (U & H & _); rewrite H; reflexivity|].
  split; [rewrite RS; cbn; repeat constructor; lra|].
  assert (Z : forall inc azi, get_dogleg inc azi inc azi = 0) by (intros; apply dogleg_0_iff; reflexivity). pose proof PI_RGT_0 as PP.
  split. { intros i a b A B. rewrite RS in A, B. destruct i as [|[|i]]; cbn in A, B; try (destruct i; discriminate);
    injection A as <-; injection B as <-; cbn [st_inc st_azi]; rewrite Z; exact PP. }
  split. { intros i a b A B. rewrite RO in A, B. destruct i as [|i]; cbn in A, B; try (destruct i; discriminate);
    injection A as <-; injection B as <-; cbn [st_inc st_azi]; rewrite Z; exact PP. }
  split; [rewrite RS; reflexivity|]. split; [exact wit_mini_ok|]. split.
  - pose proof (wit_found "meters" s so RS NS HO RO NO) as I. intro Y. rewrite Y in I. exact I.
  - destruct MO as (_ & _ & -> & _). rewrite NO. cbn. intro Y. injection Y as Y _ _ _ _ _.
    revert Y. unfold turn, mv, dot; cbn. pose proof (COS_bound (PI/3)). pose proof (SIN_bound (PI/3)). lra.
Qed.
