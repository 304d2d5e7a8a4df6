(** A whole clearance run. *)
Require Import Reals ZArith Bool String List Lra Lia Psatz.
Require Import Verif.Base Verif.NumPy Verif.P_Trig Verif.Spec Verif.Spec_Lists Verif.Spec_Clearance Verif.Spec_Refine Verif.M_Utils Verif.P_Utils Verif.P_Utils2
  Verif.M_Survey Verif.P_Survey Verif.P_Survey2 Verif.P_Survey3 Verif.P_Survey5 Verif.M_Error Verif.M_Clearance Verif.P_Clearance Verif.P_Clearance2 Verif.P_Clearance3 Verif.M_MaxCurve
  Verif.M_Refine Verif.P_Refine Verif.P_Refine2 Verif.P_Refine3.
Import ListNotations.
Open Scope R_scope.

Lemma qform_interpolated : forall a b t v, qform (interpolate_cov a b t) v = (1 - t) * qform a v + t * qform b v.
Proof. intros. unfold interpolate_cov. rewrite qform_madd, qform_mscale, qform_msub. ring. Qed.

Lemma rule_of_psd : forall k spa Sm Rr Ro inc azi p q rc oc, 0 < k -> spa <> 0 -> psd rc -> psd oc ->
  exists r, iscwsa_rule k spa Sm Rr Ro inc azi p q rc oc = Some r /\
    ru_distance r = dist p q /\ ru_calc_hole r = Rr + Ro /\
    (p <> q -> exists u, points_along (vsub q p) u /\ ru_ref_pcr r * ru_ref_pcr r = qform rc u /\ ru_off_pcr r * ru_off_pcr r = qform oc u) /\
    (p = q -> ru_ref_pcr r = 0 /\ ru_off_pcr r = 0) /\ 0 <= ru_ref_pcr r /\ 0 <= ru_off_pcr r /\
    ru_sf r = Fin ((dist p q - (Rr + Ro + Sm)) / (k * sqrt (ru_ref_pcr r * ru_ref_pcr r + ru_off_pcr r * ru_off_pcr r + spa * spa))).
Proof.
  intros k spa Sm Rr Ro inc azi p q rc oc K S PR PO.
  assert (PC : exists s t, pcr (dl_ref_nev (delta_vectors inc azi p q)) rc = Some s /\ pcr (dl_off_nev (delta_vectors inc azi p q)) oc = Some t).
  { exists (sqrt (qform rc (dl_ref_nev (delta_vectors inc azi p q)))), (sqrt (qform oc (dl_off_nev (delta_vectors inc azi p q)))).
    split; apply pcr_some; [apply PR|apply PO]. }
  destruct PC as (s & t & A & B).
  destruct (iscwsa_rule k spa Sm Rr Ro inc azi p q rc oc) as [r|] eqn:RU; [|unfold iscwsa_rule in RU; rewrite A, B in RU; discriminate].
  pose proof (rule_fields _ _ _ _ _ _ _ _ _ _ _ _ RU) as (D & NR & NO & E & _ & _ & _ & SF).
  assert (PQ : ru_ref_pcr r = s /\ ru_off_pcr r = t /\ ru_calc_hole r = Rr + Ro).
  { unfold iscwsa_rule in RU. rewrite A, B in RU. injection RU as <-. auto. }
  destruct PQ as (ES & ET & CH). rewrite ES in *. rewrite ET in *. exists r. split; auto. split; auto. split; auto. rewrite ES, ET. split; [|split; [|split; [|split]]]; auto.
  - intro N. destruct (delta_along inc azi p q N) as (_ & _ & AL & OP).
    exists (dl_ref_nev (delta_vectors inc azi p q)). split; auto. rewrite pcr_some in A by apply PR. rewrite pcr_some in B by apply PO.
    apply sinj in A. apply sinj in B. rewrite <- A, <- B. split; [apply sqrt_sqrt, PR|]. rewrite sqrt_sqrt by apply PO. rewrite OP. apply qform_vneg.
  - intros ->. destruct (pedal_coincide inc azi q rc) as [X _]. destruct (pedal_coincide inc azi q oc) as [_ Y]. split; congruence.
  - rewrite SF, E. unfold ediv. simpl. rewrite !Rmult_1_r.
    assert (P : 0 < k * sqrt (s * s + t * t + spa * spa)) by (apply Rmult_lt_0_compat; auto; apply sqrt_lt_R0; nra).
    destruct (Req_EM_T (k * sqrt (s * s + t * t + spa * spa)) 0); [lra|reflexivity].
Qed.

Lemma whole_run : forall h rows deg sx sn unit s cov radius ref opt c,
  Survey h rows deg sx sn unit = Some s -> strictly_increasing (map st_md (sv_rows s)) ->
  (forall i a b, nth_error (sv_rows s) i = Some a -> nth_error (sv_rows s) (S i) = Some b ->
     get_dogleg (st_inc a) (st_azi a) (st_inc b) (st_azi b) < PI) ->
  length cov = length (sv_rows s) -> length radius = length (sv_rows s) -> (forall m, In m cov -> psd m) ->
  (forall m, In m (w_cov ref) -> psd m) ->
  never_worse opt -> 0 < c_k c -> c_sigma_pa c <> 0 ->
  let run := clearance_run opt c ref (mkWell s cov radius) in
  length run = length (sv_rows (w_survey ref)) /\
  forall i a p rc rr, nth_error (sv_rows (w_survey ref)) i = Some a -> nth_error (sv_nev (w_survey ref)) i = Some p ->
    nth_error (w_cov ref) i = Some rc -> nth_error (w_radius ref) i = Some rr ->
    exists r q nd h' m b e ca cb t j o ro,
      nth_error run i = Some (Some r) /\ ru_distance r = dist p q /\
      nth_error (sv_rows s) m = Some b /\ nth_error (sv_rows s) (S m) = Some e /\ 0 <= t <= 1 /\
      survey_interpolate_md s (st_md b + t * (st_md e - st_md b)) = NodeOk nd h' /\ nd_pos nd = q /\
      nth_error (sv_nev s) j = Some o /\ (forall k o', nth_error (sv_nev s) k = Some o' -> dist p o <= dist p o') /\
      dist p q <= dist p o /\ (j = m \/ j = S m) /\
      nth_error radius j = Some ro /\ ru_calc_hole r = rr + ro /\
      nth_error cov m = Some ca /\ nth_error cov (S m) = Some cb /\
      (p <> q -> exists u, points_along (vsub q p) u /\ ru_ref_pcr r * ru_ref_pcr r = qform rc u /\
                   ru_off_pcr r * ru_off_pcr r = (1 - t) * qform ca u + t * qform cb u) /\
      (p = q -> ru_ref_pcr r = 0 /\ ru_off_pcr r = 0) /\ 0 <= ru_ref_pcr r /\ 0 <= ru_off_pcr r /\
      ru_sf r = Fin ((dist p q - (rr + ro + c_Sm c)) /
                     (c_k c * sqrt (ru_ref_pcr r * ru_ref_pcr r + ru_off_pcr r * ru_off_pcr r + c_sigma_pa c * c_sigma_pa c))).
Proof.
  intros h rows deg sx sn unit s cov radius ref opt c HS SI BO LC LR PC PR OPT HK HP run.
  split; [unfold run, clearance_run; rewrite map_length, seq_length; reflexivity|].
  intros i a p rc rr A P RC RR.
  destruct (closest_on_well _ _ _ _ _ _ _ opt p HS SI BO OPT) as (m & x & f & q & b & e & nd & h' & CP & AD & B & E & X & IN & ND & NP & FD & MIN).
  set (j := nearest_station (sv_nev s) p) in *.
  pose proof (Survey_inv _ _ _ _ _ _ _ HS) as (_ & _ & L2 & _ & _ & _ & N & _).
  assert (LN : length (sv_nev s) = length (sv_rows s)) by (rewrite N, map_length; apply mc_list_length; lia).
  destruct (nearest_first (sv_nev s) p) as (o & O & OM & _). { intro Z. rewrite Z in LN. simpl in LN. lia. } fold j in O.
  destruct (nth_error_some_lt _ radius j) as [ro RO]. { rewrite LR, <- LN. apply nth_error_Some. congruence. }
  destruct (nth_error_some_lt _ cov m) as [ca CA]. { rewrite LC. apply nth_error_Some. congruence. }
  destruct (nth_error_some_lt _ cov (S m)) as [cb CB]. { rewrite LC. apply nth_error_Some. congruence. }
  assert (LT : st_md b < st_md e). { apply (si_lt (map st_md (sv_rows s)) m (S m)); auto; rewrite nth_error_map; [rewrite B|rewrite E]; reflexivity. }
  assert (IV : interval s m = st_md e - st_md b). { unfold interval. rewrite (nth_error_nth _ _ _ B), (nth_error_nth _ _ _ E). reflexivity. }
  set (t := x / (st_md e - st_md b)).
  assert (T : 0 <= t <= 1). { unfold t. split; [apply Rmult_le_pos; [lra|left; apply Rinv_0_lt_compat; lra]|]. apply (Rmult_le_reg_r (st_md e - st_md b)); [lra|]. unfold Rdiv. rewrite Rmult_assoc, Rinv_l by lra. lra. }
  destruct (rule_of_psd (c_k c) (c_sigma_pa c) (c_Sm c) rr ro (st_inc a) (st_azi a) p q rc (interpolate_cov ca cb t) HK HP) as
    (r & RU & D & CH & U & UZ & N1 & N2 & SF).
  { apply PR. eapply nth_error_In; eauto. }
  { destruct (interpolated_cov ca cb t T) as [IP _]. apply IP; apply PC; eapply nth_error_In; eauto. }
  exists r, q, nd, h', m, b, e, ca, cb, t, j, o, ro.
  split. { unfold run, clearance_run. rewrite nth_seq_map by (apply nth_error_Some; congruence). unfold station_rule. rewrite A, P, RC, RR. cbn [w_survey w_radius w_cov]. fold j. rewrite CP, RO, CA, CB, IV. fold t. rewrite RU. reflexivity. }
  split; auto. split; auto. split; auto. split; auto.
  split. { replace (st_md b + t * (st_md e - st_md b)) with (st_md b + x); [exact IN|]. unfold t. field. lra. }
  split; auto. split; auto. split; auto. split; [apply (MIN j); auto|]. split; [unfold adjacent in AD; intuition|].
  split; auto. split; auto. split; auto. split; auto.
  split. { intro NE. destruct (U NE) as (u & U1 & U2 & U3). exists u. rewrite qform_interpolated in U3. auto. }
  split; auto.
Qed.
