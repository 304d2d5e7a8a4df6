(** Property theorems C24-C27, C52, C53 (welleng/error.py,
    welleng/errors/tool_errors.py).  Vocabulary: Spec.v, Spec_Error.v. *)
Require Import Reals Lra Lia Bool String List.
Require Import Verif.Base Verif.NumPy Verif.Spec Verif.M_Utils Verif.M_Error Verif.Spec_Error.
Require Import Verif.P_Error Verif.P_Error2.
Import ListNotations.
Open Scope R_scope.

(** A survey and one error vector per station, used in the examples. *)
Definition ex_survey : list station := [mkSt 0 0 0; mkSt 100 (1/2) 1; mkSt 250 1 (3/2)].
Definition ex_e : list V3 := [mkV 1 0 0; mkV 1 (1/10) 0; mkV 1 (1/10) (1/5)].

(** * C24 *)
Theorem C24_source_valid : forall d code e p given er k c,
  generate_error d code e p given = Some er ->
  length (er_e_NEV er) = length (er_e_NEV_star er) ->
  nth_error (er_cov_NEV er) k = Some c -> symmetric c /\ psd c.
Proof. exact source_valid. Qed.
Print Assumptions C24_source_valid.
Theorem C24_source_first : forall rev4 sv code e p er,
  (0 < length sv)%nat -> length e = length sv ->
  generate_error (drdp rev4 sv) code e p None = Some er ->
  length (er_cov_NEV er) = length sv /\ nth_error (er_cov_NEV er) 0 = Some mzero.
Proof. exact source_first. Qed.
Print Assumptions C24_source_first.
Theorem C24_source_first_given : forall d code e p a b er,
  length a = length b -> nth_error a 0 = Some vzero -> nth_error b 0 = Some vzero ->
  generate_error d code e p (Some (a, b)) = Some er ->
  nth_error (er_cov_NEV er) 0 = Some mzero.
Proof. exact source_first_given. Qed.
Print Assumptions C24_source_first_given.
Theorem C24_totals : forall rev4 sv l t,
  (0 < length sv)%nat -> Forall (from_generate (drdp rev4 sv) (length sv)) l ->
  tool_totals (length sv) l = Some t ->
  exists errs, l = map Some errs /\
  length (t_all t) = length sv /\ length (t_random t) = length sv /\
  length (t_systematic t) = length sv /\ length (t_global t) = length sv /\
  length (t_within_pad t) = length sv /\
  forall k, (k < length sv)%nat ->
    exists a r s g w,
      nth_error (t_all t) k = Some a /\ nth_error (t_random t) k = Some r /\
      nth_error (t_systematic t) k = Some s /\ nth_error (t_global t) k = Some g /\
      nth_error (t_within_pad t) k = Some w /\
      a = msum (map (fun e => nth k (er_cov_NEV e) mzero) errs) /\
      a = madd (madd r s) (madd g w) /\
      (symmetric a /\ psd a) /\ (symmetric r /\ psd r) /\ (symmetric s /\ psd s) /\
      (symmetric g /\ psd g) /\ (symmetric w /\ psd w).
Proof. exact totals_valid. Qed.
Print Assumptions C24_totals.
Theorem C24_json_totals : forall rev4 m sv terms t,
  (0 < length sv)%nat -> (forall x l, In x terms -> tm_dpde x = Some l -> length l = length sv) ->
  json_tool_error rev4 m sv terms = Some t ->
  forall k, (k < length sv)%nat ->
  exists a r s g w,
      nth_error (t_all t) k = Some a /\ nth_error (t_random t) k = Some r /\
      nth_error (t_systematic t) k = Some s /\ nth_error (t_global t) k = Some g /\
      nth_error (t_within_pad t) k = Some w /\
      a = madd (madd r s) (madd g w) /\
      (symmetric a /\ psd a) /\ (symmetric r /\ psd r) /\ (symmetric s /\ psd s) /\
      (symmetric g /\ psd g) /\ (symmetric w /\ psd w) /\
      (k = 0%nat -> a = mzero).
Proof. exact json_totals_valid. Qed.
Print Assumptions C24_json_totals.
Example C24_case : exists er t,
  generate_error (drdp true ex_survey) "x" ex_e "random" None = Some er /\
  length (er_e_NEV er) = length (er_e_NEV_star er) /\ length (er_cov_NEV er) = 3%nat /\
  from_generate (drdp true ex_survey) 3 (Some er) /\
  tool_totals 3 [Some er; generate_error (drdp true ex_survey) "y" ex_e "global" None] = Some t.
Proof.
  do 2 eexists. split; [reflexivity|]. split; [reflexivity|]. split; [reflexivity|]. split.
  - exists "x"%string, ex_e, "random"%string, None. split; reflexivity.
  - reflexivity.
Qed.

(** * C25 *)
Theorem C25_jacobian : forall rev4 sv k s r, nth_error sv k = Some s -> nth_error (drdp rev4 sv) k = Some r ->
  (forall p, (0 < k)%nat -> nth_error sv (k - 1) = Some p ->
     vderivative (fun t => balanced_tangential (st_md p) (st_inc p) (st_azi p) t (st_inc s) (st_azi s))
       (st_md s) (d_depth r) /\
     (exists d, vderivative (fun t => balanced_tangential (st_md p) (st_inc p) (st_azi p) (st_md s) t (st_azi s))
       (st_inc s) d /\
       d_inc r = mkV ((if rev4 then 1 else if (k =? 1)%nat then 2 else 1) * vx d) (vy d) (vz d)) /\
     vderivative (fun t => balanced_tangential (st_md p) (st_inc p) (st_azi p) (st_md s) (st_inc s) t)
       (st_azi s) (d_az r)) /\
  (forall n, nth_error sv (k + 1) = Some n ->
     vderivative (fun t => balanced_tangential t (st_inc s) (st_azi s) (st_md n) (st_inc n) (st_azi n))
       (st_md s) (d_depth1 r) /\
     vderivative (fun t => balanced_tangential (st_md s) t (st_azi s) (st_md n) (st_inc n) (st_azi n))
       (st_inc s) (d_inc1 r) /\
     vderivative (fun t => balanced_tangential (st_md s) (st_inc s) t (st_md n) (st_inc n) (st_azi n))
       (st_azi s) (d_az1 r)) /\
  (k = 0%nat -> d_depth r = vzero /\ d_inc r = vzero /\ d_az r = vzero) /\
  (nth_error sv (k + 1) = None -> d_depth1 r = vzero /\ d_inc1 r = vzero /\ d_az1 r = vzero).
Proof. exact jacobian. Qed.
Print Assumptions C25_jacobian.
Theorem C25_one_pass : forall rev4 sv, (0 < length sv)%nat ->
  map d_depth (drdp rev4 sv) = drk_dDepth sv /\
  map d_inc (drdp rev4 sv) = drk_dInc rev4 sv /\
  map d_az (drdp rev4 sv) = drk_dAz sv /\
  map d_depth1 (drdp rev4 sv) = drkplus1_dDepth sv /\
  map d_inc1 (drdp rev4 sv) = drkplus1_dInc sv /\
  map d_az1 (drdp rev4 sv) = drkplus1_dAz sv.
Proof. exact one_pass. Qed.
Print Assumptions C25_one_pass.
Theorem C25_error_vectors : forall (rev4 : bool) sv e_DIA k s e prev,
  length e_DIA = length sv ->
  nth_error sv k = Some s -> nth_error e_DIA k = Some e ->
  (0 < k)%nat -> nth_error sv (k - 1) = Some prev ->
  let extra := if rev4 then 0 else if (k =? 1)%nat
               then (st_md s - st_md prev) / 2 * cos (st_inc s) * cos (st_azi s) * vy e else 0 in
  (exists d, vderivative (moved_displacement prev s e None) 0 d /\
     nth_error (e_NEV_star (drdp rev4 sv) e_DIA) k = Some (vadd d (mkV extra 0 0))) /\
  (exists d, vderivative (moved_displacement prev s e (nth_error sv (k + 1))) 0 d /\
     nth_error (e_NEV (drdp rev4 sv) e_DIA) k = Some (vadd d (mkV extra 0 0))).
Proof. exact error_vectors. Qed.
Print Assumptions C25_error_vectors.
Example C25_case : exists s r prev next e,
  nth_error ex_survey 1 = Some s /\ nth_error (drdp false ex_survey) 1 = Some r /\
  nth_error ex_survey 0 = Some prev /\ nth_error ex_survey 2 = Some next /\
  nth_error ex_e 1 = Some e /\ length ex_e = length ex_survey.
Proof. repeat eexists. Qed.

(** * C26 *)
Theorem C26_systematic_law : forall d code e p given er k a,
  generate_error d code e p given = Some er -> p <> "random"%string ->
  length (er_e_NEV er) = length (er_e_NEV_star er) ->
  nth_error (er_e_NEV_star er) k = Some a ->
  let acc := vadd a (vsum (firstn (Nat.max 1 k) (er_e_NEV er))) in
  nth_error (er_cov_NEV er) k = Some (outer acc acc).
Proof. exact systematic_law. Qed.
Print Assumptions C26_systematic_law.
Theorem C26_random_law : forall d code e given er k a,
  generate_error d code e "random" given = Some er ->
  length (er_e_NEV er) = length (er_e_NEV_star er) ->
  nth_error (er_e_NEV_star er) k = Some a ->
  nth_error (er_cov_NEV er) k =
  Some (madd (outer a a) (msum (map (fun v => outer v v) (firstn k (er_e_NEV er))))).
Proof. exact random_law. Qed.
Print Assumptions C26_random_law.
Theorem C26_magnitude_scale : forall d code e p c er,
  generate_error d code e p None = Some er ->
  exists er', generate_error d code (map (vscale c) e) p None = Some er' /\
    er_cov_NEV er' = map (mscale (c * c)) (er_cov_NEV er).
Proof. exact magnitude_scale. Qed.
Print Assumptions C26_magnitude_scale.
Theorem C26_causality : forall rev4 sv sv' code e e' p er er' k,
  length e = length sv -> length e' = length sv' ->
  (k < length sv)%nat -> (k < length sv')%nat ->
  firstn (S k) sv = firstn (S k) sv' -> firstn (S k) e = firstn (S k) e' ->
  generate_error (drdp rev4 sv) code e p None = Some er ->
  generate_error (drdp rev4 sv') code e' p None = Some er' ->
  nth_error (er_cov_NEV er) k = nth_error (er_cov_NEV er') k.
Proof. exact causality. Qed.
Print Assumptions C26_causality.
Example C26_case : exists er er' a,
  generate_error (drdp true ex_survey) "x" ex_e "systematic" None = Some er /\
  nth_error (er_e_NEV_star er) 2 = Some a /\
  generate_error (drdp true (ex_survey ++ [mkSt 300 1 2])) "x" (ex_e ++ [mkV 1 1 1]) "systematic" None = Some er' /\
  firstn 3 (ex_survey ++ [mkSt 300 1 2]) = firstn 3 ex_survey.
Proof. do 3 eexists. repeat split. Qed.

(** * C27 *)
Theorem C27_json_fails : forall rev4 m sv terms,
  json_tool_error rev4 m sv terms = None <->
  (exists s, In s sv /\ m <= st_inc s) \/
  (exists a t b, terms = a ++ t :: b /\ tm_mode t = "Well"%string /\
     forall u, In u b -> tm_name u <> tm_name t).
Proof. exact json_fails. Qed.
Print Assumptions C27_json_fails.
Theorem C27_modes : forall d t er, call_interpreter d t = Some er ->
  er_code er = tm_name t /\
  (tm_mode t = "Random"%string -> er_propagation er = "random"%string) /\
  (tm_mode t = "Global"%string -> er_propagation er = "global"%string) /\
  (tm_mode t = "Systematic"%string -> er_propagation er = "systematic"%string) /\
  (~ In (tm_mode t) ["Random"; "Global"; "Well"]%string -> er_propagation er = "systematic"%string).
Proof. exact json_mode_law. Qed.
Print Assumptions C27_modes.
Example C27_case : json_tool_error true 2 ex_survey
  [mkTerm "a" 1 "Random" "m" None; mkTerm "b" 1 "Well" "m" None] = None /\
  json_tool_error true 2 ex_survey
  [mkTerm "a" 1 "Random" "m" None; mkTerm "b" 1 "Systematic" "m" None] <> None.
Proof.
  rewrite !json_fails. split.
  - right. exists [mkTerm "a" 1 "Random" "m" None], (mkTerm "b" 1 "Well" "m" None), [].
    split; [reflexivity|]. split; [reflexivity|]. intros u [].
  - intros [(s & H & L)|(a & t & b & H & W & _)].
    + simpl in H. destruct H as [<-|[<-|[<-|[]]]]; simpl in L; lra.
    + assert (I : In t [mkTerm "a" 1 "Random" "m" None; mkTerm "b" 1 "Systematic" "m" None])
        by (rewrite H; apply in_app_iff; simpl; auto).
      simpl in I. destruct I as [<-|[<-|[]]]; discriminate.
Qed.

(** * C52 *)
Theorem C52_unit_effect : forall d t er, tm_unit t = "deg.nT"%string ->
  call_interpreter d t = Some er ->
  exists er', call_interpreter d (mkTerm (tm_name t) (tm_value t) (tm_mode t) "deg/nT" (tm_dpde t)) = Some er' /\
  er_cov_NEV er' = map (mscale ((PI / 180) * (PI / 180))) (er_cov_NEV er).
Proof. exact unit_effect. Qed.
Print Assumptions C52_unit_effect.
Example C52_case : exists er, call_interpreter (drdp true ex_survey)
  (mkTerm "dbh" 5000 "Systematic" "deg.nT" (Some ex_e)) = Some er.
Proof. eexists. reflexivity. Qed.

(** * C53 *)
Theorem C53_repeated_names : forall terms,
  NoDup (map fst (json_codes terms)) /\
  (forall n t, In (n, t) (json_codes terms) <->
     exists a b, terms = a ++ t :: b /\ tm_name t = n /\ forall u, In u b -> tm_name u <> n).
Proof. exact json_codes_spec. Qed.
Print Assumptions C53_repeated_names.
Theorem C53_distinct_names : forall terms, NoDup (map tm_name terms) ->
  json_codes terms = map (fun t => (tm_name t, t)) terms.
Proof. exact json_codes_nodup. Qed.
Print Assumptions C53_distinct_names.
Example C53_case : json_codes [mkTerm "a" 1 "Random" "m" None; mkTerm "b" 2 "Random" "m" None;
                               mkTerm "a" 3 "Random" "m" None]
  = [("a"%string, mkTerm "a" 3 "Random" "m" None); ("b"%string, mkTerm "b" 2 "Random" "m" None)]
  /\ NoDup (map tm_name [mkTerm "a" 1 "Random" "m" None; mkTerm "b" 2 "Random" "m" None]).
Proof. split; [reflexivity|]. simpl. repeat constructor; simpl; intuition discriminate. Qed.
