(** Property theorems C150: connections and plans in another frame. *)
Require Import Reals ZArith Bool String List Lra.
Require Import Verif.Base Verif.NumPy Verif.Spec Verif.M_Utils Verif.M_Torque Verif.M_Connector Verif.M_Connector2 Verif.P_Connector5
  Verif.Spec_Frames Verif.Spec_Replan Verif.P_Replan Verif.P_Replan2.
Import ListNotations.
Local Open Scope R_scope.

(** * C150 *)
Theorem C150_connection : forall w t bump a, ~ no_azimuth a -> (forall q, a_pos2 a = Some q -> alike w t bump a q) ->
  connector (mv (turn w) bump) (turned_args w t a) = turned_outcome w t (connector bump a).
Proof. exact connector_turned. Qed.
Print Assumptions C150_connection.
Theorem C150_plan : forall w t cs s,
  from_connections (map (turned_conn w t) cs) s
  = option_map (map (fun r => ((fst (fst r), mv (turn w) (snd (fst r))), snd r))) (from_connections cs s).
Proof. exact plan_turned. Qed.
Print Assumptions C150_plan.
Theorem C150_survey : forall w t dls sn l step,
  interpolate_survey dls (moved (turn w) t sn) (turned_stations w l) step
  = option_map (map (fun r => ((fst (fst r), mv (turn w) (snd (fst r))), snd r))) (interpolate_survey dls sn l step).
Proof. exact survey_replan. Qed.
Print Assumptions C150_survey.
Theorem C150_batch : forall Q t p u q r, isometry Q ->
  solve_curve_hold (moved Q t p) (mv Q u) (moved Q t q) r = option_map (moved_batch Q t) (solve_curve_hold p u q r).
Proof. exact batch_moved. Qed.
Print Assumptions C150_batch.
Theorem C150_origin_refuted : exists a t c c', is_unit (start_vec a) /\ a_pos2 a = Some (vadd (a_pos1 a) (mkV 30 3 0)) /\
  connector vzero a = inl c /\ connector vzero (turned_args 0 t a) = inl c' /\
  a_md1 a < k_md_target c /\ k_md_target c' = a_md1 a.
Proof. exact origin_matters. Qed.
Print Assumptions C150_origin_refuted.
Theorem C150_north_refuted : exists a w, check_args a = None /\ no_azimuth a /\
  target_vec (turned_args w vzero a) = target_vec a /\ target_vec a <> mv (turn w) (target_vec a).
Proof. exact north_matters. Qed.
Print Assumptions C150_north_refuted.
Example C150_case : let a := plain (mkV 40 0 80) 1 in let t := mkV 100 100 0 in
  ~ no_azimuth a /\ (forall q, a_pos2 a = Some q -> alike (PI / 2) t vzero a q) /\
  exists c, connector vzero a = inl c /\ connector (mv (turn (PI / 2)) vzero) (turned_args (PI / 2) t a) = inl (turned_conn (PI / 2) t c).
Proof. exact replan_sample. Qed.
