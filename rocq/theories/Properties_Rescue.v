(** C37, the first rescue pass on any state, and C122, the listed names. *)
Require Import Reals ZArith Bool String List Lra Lia.
Require Import Verif.Base Verif.NumPy Verif.Spec Verif.M_Utils Verif.M_Connector Verif.M_Connector2 Verif.Spec_Rescue.
Require Import Verif.M_Error Verif.M_Weights Verif.M_Bundle Verif.M_Models Verif.Spec_Models Verif.P_Rescue.
Import ListNotations.
Local Open Scope R_scope.

Theorem C37_first_rescue_cases : forall solve k s,
  let before := arc_radius (p_rd (s_prob s)) (s_geo s) in
  let t1 := trial solve k (g_pos2 (s_geo s)) s in
  let t2 := trial solve (S k) (vscale (1 / 2) (vadd (g_pos2 (s_geo s)) (s_target s))) (tried t1) in
  (- p_min_error (s_prob s) <= hold_length (s_geo s) -> delta_pos3_rescue solve k s = s) /\
  (hold_length (s_geo s) < - p_min_error (s_prob s) ->
     (forall g, acceptable before t1 g -> delta_pos3_rescue solve k s = set_geo t1 g) /\
     (rejected before t1 ->
        (forall g, acceptable before t2 g -> delta_pos3_rescue solve k s = set_geo t2 g) /\
        (rejected before t2 -> delta_pos3_rescue solve k s = set_geo (tried t2) (s_geo s)))).
Proof. exact first_rescue_cases. Qed.
Print Assumptions C37_first_rescue_cases.
Example C37_first_rescue_cases_case : exists g, hold_length g < - (1 / 1000).
Proof.
  exists (mkGeo (mkV 0 0 0) (mkV 0 0 (-5)) (mkV 0 0 1) (mkV 0 0 1) 0 0 0 0 0 0 0 0 0).
  unfold hold_length, dot, vsub. simpl. lra.
Qed.
Theorem C122_listed :
  (forall index name, In name (get_error_models index) <-> exists key, In (key, name) index) /\
  (forall name, accepted_name name <-> In name (get_error_models tool_index) \/ name = "ISCWSA MWD Rev5"%string).
Proof. exact error_models_listed. Qed.
Print Assumptions C122_listed.
Example C122_listed_case : exists key, In (key, "ISCWSA MWD Rev4"%string) tool_index.
Proof. apply (proj1 error_models_listed). vm_compute. tauto. Qed.
