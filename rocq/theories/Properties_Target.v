(** Property theorems C147 and C148: targets; turning a plan into a survey. *)
Require Import Reals ZArith String List Bool Lra Lia.
Require Import Verif.Base Verif.M_Target Verif.Spec_Target Verif.P_Target Verif.P_Target2.
Import ListNotations.
Open Scope R_scope.

(** * C147 *)
Theorem C147_made : forall (V : Type) name n e tvd shape orientation dip (geometry : kwargs V),
  let fits keys := forall k, In k (map fst geometry) <-> In k keys in
  (forall t, Target name n e tvd shape orientation dip geometry = inl t <->
     t = mkTarget name n e tvd shape orientation dip geometry /\
     ((shape = "circle" /\ fits ["radius"]) \/ (shape = "ellipse" /\ fits ["radius_1"; "radius_2"; "res"]) \/
      (shape = "rectangle" /\ fits ["pos1"; "pos2"]))%string) /\
  (Target name n e tvd shape orientation dip geometry = inr KeyMissing <-> shape = "polygon"%string).
Proof. exact target_made. Qed.
Print Assumptions C147_made.
Theorem C147_drawn : forall (V G : Type) (circle : V3 -> V -> R -> R -> G) name n e tvd shape orientation dip (geometry : kwargs V) t,
  NoDup (map fst geometry) -> Target name n e tvd shape orientation dip geometry = inl t ->
  (shape = "circle"%string -> exists r, geometry = [("radius"%string, r)] /\ plot_data circle t = inl (circle (mkV n e tvd) r dip orientation)) /\
  (shape <> "circle"%string -> plot_data circle t = inr Unbound).
Proof. exact target_drawn. Qed.
Print Assumptions C147_drawn.
Example C147_case : exists t : target R, Target "T" 10 20 1500 "circle" 0 0 [("radius"%string, 50)] = inl t /\
  plot_data (fun p r d o => (p, r)) t = inl (mkV 10 20 1500, 50).
Proof. eexists. split; reflexivity. Qed.

(** * C148 *)
Theorem C148_raises : forall (conn surv : Type) connector target_of survey_of latlon strip steps,
  exists e, wbp_to_survey conn surv connector target_of survey_of latlon strip steps = inr e /\
    (e = NameMissing <-> (length steps < 2)%nat) /\ (e = NothingToStack <-> length steps = 2%nat) /\
    (e = NotAConnection -> (2 < length steps)%nat /\ exists l s ll, length l = (length steps - 2)%nat /\ survey_of l = Some s /\ latlon (step_position (nth 1 steps (mkWs 0 0 0 (0, 0, 0) None))) = Some ll).
Proof. exact plan_never_survey. Qed.
Print Assumptions C148_raises.
(** which legs it draws: the first starts at the second step, with its east, north
    and height read as north, east and depth; and how it fails says how far it got *)
Theorem C148_legs : forall conn surv make reach survey_of latlon strip first s r e n v,
  ws_location s = (e, n, v) ->
  let run := wbp_to_survey conn surv make reach survey_of latlon strip (first :: s :: r) in
  let joined l := legs make reach (mkV n e (- v)) (ws_md s) (ws_inc s) (ws_azi s) r l in
  (run = inr ConnectorFails <-> ~ exists l, joined l) /\
  (run = inr FirstSurveyFails <-> exists l, joined l /\ l <> [] /\ survey_of l = None) /\
  (run = inr NoLatLon <-> exists l x, joined l /\ l <> [] /\ survey_of l = Some x /\ latlon (mkV n e (- v)) = None) /\
  (run = inr NotAConnection <-> exists l x ll, joined l /\ l <> [] /\ survey_of l = Some x /\ latlon (mkV n e (- v)) = Some ll).
Proof. exact plan_legs. Qed.
Print Assumptions C148_legs.
(** three steps: two connections' ends exist, and still there is no survey *)
Example C148_case : let s md := mkWs md 0 0 (0, 0, - md) None in
  wbp_to_survey R (list R) (fun _ _ _ _ md _ _ _ => Some md) (fun c => (mkV 0 0 c, c, 0, 0)) (fun l => Some l) (fun _ => Some (0, 0)) (fun x => x)
    [s 0; s 100; s 200] = inr NotAConnection.
Proof. reflexivity. Qed.
(** a plan of two legs whose second starts where the first ended *)
Example C148_legs_case : let s md d := mkWs md 0 0 (7, 5, - md) d in
  legs (fun p m _ _ md _ _ k => Some (p, m, md, k)) (fun c => let '(p, _, md, _) := c in (p, md, 0, 0))
    (mkV 5 7 100) 100 0 0 [s 200 (Some 3); s 300 (Some 0)]
    [(mkV 5 7 100, 100, 200, 3); (mkV 5 7 100, 200, 300, 1 / 100000)].
Proof.
  cbv zeta. econstructor; [left; split; [reflexivity|lra]|reflexivity|reflexivity|].
  econstructor; [right; split; [reflexivity|]|reflexivity|reflexivity|constructor].
  intros d [= <-]. lra.
Qed.
