(** Property theorems C107-C108: connecting points and turning a survey into a plan. *)
Require Import Reals ZArith Bool String List Arith Lra Lia Psatz.
Require Import Verif.Base Verif.NumPy Verif.M_Utils Verif.Spec Verif.Spec_Connector Verif.M_Connector Verif.M_Plan Verif.Spec_Extend Verif.Spec_Plan.
Require Import Verif.P_Plan Verif.P_Points.
Import ListNotations.
Local Open Scope R_scope.

(** * C107: connect_points *)
Theorem C107_connections : forall bump points v dls nev md cs,
  connect_points bump points false v dls nev md = PtOk cs ->
  let ds := match dls with SevFloat d => repeat d (List.length points) | SevOther l => l end in
  List.length cs = (Nat.min (List.length points) (List.length ds) - 1)%nat /\
  forall i c, nth_error cs i = Some c -> exists p0 u0 p u m q d,
    nth_error points 0 = Some p0 /\ points_along (in_nev nev v) u0 /\
    nth_error points i = Some p /\ nth_error points (S i) = Some q /\ nth_error ds (S i) = Some d /\
    start_of cs (in_nev nev p0) u0 md i = Some (in_nev nev p, u, m) /\ is_unit u /\
    leg (in_nev nev p) u m (in_nev nev q) d c.
Proof. exact points_connected. Qed.
Print Assumptions C107_connections.
Theorem C107_failures : forall bump points v dls nev md, let ds := match dls with SevFloat d => repeat d (List.length points) | SevOther l => l end in
  let res := connect_points bump points false v dls nev md in
  (forall cs, res <> PtOk cs) ->
  (points = [] /\ res = PtIndexError) \/
  (points <> [] /\ ds <> [] /\ v = vzero /\ res = PtNotFinite) \/
  (exists cs p u m q d p0 u0 e, res = PtConnector e /\
     connect_points bump (firstn (S (List.length cs)) points) false v dls nev md = PtOk cs /\
     nth_error points 0 = Some p0 /\ points_along (in_nev nev v) u0 /\
     nth_error points (List.length cs) = Some p /\ nth_error points (S (List.length cs)) = Some q /\
     nth_error ds (S (List.length cs)) = Some d /\
     start_of cs (in_nev nev p0) u0 md (List.length cs) = Some (in_nev nev p, u, m) /\ is_unit u /\
     ((e = AssertionError_dls /\ d <= 0) \/ (e = NaNResult /\ 0 < d /\ awkward (in_nev nev p) u (in_nev nev q) d))).
Proof. exact points_failures. Qed.
Print Assumptions C107_failures.
Theorem C107_integers : forall bump points x y z zx zy zz dls nev md,
  whole_part x zx -> whole_part y zy -> whole_part z zz ->
  connect_points bump points true (mkV x y z) dls nev md = connect_points bump points false (mkV (IZR zx) (IZR zy) (IZR zz)) dls nev md.
Proof. exact points_integers. Qed.
Print Assumptions C107_integers.
Theorem C107_integers_refuted : forall bump a r x y z d nev md, Rabs x < 1 -> Rabs y < 1 -> Rabs z < 1 ->
  connect_points bump (a :: r) true (mkV x y z) (SevFloat d) nev md = PtNotFinite.
Proof. exact points_integers_refuted. Qed.
Print Assumptions C107_integers_refuted.
Theorem C107_scalar_refuted : forall bump points v nev md d, points <> [] -> v <> vzero ->
  connect_points bump points false v (SevOther [d]) nev md = PtOk [].
Proof. exact points_scalar. Qed.
Print Assumptions C107_scalar_refuted.
(** three points given as (east, north, depth): straight down, then a turn to the north *)
Example C107_case : forall bump, exists c1 c2, connect_points bump [mkV 0 0 0; mkV 0 0 100; mkV 0 100 1000] false (mkV 0 0 1) (SevFloat 3) false 0 = PtOk [c1; c2] /\
  k_pos_target c1 = mkV 0 0 100 /\ k_pos_target c2 = mkV 100 0 1000.
Proof. exact chain_of_two. Qed.
Print Assumptions C107_case.
(** the loss of an inclined direction with integer points: 30 degrees from vertical *)
Example C107_inclined_case : Rabs (1 / 2) < 1 /\ Rabs 0 < 1 /\ Rabs (sqrt 3 / 2) < 1.
Proof.
  pose proof (sqrt_pos 3). assert (sqrt 3 < 2) by (replace 2 with (sqrt 4) by (replace 4 with (2 * 2) by ring; apply sqrt_square; lra); apply sqrt_lt_1; lra).
  split; [|split]; apply Rabs_def1; lra.
Qed.

(** * C108: survey_to_plan *)
Theorem C108_sections : forall {N C} (join : N -> nat -> option C) score ends first n tol d cs, (3 <= n)%nat ->
  survey_to_plan join score ends first n tol d = PlanOk cs ->
  exists ts, planned join score ends tol n 0 first cs ts /\ rising ts /\ (forall t, In t ts -> (2 <= t)%nat) /\
    List.last ts 0%nat = (n - 1)%nat /\ (List.length cs < n)%nat.
Proof. exact @plan_sections. Qed.
Print Assumptions C108_sections.
Theorem C108_outcome : forall {N C} (join : N -> nat -> option C) score ends first n tol d,
  (d <= 0 -> survey_to_plan join score ends first n tol d = PlanAssertion) /\
  (0 < d -> n = 0%nat -> survey_to_plan join score ends first n tol d = PlanIndexError) /\
  (0 < d -> n = 1%nat -> survey_to_plan join score ends first n tol d = match join first 0%nat with Some c => PlanOk [c] | None => PlanRaised end) /\
  (0 < d -> n = 2%nat -> survey_to_plan join score ends first n tol d = PlanUnbound) /\
  (0 < d -> (3 <= n)%nat -> (forall a j, join a j <> None) -> exists cs, survey_to_plan join score ends first n tol d = PlanOk cs).
Proof. exact @plan_outcome. Qed.
Print Assumptions C108_outcome.
Theorem C108_first_jump : forall {N C} (join : N -> nat -> option C) score tol n s a t next, (s + 4 < n)%nat ->
  jumps tol (Some 0) (fit join score s a (s + 2)) -> runs_to tol (fit join score s a) n s t next -> t = (s + 2)%nat /\ next = (s + 1)%nat.
Proof. exact @plan_first_jump. Qed.
Print Assumptions C108_first_jump.
Theorem C108_fit_refuted : forall M tol d, 0 < tol -> 0 < d ->
  exists (join : nat -> nat -> option nat) score ends c, survey_to_plan join score ends 0%nat 3 tol d = PlanOk [c] /\
    (forall s j, exists x, score c s j = Some x) /\ join 0%nat 2%nat = Some c /\ score c 0%nat 2%nat = Some M.
Proof. exact plan_fit_refuted. Qed.
Print Assumptions C108_fit_refuted.
(** eight stations, with a score that jumps once at station 3 *)
Example C108_case : survey_to_plan (fun _ j => Some j) (fun _ _ j => Some (if (3 <=? j)%nat then 1 else 0)) (fun c => c) 0%nat 8 (1 / 2) 1
  = PlanOk [2; 4; 5; 7]%nat.
Proof.
  assert (A : over (1 / 2) (Some 0) (Some 1) = true) by (unfold over; destruct (Rle_dec _ _) as [|N]; auto; destruct N; rewrite Rabs_right; lra).
  assert (B : over (1 / 2) (Some 0) (Some 0) = false) by (unfold over; destruct (Rle_dec _ _) as [N|]; auto; rewrite Rabs_right in N; lra).
  assert (C : over (1 / 2) (Some 1) (Some 1) = false) by (unfold over; destruct (Rle_dec _ _) as [N|]; auto; rewrite Rabs_right in N; lra).
  unfold survey_to_plan. destruct (Rlt_dec 0 1); [|lra]. cbn -[over Rdiv]. repeat (rewrite ?A, ?B, ?C; cbn -[over Rdiv]). reflexivity.
Qed.
