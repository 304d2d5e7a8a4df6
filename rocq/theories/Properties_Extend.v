(** Property theorems C105-C106: dropping off to an inclination and extending to
    a depth. *)
Require Import Reals ZArith Bool String List Lra Lia Psatz.
Require Import Verif.Base Verif.NumPy Verif.Spec Verif.Spec_Rates Verif.M_Utils Verif.M_Connector Verif.M_Extend Verif.Spec_Extend.
Require Import Verif.P_Extend Verif.P_Extend2 Verif.P_Extend3 Verif.P_Extend5 Verif.P_Extend7 Verif.P_Extend8.
Import ListNotations.
Local Open Scope R_scope.

(** * C105: drop_off *)
Theorem C105_success : forall mini ti dls d n tol p u m inc azi, starts n p u m -> bears u inc azi -> 0 <= tol ->
  (dls = 0 -> drop_off mini ti dls d n tol = DropNotFinite) /\
  (0 < dls -> ((exists l, drop_off mini ti dls d n tol = DropNodes l) <-> (forall L, d = Some L -> 0 <= L)) /\
              ((exists l, drop_off mini ti dls d n tol = DropNodes l) \/ drop_off mini ti dls d n tol = DropValueError)).
Proof. exact drop_success. Qed.
Print Assumptions C105_success.
Theorem C105_nodes : forall mini ti dls d n tol l p u m inc azi, keeps_bounds mini -> 0 < dls -> 0 <= tol ->
  starts n p u m -> bears u inc azi -> drop_off mini ti dls d n tol = DropNodes l ->
  let r := dls_radius dls in
  exists t v p2 node2, 0 <= t <= 2 * PI /\ (v = direction_nev (inc + t) azi \/ v = direction_nev (inc - t) azi) /\
    circular_arc p u (r * t) t p2 v /\ describes node2 p2 v (m + r * t) /\
    (forall L, d = Some L -> r * t <= L) /\
    ((l = [node2] /\ forall L, d = Some L -> L - r * t <= tol) \/
     (exists L node3, d = Some L /\ tol < L - r * t /\ l = [node2; node3] /\
        describes node3 (vadd p2 (vscale (L - r * t) v)) v (m + L))).
Proof. exact drop_nodes. Qed.
Print Assumptions C105_nodes.
Theorem C105_best : forall mini ti dls d n tol l p u m inc azi, finds_best mini -> 0 < dls -> 0 <= tol -> 0 <= ti <= 180 ->
  starts n p u m -> bears u inc azi -> drop_off mini ti dls d n tol = DropNodes l ->
  let D := Rmin (2 * PI) (match d with None => 2 * PI | Some L => L / dls_radius dls end) in
  forall k q v m', In k l -> describes k q v m' -> angle_between down v (inc + nearest_within D (radians ti - inc)).
Proof. exact drop_best. Qed.
Print Assumptions C105_best.
Theorem C105_attainable : forall ti dls d n tol p u m inc azi, 0 < dls -> 0 <= tol -> 0 <= ti <= 180 ->
  (forall L, d = Some L -> 0 <= L) -> starts n p u m -> bears u inc azi ->
  ((exists mini l k q v m', keeps_bounds mini /\ drop_off mini ti dls d n tol = DropNodes l /\ In k l /\
      describes k q v m' /\ angle_between down v (radians ti)) <->
   (forall L, d = Some L -> dls_radius dls * Rabs (radians ti - inc) <= L)).
Proof. exact drop_attainable. Qed.
Print Assumptions C105_attainable.
Theorem C105_shortest_refuted :
  exists short long k u k1 p1 v1 k2 p2 v2, finds_best short /\ finds_best long /\
    starts (Some k) vzero u 0 /\ bears u (PI / 6) 0 /\
    drop_off short 0 3 None (Some k) (1 / 100000) = DropNodes [k1] /\ describes k1 p1 v1 300 /\ angle_between down v1 0 /\
    drop_off long 0 3 None (Some k) (1 / 100000) = DropNodes [k2] /\ describes k2 p2 v2 3300 /\ angle_between down v2 0.
Proof. exact drop_shortest_refuted. Qed.
Print Assumptions C105_shortest_refuted.
Theorem C105_negative_refuted :
  exists mini k u k1 p1 v1, finds_best mini /\ starts (Some k) vzero u 0 /\ bears u (PI / 6) 0 /\
    drop_off mini 0 (-3) None (Some k) (1 / 100000) = DropNodes [k1] /\ describes k1 p1 v1 (-300) /\ angle_between down v1 0.
Proof. exact drop_negative_refuted. Qed.
Print Assumptions C105_negative_refuted.
(** the documented example: 30 degrees to vertical at 3 degrees per 30 m, from a
    node with no depth, with 100 m and with 1000 m to do it in *)
Example C105_case : exists mini k u l1 l2, finds_best mini /\ starts (Some k) vzero u 0 /\ bears u (PI / 6) 0 /\ n_md k = None /\
  drop_off mini 0 3 (Some 100) (Some k) (1 / 100000) = DropNodes l1 /\
  drop_off mini 0 3 (Some 1000) (Some k) (1 / 100000) = DropNodes l2 /\
  ~ (dls_radius 3 * Rabs (radians 0 - PI / 6) <= 100) /\ dls_radius 3 * Rabs (radians 0 - PI / 6) <= 1000.
Proof.
  pose proof PI_RGT_0 as HP. set (u := direction_nev (PI / 6) 0).
  set (k := mkNode (Some vzero) None (Some u) None None None None).
  assert (ST : starts (Some k) vzero u 0) by (repeat split).
  assert (B : bears u (PI / 6) 0) by (apply bears_at; lra).
  assert (RA : dls_radius 3 * Rabs (radians 0 - PI / 6) = 300).
  { rewrite radius_3. unfold radians. rewrite Rabs_left by lra. field. lra. }
  destruct (drop_success least 0 3 (Some 100) (Some k) (1 / 100000) vzero u 0 (PI / 6) 0 ST B) as [_ H1]; [lra|].
  destruct (drop_success least 0 3 (Some 1000) (Some k) (1 / 100000) vzero u 0 (PI / 6) 0 ST B) as [_ H2]; [lra|].
  destruct (proj2 (proj1 (H1 ltac:(lra)))) as [l1 E1]; [intros L E; injection E as <-; lra|].
  destruct (proj2 (proj1 (H2 ltac:(lra)))) as [l2 E2]; [intros L E; injection E as <-; lra|].
  exists least, k, u, l1, l2. split; [apply least_finds|]. do 5 (split; auto). rewrite RA. lra.
Qed.

(** * C106: extend_to_tvd *)
Theorem C106_straight : forall bump mini2 mini1 target k delta dls p u m, finds_best1 mini1 ->
  n_pos_nev k = Some p -> n_vec_nev k = Some u -> m = or_default (n_md k) 0 -> is_unit u -> vz u <> 0 ->
  (forall d, dls = Some d -> 0 < d) ->
  let x := (target - vz p) / vz u in let res := extend_to_tvd bump mini2 mini1 target (Some k) delta None dls in
  (0 < x -> exists c, res = ExtOk [c] /\ k_method c = Hold /\ k_pos1 c = p /\ k_vec1 c = u /\ k_md1 c = m /\
     k_pos_target c = vadd p (vscale x u) /\ vz (k_pos_target c) = target /\ k_vec_target c = u /\ k_md_target c = m + x) /\
  (x <= 0 -> dls = None -> res = ExtConnector ValueError_dls) /\
  (x <= 0 -> dls <> None -> exists c, res = ExtOk [c] /\ k_pos1 c = p /\ k_vec1 c = u /\ k_md1 c = m /\
     k_pos_target c = p /\ k_vec_target c = u /\ k_md_target c = m).
Proof. exact extend_straight. Qed.
Print Assumptions C106_straight.
Theorem C106_missing : forall bump mini2 mini1 target n delta ti dls,
  match n with None => True | Some k => n_pos_nev k = None \/ n_vec_nev k = None end ->
  (n = None -> extend_to_tvd bump mini2 mini1 target n delta ti dls = ExtTypeError) /\
  (ti = None -> extend_to_tvd bump mini2 mini1 target n delta ti dls = ExtTypeError) /\
  forall cs, extend_to_tvd bump mini2 mini1 target n delta ti dls <> ExtOk cs.
Proof. exact extend_missing. Qed.
Print Assumptions C106_missing.
Theorem C106_connections : forall bump mini2 mini1 target k delta ti dls cs p u m inc azi, keeps_bounds mini2 ->
  n_pos_nev k = Some p -> n_vec_nev k = Some u -> m = or_default (n_md k) 0 -> bears u inc azi ->
  (forall d, dls = Some d -> 0 < d) ->
  extend_to_tvd bump mini2 mini1 target (Some k) delta (Some ti) dls = ExtOk cs ->
  let r := dls_radius (or_default dls (5 / 2)) in
  exists L t v p2, 0 <= t <= 2 * PI /\ (v = direction_nev (inc + t) azi \/ v = direction_nev (inc - t) azi) /\
    circular_arc p u (r * t) t p2 v /\ r * t <= L /\
    (t < PI ->
      exists c1, k_method c1 = MinCurve /\ k_pos1 c1 = p /\ k_vec1 c1 = u /\ k_md1 c1 = m /\
        k_pos_target c1 = p2 /\ k_vec_target c1 = v /\ k_md_target c1 = m + r * t /\
        ((cs = [c1] /\ L - r * t <= 1 / 100000) \/
         exists c2, cs = [c1; c2] /\ 1 / 100000 < L - r * t /\ k_method c2 = Hold /\
           k_pos1 c2 = p2 /\ k_vec1 c2 = v /\ k_md1 c2 = m + r * t /\
           k_pos_target c2 = vadd p2 (vscale (L - r * t) v) /\ k_vec_target c2 = v /\ k_md_target c2 = m + L)).
Proof. exact extend_curve. Qed.
Print Assumptions C106_connections.
Theorem C106_reaches : forall bump mini2 mini1 target k delta ti d p u m inc azi, finds_least mini2 -> finds_best1 mini1 ->
  0 < d -> 0 <= ti < 90 -> (forall x, delta = Some x -> 0 <= x) ->
  n_pos_nev k = Some p -> n_vec_nev k = Some u -> m = or_default (n_md k) 0 -> bears u inc azi -> 0 <= inc < PI / 2 -> vz p < target ->
  let r := dls_radius d in let tau := radians ti in let A := vz p + r * Rabs (sin tau - sin inc) in
  target <= A \/ A + 1 / 100000 * cos tau < target ->
  exists cs c, extend_to_tvd bump mini2 mini1 target (Some k) delta (Some ti) (Some d) = ExtOk cs /\
    last (map Some cs) None = Some c /\ (length cs <= 2)%nat /\ vz (k_pos_target c) = target /\
    (A + 1 / 100000 * cos tau < target -> is_unit (k_vec_target c) /\ angle_between down (k_vec_target c) tau /\
       k_md_target c = m + r * Rabs (tau - inc) + (target - A) / cos tau).
Proof. exact extend_reaches. Qed.
Print Assumptions C106_reaches.
Theorem C106_max_length_refuted : forall bump mini2,
  exists mini1 k c, finds_best1 mini1 /\ starts (Some k) vzero down 0 /\
    extend_to_tvd bump mini2 mini1 1000 (Some k) (Some 10) None (Some 3) = ExtOk [c] /\ k_md1 c = 0 /\ k_md_target c = 1000.
Proof. exact extend_max_length_refuted. Qed.
Print Assumptions C106_max_length_refuted.
Theorem C106_over_half_turn_refuted : forall bump,
  exists mini2 mini1 k u target c1 c2, finds_best mini2 /\ finds_best1 mini1 /\ starts (Some k) vzero u 0 /\ bears u (PI / 6) 0 /\ 0 < target /\ extend_to_tvd bump mini2 mini1 target (Some k) None (Some 0) (Some 3) = ExtOk [c1; c2] /\ vz (k_pos_target c2) = target / 2.
Proof. exact extend_over_half_turn_refuted. Qed.
Print Assumptions C106_over_half_turn_refuted.
(** the hypotheses of C106_reaches hold, and give the answer, for 30 degrees to
    vertical and a depth of 1000 m *)
Example C106_case : forall bump, exists mini2 mini1 k u cs c, finds_least mini2 /\ finds_best1 mini1 /\
  starts (Some k) vzero u 0 /\ bears u (PI / 6) 0 /\
  vz vzero + dls_radius 3 * Rabs (sin (radians 0) - sin (PI / 6)) + 1 / 100000 * cos (radians 0) < 1000 /\
  extend_to_tvd bump mini2 mini1 1000 (Some k) None (Some 0) (Some 3) = ExtOk cs /\ last (map Some cs) None = Some c /\
  vz (k_pos_target c) = 1000 /\ k_md_target c = 1300 - 900 / PI.
Proof.
  intros bump. pose proof PI_RGT_0 as HP. pose proof PI2_3_2 as P3.
  assert (B : bears (direction_nev (PI / 6) 0) (PI / 6) 0) by (apply bears_at; lra).
  assert (R0 : radians 0 = 0) by (unfold radians; ring).
  assert (HA : vz vzero + dls_radius 3 * Rabs (sin (radians 0) - sin (PI / 6)) = 900 / PI).
  { rewrite R0, sin_0, sin_PI6, radius_3. rewrite Rabs_left by lra. cbn. field. lra. }
  assert (HB : 900 / PI < 300). { apply Rmult_lt_reg_r with PI; auto. replace (900 / PI * PI) with 900 by (field; lra). lra. }
  destruct (extend_reaches bump least (preferring1 0) 1000 node_30 None 0 3 vzero (direction_nev (PI / 6) 0) 0 (PI / 6) 0)
    as (cs & c & E & L & _ & Z & Q); auto; try lra.
  - apply least_finds.
  - apply preferring1_best.
  - intros x Y. discriminate Y.
  - cbn. lra.
  - right. rewrite HA, R0, cos_0. lra.
  - exists least, (preferring1 0), node_30, (direction_nev (PI / 6) 0), cs, c.
    split; [apply least_finds|]. split; [apply preferring1_best|]. split; [apply starts_at|]. split; auto.
    rewrite HA, R0, cos_0 in *. split; [lra|]. do 3 (split; auto). destruct Q as (_ & _ & ->); [lra|].
    rewrite radius_3. rewrite Rabs_left by lra. field. lra.
Qed.
