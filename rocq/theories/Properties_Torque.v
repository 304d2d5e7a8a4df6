(** Property theorems C20, C21, C38, C55-C58 (welleng/torque_drag.py, welleng/fluid.py). *)
Require Import Reals Lra Lia Bool String List.
Require Import Verif.Base Verif.NumPy Verif.M_Architecture Verif.Spec_Strings Verif.P_Strings Verif.P_Strings2.
Require Import Verif.M_Torque Verif.Spec_Torque Verif.P_Torque Verif.P_Torque2 Verif.M_Fluid Verif.P_Fluid.
Import ListNotations.
Open Scope R_scope.

(** * C20 *)
Theorem C20_balance : forall n inc_avg inc_delta azi_delta weight mu radius index wob tob overpull tension torque,
  (0 < n)%nat ->
  length (firstn index inc_avg) = n -> length (firstn index inc_delta) = n -> length (firstn index azi_delta) = n ->
  length weight = n -> length (firstn index mu) = n -> length radius = n ->
  get_forces_and_torsion inc_avg inc_delta azi_delta weight mu radius index wob tob overpull = Some (tension, torque) ->
  exists S : list (V3 * R), length S = n /\
    In ((if Req_EM_T overpull 0 then "pickup" else "overpull")%string, map (fun x => vx (fst x)) S) tension /\
    In ((if Req_EM_T wob 0 then "slackoff" else "sliding")%string, map (fun x => vy (fst x)) S) tension /\
    In ((if Req_EM_T wob 0 then "rotating" else "drilling")%string, map (fun x => vz (fst x)) S) tension /\
    torque = [((if Req_EM_T wob 0 then "rotating" else "drilling")%string, map snd S)] /\
    nth_error S (n - 1) = Some (mkV overpull (- wob) (- wob), tob) /\
    (wob = 0 <-> tob = 0) /\
    forall k a, nth_error S (k + 1) = Some a ->
      exists b inc dinc dazi w m r,
        nth_error S k = Some b /\ nth_error inc_avg (k + 1) = Some inc /\ nth_error inc_delta (k + 1) = Some dinc /\
        nth_error azi_delta (k + 1) = Some dazi /\ nth_error weight (k + 1) = Some w /\
        nth_error mu (k + 1) = Some m /\
        nth_error radius (n - 1 - (k + 1)) = Some r /\
        balance inc dinc dazi w m r a b.
Proof. exact soft_string. Qed.
Print Assumptions C20_balance.
Theorem C20_order : forall n inc_avg inc_delta azi_delta weight mu radius index wob tob overpull tension torque,
  (0 < n)%nat ->
  length (firstn index inc_avg) = n -> length (firstn index inc_delta) = n -> length (firstn index azi_delta) = n ->
  length weight = n -> length (firstn index mu) = n -> length radius = n ->
  Forall (fun x => 0 <= x) mu -> 0 <= overpull + wob ->
  get_forces_and_torsion inc_avg inc_delta azi_delta weight mu radius index wob tob overpull = Some (tension, torque) ->
  exists pickup slackoff rotating,
    In ((if Req_EM_T overpull 0 then "pickup" else "overpull")%string, pickup) tension /\
    In ((if Req_EM_T wob 0 then "slackoff" else "sliding")%string, slackoff) tension /\
    In ((if Req_EM_T wob 0 then "rotating" else "drilling")%string, rotating) tension /\
    forall k, (k < n)%nat -> exists p s r, nth_error pickup k = Some p /\ nth_error slackoff k = Some s /\
      nth_error rotating k = Some r /\ s <= r <= p.
Proof. exact soft_order. Qed.
Print Assumptions C20_order.
Theorem C20_torque : forall n inc_avg inc_delta azi_delta weight mu radius index wob tob overpull tension torque,
  (0 < n)%nat ->
  length (firstn index inc_avg) = n -> length (firstn index inc_delta) = n -> length (firstn index azi_delta) = n ->
  length weight = n -> length (firstn index mu) = n -> length radius = n ->
  Forall (fun x => 0 <= x) mu -> Forall (fun x => 0 <= x) radius ->
  get_forces_and_torsion inc_avg inc_delta azi_delta weight mu radius index wob tob overpull = Some (tension, torque) ->
  exists key tq, torque = [(key, tq)] /\ length tq = n /\ nth_error tq (n - 1) = Some tob /\
    forall k a b, nth_error tq k = Some a -> nth_error tq (k + 1) = Some b -> b <= a.
Proof. exact soft_torque. Qed.
Print Assumptions C20_torque.
Theorem C20_frictionless : forall n inc_avg inc_delta azi_delta weight mu radius index tension torque,
  (0 < n)%nat ->
  length (firstn index inc_avg) = n -> length (firstn index inc_delta) = n -> length (firstn index azi_delta) = n ->
  length weight = n -> length (firstn index mu) = n -> length radius = n ->
  Forall (fun x => x = 0) mu ->
  get_forces_and_torsion inc_avg inc_delta azi_delta weight mu radius index 0 0 0 = Some (tension, torque) ->
  exists T, In ("pickup"%string, T) tension /\ In ("slackoff"%string, T) tension /\ In ("rotating"%string, T) tension /\
    torque = [("rotating"%string, repeat 0 n)] /\ nth_error T (n - 1) = Some 0 /\
    forall k t, nth_error T (k + 1) = Some t -> exists w inc, nth_error weight (k + 1) = Some w /\
      nth_error inc_avg (k + 1) = Some inc /\ nth_error T k = Some (t + w * cos inc).
Proof. exact soft_frictionless. Qed.
Print Assumptions C20_frictionless.
Theorem C20_buoyancy : forall fluid density weight,
  (density <> 0 -> exists b, buoyancy_factor fluid density = Fin b /\
     weight * b = weight - weight / density * fluid) /\
  (density = 0 -> buoyancy_factor fluid density = (if Rlt_dec fluid 0 then PInf else if Rlt_dec 0 fluid then NInf else NaN)).
Proof. exact buoyed_weight. Qed.
Print Assumptions C20_buoyancy.
(** what the balance is fed: means and differences of the angles at the two ends of
    each interval, and nothing at the first station *)
Theorem C20_angles : forall l : list R,
  length (inc_average l) = length l /\ length (delta0 l) = length l /\
  (l <> [] -> nth_error (inc_average l) 0 = Some 0 /\ nth_error (delta0 l) 0 = Some 0) /\
  forall k above below, nth_error l k = Some above -> nth_error l (S k) = Some below ->
    nth_error (inc_average l) (S k) = Some ((above + below) / 2) /\ nth_error (delta0 l) (S k) = Some (below - above).
Proof. exact prepared_angles. Qed.
Print Assumptions C20_angles.
Example C20_angles_case : nth_error (inc_average [0; 1; 3]) 2 = Some 2 /\ nth_error (delta0 [0; 1; 3]) 2 = Some 2.
Proof.
  destruct (C20_angles [0; 1; 3]) as (_ & _ & _ & H). destruct (H 1%nat 1 3 eq_refl eq_refl) as [A B].
  rewrite A, B. split; f_equal; lra.
Qed.
Example C20_case : exists tension torque,
  get_forces_and_torsion (inc_average [0; 1/2; 1]) (delta0 [0; 1/2; 1]) (delta0 [1; 1; 2]) [0; 100; 100] [1/5; 1/5; 1/4] [1/10; 1/10; 1/10] 3 50 10 20
    = Some (tension, torque)
  /\ Forall (fun x => 0 <= x) [1/5; 1/5; 1/4] /\ 0 <= 20 + 50.
Proof.
  destruct (get_forces_and_torsion (inc_average [0; 1/2; 1]) (delta0 [0; 1/2; 1]) (delta0 [1; 1; 2]) [0; 100; 100] [1/5; 1/5; 1/4] [1/10; 1/10; 1/10] 3 50 10 20) as [[t q]|] eqn:E.
  - exists t, q. split; auto. split. repeat constructor; lra. lra.
  - unfold get_forces_and_torsion, truthy_R in E.
    destruct (Req_EM_T 50 0); [lra|]. destruct (Req_EM_T 10 0); [lra|]. simpl in E. discriminate.
Qed.

(** * C21 *)
Theorem C21_never_constructed : forall A c m top bottom calls s wb prepare (forces : list R -> list R -> A + td_exn),
  reached anything (new_str c m top bottom) calls s ->
  exists e, torque_drag_init prepare wb s forces = inr e /\
    (a_complete wb = true -> a_complete s = true -> prepare = None -> e = Raised TypeError).
Proof. exact torque_drag_fails. Qed.
Print Assumptions C21_never_constructed.
Example C21_case : exists s, reached anything (new_str BHA BottomUp 0 100)
  [mkSec None None (Some 30) [("od"%string, PNum 1)]; mkSec None None (Some 90) [("od"%string, PNum 2)]] s
  /\ a_complete s = true.
Proof.
  assert (F : Forall2 (sized_call BHA)
    [mkSec None None (Some 30) [("od"%string, PNum 1)]; mkSec None None (Some 90) [("od"%string, PNum 2)]] [30; 90]).
  { repeat constructor; simpl; try lra; try discriminate; auto. }
  destruct (built_by_lengths BHA 0 100 _ _ ltac:(lra) F) as (s & R & C & _).
  exists s. split; auto. apply C. simpl. lra.
Qed.

(** * C55: the torque at a station uses the contact radius of the mirrored one *)
Theorem C55_own_radius_refuted : exists weight mu radius tension torque tq t1 t2,
  get_forces_and_torsion [0; PI/2; PI/2] [0; 0; 0] [0; 0; 0] weight mu radius 3 0 0 0 = Some (tension, torque) /\
  weight = [0; 1; 1] /\ mu = [1; 1; 1] /\ radius = [1; 1; 2] /\
  torque = [("rotating"%string, tq)] /\ nth_error tq 1 = Some t1 /\ nth_error tq 2 = Some t2 /\
  t1 - t2 = 1 /\ 1 * side_force 0 (PI/2) 0 0 1 * 2 = 2.
Proof. exact own_radius_refuted. Qed.
Print Assumptions C55_own_radius_refuted.

(** * C56 *)
Theorem C56_shift : forall c azi, delta0 (map (fun a => a + c) azi) = delta0 azi.
Proof. exact azi_delta_shift. Qed.
Print Assumptions C56_shift.
Theorem C56_north_crossing : forall a d inc dinc t w, 0 <= a < 2 * PI -> 0 < d < PI -> 2 * PI <= a + d ->
  t <> 0 -> sin inc <> 0 ->
  delta0 [a; rmod (a + d) (2 * PI)] = [0; d - 2 * PI] /\
  force_normal1 t inc dinc d w < force_normal1 t inc dinc (d - 2 * PI) w.
Proof. exact north_crossing. Qed.
Print Assumptions C56_north_crossing.
Example C56_case : 0 <= 6 < 2 * PI /\ 0 < 1 < PI /\ 2 * PI <= 6 + 1 /\ sin (PI / 2) <> 0.
Proof.
  pose proof PI2_3_2. pose proof PI_4. rewrite sin_PI2.
  assert (PI <= 7/2).
  { pose proof (PI_ineq 1) as [_ P]. unfold tg_alt, PI_tg in P. simpl in P. lra. }
  lra.
Qed.

(** * C57 *)
Theorem C57_depths : forall top bottom step, 0 < step -> top < bottom ->
  let l := md_range top bottom step in
  (forall md, In md l -> top < md <= bottom) /\
  last l 0 = bottom /\
  (forall k a b, nth_error l k = Some a -> nth_error l (k + 1) = Some b -> 0 < b - a <= step) /\
  (exists a, nth_error l 0 = Some a /\ a <= top + step).
Proof. exact hookload_depths. Qed.
Print Assumptions C57_depths.
Theorem C57_friction : forall start stop step, 0 < step ->
  let l := ff_range start stop step in
  last l 0 = stop /\ (forall x, In x l -> start <= x <= stop \/ x = stop) /\ (forall k a b, nth_error l k = Some a -> nth_error l (k + 1) = Some b -> 0 < b - a <= step) /\ (start < stop -> nth_error l 0 = Some start).
Proof. exact friction_factors. Qed.
Print Assumptions C57_friction.
Example C57_case : 0 < 30 /\ 0 < 100.
Proof. lra. Qed.

(** * C38 *)
Theorem C38_density : forall m d, weighting_density m = Some d <->
  (lower m = "barite"%string /\ d = 35) \/ (lower m = "spe_11118"%string /\ d = 24).
Proof. exact weighting_table. Qed.
Print Assumptions C38_density.
Theorem C38_sum : forall rho T P ratio material f, make_fluid rho T P ratio material = inl f ->
  f_water f + f_oil f + f_wm f = 1.
Proof. exact fractions. Qed.
Print Assumptions C38_sum.
Theorem C38_nonnegative : forall rho T P ratio material f, make_fluid rho T P ratio material = inl f ->
  base_density ratio T P <= rho -> 0 <= ratio <= 1 ->
  0 <= f_water f /\ 0 <= f_oil f /\ 0 <= f_wm f.
Proof. exact fractions_pos. Qed.
Print Assumptions C38_nonnegative.
Theorem C38_recombined : forall rho T P ratio material f d, make_fluid rho T P ratio material = inl f ->
  weighting_density material = Some d -> 0 < rho -> base_density ratio T P <= rho ->
  let mix := f_water f * water_density T P + f_oil f * oil_density T P + f_wm f * d in
  mix = rho / (1 + (rho - base_density ratio T P) / d) /\
  (mix = rho <-> rho = base_density ratio T P) /\
  (base_density ratio T P < rho -> mix < rho).
Proof. exact recombined. Qed.
Print Assumptions C38_recombined.
Theorem C38_fails : forall rho T P ratio material,
  (make_fluid rho T P ratio material = inr BadMaterial <-> weighting_density material = None) /\
  (make_fluid rho T P ratio material = inr ZeroDivision <->
   exists d, weighting_density material = Some d /\ rho = base_density ratio T P - d).
Proof. exact fluid_fails. Qed.
Print Assumptions C38_fails.
Example C38_case : exists f, make_fluid 10 120 0 (1/10) "SPE_11118" = inl f /\ base_density (1/10) 120 0 < 10.
Proof.
  assert (B : base_density (1/10) 120 0 < 10) by (unfold base_density, water_density, oil_density; lra).
  destruct (make_fluid 10 120 0 (1/10) "SPE_11118") as [f|[]] eqn:E.
  - exists f. auto.
  - apply fluid_fails in E. discriminate.
  - apply fluid_fails in E. destruct E as (d & D & E). apply weighting_pos in D. lra.
Qed.

(** * C58 *)
Theorem C58_zero_iff_mass_balance : forall f P depth gradient rho,
  let T := f_temp f in
  let a1 := oil_density T P in let a2 := - 0.00284383 * gradient + 0.052 * 0.000027566 * rho in
  let b1 := water_density T P in let b2 := - 0.00331977 * gradient + 0.052 * 0.000023717 * rho in
  f_water f + f_oil f <> 1 ->
  0 < depth -> 0 < a1 -> 0 < b1 -> a2 <> 0 -> b2 <> 0 -> 0 < a1 + a2 * depth -> 0 < b1 + b2 * depth ->
  forall V, V 0 = 0 -> (forall z, 0 <= z <= depth -> derivable_pt_lim V z (expanded (f_water f) (f_oil f) T P gradient rho z)) ->
  (profile_objective f P depth gradient rho = 0 <-> rho * V depth = f_rho f * depth).
Proof. exact profile_zero. Qed.
Print Assumptions C58_zero_iff_mass_balance.
Theorem C58_surface : forall f P gradient rho, profile_objective f P 0 gradient rho = 0 <-> rho = f_rho f.
Proof. exact profile_surface. Qed.
Print Assumptions C58_surface.
Example C58_case : exists f V, make_fluid 10 120 0 (1/10) "SPE_11118" = inl f /\ f_water f + f_oil f <> 1 /\
  0 < oil_density 120 0 /\ 0 < water_density 120 0 /\
  0 < oil_density 120 0 + (- 0.00284383 * 0.013 + 0.052 * 0.000027566 * 10) * 5000 /\
  0 < water_density 120 0 + (- 0.00331977 * 0.013 + 0.052 * 0.000023717 * 10) * 5000 /\
  (V 0 = 0 /\ forall z, 0 <= z <= 5000 -> derivable_pt_lim V z (expanded (f_water f) (f_oil f) (f_temp f) 0 0.013 10 z)).
Proof.
  destruct C38_case as (f & E & B). exists f.
  pose proof (fluid_made _ _ _ _ _ _ E) as (d & D & N & _ & HT & W & O & M). apply weighting_pos in D.
  pose proof (fractions _ _ _ _ _ _ E) as S.
  assert (oil_density 120 0 = 6.8990604) by (unfold oil_density; lra).
  assert (water_density 120 0 = 8.2334876) by (unfold water_density; lra).
  eexists. split; [exact E|]. split; [|split; [lra|split; [lra|split; [lra|split; [lra|]]]]].
  - assert (f_wm f <> 0); [|lra]. rewrite M. set (x := (10 - base_density (1 / 10) 120 0) / d) in *.
    assert (0 < x) by (apply Rdiv_lt_0_compat; lra).
    replace (1 + x - 1) with x by ring. assert (0 < x / (1 + x)) by (apply Rdiv_lt_0_compat; lra). lra.
  - rewrite HT. split; [|apply column_deriv; lra].
    cbv beta. rewrite Rmult_0_l.
    match goal with |- context [ln ((?a + ?c * 0) / ?a)] => replace ((a + c * 0) / a) with 1 by (field; lra) end.
    match goal with |- context [ln ((?a + ?c * 0) / ?a)] => replace ((a + c * 0) / a) with 1 by (field; lra) end.
    rewrite ln_1. ring.
Qed.
