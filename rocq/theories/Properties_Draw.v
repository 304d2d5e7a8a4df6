(** Property theorems C117-C120: surveys drawn from connections, projections to a
    target, the azimuth of the vertical section. *)
Require Import Reals ZArith Bool String List Lra Lia Psatz.
Require Import Verif.Base Verif.NumPy Verif.M_Utils Verif.M_Connector Verif.M_Survey Verif.M_Rates Verif.M_Draw
  Verif.Spec Verif.Spec_Lists Verif.Spec_Connector Verif.Spec_Connector2 Verif.Spec_Draw.
Require Import Verif.P_Connector2 Verif.P_Connector5 Verif.P_Draw2 Verif.P_Draw3 Verif.P_Draw4 Verif.P_Draw5 Verif.P_Draw6 Verif.P_Draw7.
Import ListNotations.
Local Open Scope R_scope.

(** * C117: the survey drawn from connections *)
Theorem C117_drawn_survey : forall h cs c step start, (h_unit h = "meters" \/ h_unit h = "feet")%string ->
  pos_step step -> joined (c :: cs) -> (forall k, In k (c :: cs) -> sound k) -> far_apart step (c :: cs) ->
  exists s, draw h (c :: cs) step start = Some s /\ sv_header s = h /\
    length (sv_nev s) = length (sv_rows s) /\ length (sv_interpolated s) = length (sv_rows s) /\
    strictly_increasing (map st_md (sv_rows s)) /\
    (forall x, In x (map st_md (sv_rows s)) <-> drawn_depth step (c :: cs) x) /\
    (forall i st p f, nth_error (sv_rows s) i = Some st -> nth_error (sv_nev s) i = Some p ->
       nth_error (sv_interpolated s) i = Some f ->
       (f = false <-> connection_end (c :: cs) (st_md st)) /\
       exists k q d, In k (c :: cs) /\ on_connection k (st_md st) q d /\
         direction_nev (st_inc st) (st_azi st) = turned (to_grid h) d /\
         p = vadd (vadd (k_pos1 c) start) (turned (to_grid h) (vsub q (k_pos1 c)))).
Proof. exact drawn_survey. Qed.
Print Assumptions C117_drawn_survey.
(** a turn, a straight piece and a leg on to 1000 m, a station every 10 m *)
Example C117_case : exists c1 c2, pos_step (Some 10) /\ joined [c1; c2] /\ (forall k, In k [c1; c2] -> sound k) /\
  far_apart (Some 10) [c1; c2].
Proof.
  destruct bit_example as (s & c1 & c2 & z & _ & _ & _ & _ & _ & J & S & _ & F & _). exists c1, c2.
  split; [intros x E; injection E as <-; lra|auto].
Qed.
(** which connections are sound *)
Theorem C117_curve_hold_sound : forall bump a c r, 0 <= a_min_error a -> is_unit (start_vec a) ->
  connector bump a = inl c -> k_method c = MinDistToTarget -> radius_design a = Some r ->
  off_axis (a_pos1 a) (start_vec a) (k_pos_target c) <> 2 * r ->
  2 * r < off_axis (a_pos1 a) (start_vec a) (k_pos_target c) \/ 0 < ahead (a_pos1 a) (start_vec a) (k_pos_target c) ->
  1 / 10000000000 <= sin (k_dogleg c) -> sound c.
Proof. exact min_dist_sound. Qed.
Print Assumptions C117_curve_hold_sound.
Example C117_curve_hold_case : exists c, let a := to_target vzero (mkV 0 0 1) 100 (only_pos (mkV 400 0 800)) in
  0 <= a_min_error a /\ is_unit (start_vec a) /\ connector vzero a = inl c /\ k_method c = MinDistToTarget /\
  radius_design a = Some (30 / radians 3) /\
  off_axis (a_pos1 a) (start_vec a) (k_pos_target c) <> 2 * (30 / radians 3) /\
  0 < ahead (a_pos1 a) (start_vec a) (k_pos_target c) /\ 1 / 10000000000 <= sin (k_dogleg c).
Proof.
  destruct project_example as (s & c & z & _ & _ & _ & _ & _ & _ & _ & _ & _ & M & A & B & C & D & E & F & G).
  exists c. cbv zeta. auto 10.
Qed.
Theorem C117_single_arc_sound : forall bump a c, is_unit (start_vec a) ->
  connector bump a = inl c -> k_method c = MinCurveToTarget ->
  ~ allclose (a_pos1 a) (k_pos_target c) ->
  0 < off_axis (a_pos1 a) (start_vec a) (k_pos_target c) ->
  (forall r, radius_design a = Some r -> tangent_circle_radius (a_pos1 a) (start_vec a) (k_pos_target c) <= r) ->
  0 < ahead (a_pos1 a) (start_vec a) (k_pos_target c) ->
  1 / 10000000000 <= sin (k_dogleg c) -> sound c.
Proof. exact single_arc_sound. Qed.
Print Assumptions C117_single_arc_sound.
Example C117_single_arc_case : exists c, let a := plain (mkV 40 0 80) (1 / 10) in connector vzero a = inl c /\ k_method c = MinCurveToTarget /\
  is_unit (start_vec a) /\ ~ allclose (a_pos1 a) (k_pos_target c) /\ 0 < off_axis (a_pos1 a) (start_vec a) (k_pos_target c) /\
  (forall r, radius_design a = Some r -> tangent_circle_radius (a_pos1 a) (start_vec a) (k_pos_target c) <= r) /\
  0 < ahead (a_pos1 a) (start_vec a) (k_pos_target c) /\ 1 / 10000000000 <= sin (k_dogleg c).
Proof. exact arc_sound_example. Qed.
Theorem C117_min_curve_sound : forall bump a c t, is_unit (start_vec a) -> is_unit (target_vec a) ->
  connector bump a = inl c -> k_method c = MinCurve ->
  angle_between (start_vec a) (target_vec a) t -> 0 < t < PI -> 1 / 10000000000 <= sin t ->
  (forall m, a_md2 a = Some m -> a_md1 a < m) -> sound c.
Proof. exact min_curve_sound. Qed.
Print Assumptions C117_min_curve_sound.
Example C117_min_curve_case : exists c v t, let a := to_bit vzero (mkV 0 0 1) 100 130 v 3 in connector vzero a = inl c /\ k_method c = MinCurve /\
  is_unit (start_vec a) /\ is_unit (target_vec a) /\ angle_between (start_vec a) (target_vec a) t /\ 0 < t < PI /\
  1 / 10000000000 <= sin t /\ forall m, a_md2 a = Some m -> a_md1 a < m.
Proof. destruct bit_example as (s & c1 & c2 & z & _ & _ & _ & _ & _ & _ & _ & _ & _ & (v & t & A) & _). exists c1, v, t. exact A. Qed.
Theorem C117_hold_sound : forall bump a c, is_unit (start_vec a) -> connector bump a = inl c -> k_method c = Hold ->
  (forall m, a_md2 a = Some m -> a_md1 a < m) ->
  (forall q, a_pos2 a = Some q -> exists x, 0 < x /\ q = vadd (a_pos1 a) (vscale x (start_vec a))) -> sound c.
Proof. exact hold_sound. Qed.
Print Assumptions C117_hold_sound.
Example C117_hold_case : exists c q v, let a := to_target q v 130 (only_md 1000) in connector vzero a = inl c /\ k_method c = Hold /\
  is_unit (start_vec a) /\ (forall m, a_md2 a = Some m -> a_md1 a < m) /\ a_pos2 a = None.
Proof. destruct bit_example as (s & c1 & c2 & z & _ & _ & _ & _ & _ & _ & _ & _ & _ & _ & (q & v & A)). exists c2, q, v. exact A. Qed.

(** * C118: turns of more than half a circle are drawn to the wrong side *)
Theorem C118_when_long : forall bump a c r, 0 <= a_min_error a -> is_unit (start_vec a) ->
  connector bump a = inl c -> k_method c = MinDistToTarget -> radius_design a = Some r ->
  off_axis (a_pos1 a) (start_vec a) (k_pos_target c) <> 2 * r ->
  (PI < k_dogleg c <-> off_axis (a_pos1 a) (start_vec a) (k_pos_target c) < 2 * r /\
                       ahead (a_pos1 a) (start_vec a) (k_pos_target c) <= 0) /\ k_dogleg c <> PI.
Proof. exact long_turn_iff. Qed.
Print Assumptions C118_when_long.
Theorem C118_wrong_side : forall bump a c r h step start s, 0 <= a_min_error a -> is_unit (start_vec a) ->
  connector bump a = inl c -> k_method c = MinDistToTarget -> radius_design a = Some r ->
  off_axis (a_pos1 a) (start_vec a) (k_pos_target c) <> 2 * r ->
  PI < k_dogleg c -> sin (k_dogleg c) <= - (1 / 10000000000) ->
  h_ref h = RefGrid -> pos_step step -> draw h [c] step start = Some s ->
  exists n, is_unit n /\ orthogonal (start_vec a) n /\ 0 <= dot n (vsub (k_pos_target c) (a_pos1 a)) /\
    k_vec_target c = arc_tangent (start_vec a) n (k_dogleg c) /\
    (forall st, In st (sv_rows s) -> st_md st < a_md1 a + r * k_dogleg c ->
       direction_nev (st_inc st) (st_azi st) = arc_tangent (start_vec a) (vneg n) ((st_md st - a_md1 a) / r)) /\
    ((forall x y, consecutive (sv_rows s) x y -> st_md y - st_md x < PI * r) ->
     forall i st p, nth_error (sv_rows s) i = Some st -> nth_error (sv_nev s) i = Some p ->
       st_md st < a_md1 a + r * k_dogleg c ->
       p = vadd (arc_point (a_pos1 a) (start_vec a) (vneg n) r ((st_md st - a_md1 a) / r)) start).
Proof. exact long_turn_drawn. Qed.
Print Assumptions C118_wrong_side.
Theorem C118_misses : forall bump a c r h start s, 0 <= a_min_error a -> is_unit (start_vec a) ->
  connector bump a = inl c -> k_method c = MinDistToTarget -> radius_design a = Some r ->
  off_axis (a_pos1 a) (start_vec a) (k_pos_target c) <> 2 * r ->
  PI < k_dogleg c -> sin (k_dogleg c) <= - (1 / 10000000000) ->
  1 / 10000 < r * k_dogleg c -> k_tangent c = 0 \/ 1 / 10000 < k_tangent c ->
  h_ref h = RefGrid -> draw h [c] None start = Some s ->
  exists p, nth_error (sv_nev s) (length (sv_nev s) - 1) = Some p /\
    dist p (vadd (k_pos_target c) start) = 4 * PI * r * sin (k_dogleg c / 2) / (2 * PI - k_dogleg c) /\
    4 * r < dist p (vadd (k_pos_target c) start).
Proof. exact long_turn_misses. Qed.
Print Assumptions C118_misses.
(** target 40 m aside and 100 m behind, radius 30 m *)
Example C118_case : exists c s, let a := plain (mkV 40 0 (-100)) 1 in 0 <= a_min_error a /\ is_unit (start_vec a) /\
  connector vzero a = inl c /\ k_method c = MinDistToTarget /\ radius_design a = Some 30 /\
  off_axis (a_pos1 a) (start_vec a) (k_pos_target c) <> 2 * 30 /\
  PI < k_dogleg c /\ sin (k_dogleg c) <= - (1 / 10000000000) /\ 1 / 10000 < 30 * k_dogleg c /\ 1 / 10000 < k_tangent c /\
  h_ref (grid_header "meters") = RefGrid /\ draw (grid_header "meters") [c] None vzero = Some s.
Proof.
  destruct long_example as (c & A & B & Q & D & E & F & G & H & s & S). exists c, s. cbv zeta.
  split; [cbn; lra|]. split; [apply down_unit|]. split; auto. split; auto. split; auto.
  split; [rewrite Q; change (off_axis vzero (mkV 0 0 1) (mkV 40 0 (-100)) <> 2 * 30); rewrite off_down; lra|]. auto 10.
Qed.
Theorem C118_arc_wrong_side : forall bump a c h step start s, is_unit (start_vec a) ->
  connector bump a = inl c -> k_method c = MinCurveToTarget ->
  ~ allclose (a_pos1 a) (k_pos_target c) ->
  0 < off_axis (a_pos1 a) (start_vec a) (k_pos_target c) ->
  let rc := tangent_circle_radius (a_pos1 a) (start_vec a) (k_pos_target c) in
  (forall r, radius_design a = Some r -> rc <= r) ->
  ahead (a_pos1 a) (start_vec a) (k_pos_target c) < 0 -> sin (k_dogleg c) <= - (1 / 10000000000) ->
  h_ref h = RefGrid -> pos_step step -> draw h [c] step start = Some s ->
  PI < k_dogleg c /\
  exists n, is_unit n /\ orthogonal (start_vec a) n /\ 0 <= dot n (vsub (k_pos_target c) (a_pos1 a)) /\
    k_vec_target c = arc_tangent (start_vec a) n (k_dogleg c) /\
    (forall st, In st (sv_rows s) ->
       direction_nev (st_inc st) (st_azi st) = arc_tangent (start_vec a) (vneg n) ((st_md st - a_md1 a) / rc)) /\
    ((forall x y, consecutive (sv_rows s) x y -> st_md y - st_md x < PI * rc) ->
     forall i st p, nth_error (sv_rows s) i = Some st -> nth_error (sv_nev s) i = Some p ->
       p = vadd (arc_point (a_pos1 a) (start_vec a) (vneg n) rc ((st_md st - a_md1 a) / rc)) start).
Proof. exact long_arc_drawn. Qed.
Print Assumptions C118_arc_wrong_side.
Example C118_arc_case : exists c s, let a := plain (mkV 40 0 (-80)) (1 / 10) in is_unit (start_vec a) /\
  connector vzero a = inl c /\ k_method c = MinCurveToTarget /\ ~ allclose (a_pos1 a) (k_pos_target c) /\
  0 < off_axis (a_pos1 a) (start_vec a) (k_pos_target c) /\
  (forall r, radius_design a = Some r -> tangent_circle_radius (a_pos1 a) (start_vec a) (k_pos_target c) <= r) /\
  ahead (a_pos1 a) (start_vec a) (k_pos_target c) < 0 /\ sin (k_dogleg c) <= - (1 / 10000000000) /\
  pos_step (Some 10) /\ draw (grid_header "meters") [c] (Some 10) vzero = Some s.
Proof.
  destruct long_arc_example as (c & s & A & B & Q & D & E & F & G & H & I & S). exists c, s. cbv zeta. rewrite Q.
  change (start_vec (plain (mkV 40 0 (-80)) (1 / 10))) with (mkV 0 0 1). change (a_pos1 (plain (mkV 40 0 (-80)) (1 / 10))) with vzero.
  rewrite E, F, G, H. split; [apply down_unit|]. split; auto. split; auto. split; auto. split; [lra|].
  split; [intros r X; injection X as <-; lra|]. split; [lra|]. split; auto. split; auto. intros x X. injection X as <-. lra.
Qed.

(** * C119: projecting to a target *)
Theorem C119_chain : forall bump s pre st pp p tgt d delta dls tf step cs z,
  sv_rows s = pre ++ [st] -> sv_pos_nev s = pp ++ [p] ->
  project_to_target bump s tgt d delta dls tf step = PjOk cs z ->
  draw (sv_header s) cs step vzero = Some z /\ joined cs /\
  exists c rest, cs = c :: rest /\ k_pos1 c = p /\ k_vec1 c = direction_nev (st_inc st) (st_azi st) /\ k_md1 c = st_md st.
Proof. exact project_chain. Qed.
Print Assumptions C119_chain.
Theorem C119_reaches : forall bump s pre st pp p tgt q d dls tf step c z,
  sv_rows s = pre ++ [st] -> sv_pos_nev s = pp ++ [p] -> h_ref (sv_header s) = RefGrid ->
  pos_step step -> n_pos_nev tgt = Some q -> q <> p -> direction_nev (st_inc st) (st_azi st) <> vunit (vsub q p) ->
  project_to_target bump s tgt d None dls tf step = PjOk [c] z -> sound c -> far_apart step [c] ->
  exists rest first last, sv_rows z = first :: rest /\ nth_error (sv_rows z) (length rest) = Some last /\
    st_md first = st_md st /\ direction_nev (st_inc first) (st_azi first) = direction_nev (st_inc st) (st_azi st) /\
    st_md last = k_md_target c /\ direction_nev (st_inc last) (st_azi last) = k_vec_target c /\
    nth_error (sv_nev z) 0 = Some p /\ nth_error (sv_nev z) (length rest) = Some q.
Proof. exact project_reaches. Qed.
Print Assumptions C119_reaches.
(** from the bottom of a vertical 100 m to a point 400 m aside and 800 m below *)
Example C119_case : exists s c z, Survey (grid_header "meters") shaft_rows false vzero (mkV 0 0 (-100)) "meters" = Some s /\
  sv_rows s = [mkSt 0 0 0] ++ [mkSt 100 0 0] /\ sv_pos_nev s = [mkV 0 0 (-100)] ++ [vzero] /\ h_ref (sv_header s) = RefGrid /\
  mkV 400 0 800 <> vzero /\ direction_nev 0 0 <> vunit (vsub (mkV 400 0 800) vzero) /\
  project_to_target (fun _ => vzero) s (only_pos (mkV 400 0 800)) 1 None None None None = PjOk [c] z /\
  sound c /\ far_apart None [c] /\ k_method c = MinDistToTarget.
Proof.
  destruct project_example as (s & c & z & A & B & C & D & E & F & G & H & I & J & _). exists s, c, z. auto 12.
Qed.
Theorem C119_bit : forall bump s pre st pp p tgt d l sev tf step cs z,
  sv_rows s = pre ++ [st] -> sv_pos_nev s = pp ++ [p] -> 0 < l -> 0 < sev -> radians (l / 30 * sev) < PI ->
  project_to_target bump s tgt d (Some l) (Some sev) (Some tf) step = PjOk cs z ->
  exists c1 c2 q v, cs = [c1; c2] /\
    project_ahead p (direction_nev (st_inc st) (st_azi st)) l sev tf (st_md st) = (q, v, st_md st + l) /\
    k_md_target c1 = st_md st + l /\ k_vec_target c1 = v /\ (k_pos_target c1 = q <-> d <= sev).
Proof. exact project_bit. Qed.
Print Assumptions C119_bit.
(** 30 m at 2 degrees per 30 m, designed at 3 degrees per 30 m *)
Example C119_bit_case : exists s c1 c2 z, Survey (grid_header "meters") shaft_rows false vzero (mkV 0 0 (-100)) "meters" = Some s /\
  sv_rows s = [mkSt 0 0 0] ++ [mkSt 100 0 0] /\ sv_pos_nev s = [mkV 0 0 (-100)] ++ [vzero] /\
  0 < radians (30 / 30 * 2) < PI /\
  project_to_target (fun _ => vzero) s (only_md 1000) 3 (Some 30) (Some 2) (Some 0) None = PjOk [c1; c2] z.
Proof. destruct bit_example as (s & c1 & c2 & z & A & B & C & D & E & _). exists s, c1, c2, z. auto. Qed.
(** the design curvature is not used for the last leg, nor at all without a bit *)
Theorem C119_design_ignored : forall bump s tgt d d' dls dls' tf tf' step,
  project_to_target bump s tgt d None dls tf step = project_to_target bump s tgt d' None dls' tf' step.
Proof. exact project_no_effect. Qed.
Print Assumptions C119_design_ignored.
Theorem C119_rate : forall bump s tgt d delta dls tf step cs z, sv_rows s <> [] -> sv_pos_nev s <> [] ->
  project_to_target bump s tgt d delta dls tf step = PjOk cs z ->
  exists before c, cs = before ++ [c] /\ (k_method c = MinDistToTarget -> k_dist_curve c = 30 / (3 * (PI / 180)) * k_dogleg c).
Proof. exact project_rate. Qed.
Print Assumptions C119_rate.

(** * C120: the azimuth of the vertical section *)
Theorem C120_kept : forall h rows deg sx sn unit s a d s', Survey h rows deg sx sn unit = Some s ->
  Survey (fst (set_vertical_section s a d)) rows deg sx sn unit = Some s' ->
  own_vertical_section s' = Some (snd (set_vertical_section s a false)).
Proof. exact section_kept. Qed.
Print Assumptions C120_kept.
Theorem C120_set : forall s a, snd (set_vertical_section s a true) = snd (set_vertical_section s (a * (PI / 180)) false).
Proof. exact section_set. Qed.
Print Assumptions C120_set.
Theorem C120_degrees_refuted : ~ (forall h rows deg sx sn unit s a s', Survey h rows deg sx sn unit = Some s ->
  Survey (fst (set_vertical_section s a true)) rows deg sx sn unit = Some s' ->
  own_vertical_section s' = Some (snd (set_vertical_section s a true))).
Proof. exact section_degrees_refuted. Qed.
Print Assumptions C120_degrees_refuted.
(** 100 m level to the north: 100 cos a along a *)
Example C120_case : exists s s', Survey (grid_header "meters") [(0, PI / 2, 0); (100, PI / 2, 0)] false vzero vzero "meters" = Some s /\
  Survey (fst (set_vertical_section s 1 true)) [(0, PI / 2, 0); (100, PI / 2, 0)] false vzero vzero "meters" = Some s' /\
  snd (set_vertical_section s 1 true) = [0; 100 * cos (1 * (PI / 180))] /\ own_vertical_section s' = Some [0; 100 * cos 1].
Proof.
  destruct level_north as (s & HS & V). destruct (section_rebuilt _ _ _ _ _ _ _ 1 true HS) as [s' HS'].
  exists s, s'. split; auto. split; auto. rewrite section_set, (section_kept _ _ _ _ _ _ _ _ _ _ HS HS'), !V. auto.
Qed.
