(** C161: nodes. *)
Require Import Reals ZArith Bool String List Lra Lia.
Require Import Verif.Base Verif.NumPy Verif.Spec Verif.M_Utils Verif.M_Survey Verif.Spec_Length Verif.P_Length Verif.M_Connector
  Verif.P_Connector Verif.P_Utils3 Verif.M_Extend Verif.Spec_Extend Verif.M_Node Verif.Spec_Node Verif.P_Node.
Import ListNotations.
Local Open Scope R_scope.

(** * C161 *)
Theorem C161_made : forall pos vec md inc azi degs nev,
  (exists n, Node pos vec md inc azi degs nev = Some n) <->
  (vec = None /\ (inc = None <-> azi = None)) \/ (exists v, vec = Some v /\ v <> vzero).
Proof. exact node_made. Qed.
Print Assumptions C161_made.
Theorem C161_position : forall pos vec md inc azi degs nev n, Node pos vec md inc azi degs nev = Some n ->
  n_md n = md /\ n_pos_nev n = (if nev then pos else option_map other_axes pos) /\
  n_pos_xyz n = (if nev then option_map other_axes pos else pos).
Proof. exact node_position. Qed.
Print Assumptions C161_position.
Theorem C161_vector : forall pos v u md inc azi degs nev, points_along v u ->
  exists n, Node pos (Some v) md inc azi degs nev = Some n /\
    n_vec_nev n = Some (if nev then u else other_axes u) /\ n_vec_xyz n = Some (if nev then other_axes u else u).
Proof. exact node_vector. Qed.
Print Assumptions C161_vector.
Theorem C161_consistent : forall pos vec md inc azi degs nev n u, Node pos vec md inc azi degs nev = Some n -> n_vec_nev n = Some u ->
  exists i a, n_inc_rad n = Some i /\ n_azi_rad n = Some a /\ 0 <= i <= PI /\ 0 <= a < 2 * PI /\ u = direction_nev i a /\
    n_vec_xyz n = Some (other_axes u) /\ n_inc_deg n = Attr (Some (i * (180 / PI))) /\ n_azi_deg n = Attr (Some (a * (180 / PI))).
Proof. exact node_consistent. Qed.
Print Assumptions C161_consistent.
Theorem C161_angles : forall pos md inc azi degs nev, exists n, Node pos None md (Some inc) (Some azi) degs nev = Some n /\
  n_vec_nev n = Some (direction_nev (in_radians degs inc) (in_radians degs azi)) /\
  (0 < in_radians degs inc < PI -> 0 <= in_radians degs azi < 2 * PI ->
     n_inc_rad n = Some (in_radians degs inc) /\ n_azi_rad n = Some (in_radians degs azi)).
Proof. exact node_angles. Qed.
Print Assumptions C161_angles.
Theorem C161_vertical_refuted : exists n, Node None None None (Some 0) (Some 90) true true = Some n /\ n_azi_deg n = Attr (Some 0).
Proof. exact node_vertical_azimuth. Qed.
Print Assumptions C161_vertical_refuted.
Theorem C161_no_direction : forall pos md degs nev, exists n, Node pos None md None None degs nev = Some n /\
  n_vec_nev n = None /\ n_vec_xyz n = None /\ n_inc_rad n = None /\ n_azi_rad n = None /\ n_inc_deg n = Attr None /\ n_azi_deg n = AttributeError.
Proof. exact node_no_direction. Qed.
Print Assumptions C161_no_direction.
Theorem C161_axes : forall pos vec md inc azi degs, Node pos vec md inc azi degs false =
  Node (option_map other_axes pos) (option_map other_axes vec) md inc azi degs true.
Proof. exact node_axes. Qed.
Print Assumptions C161_axes.
Theorem C161_rebuild : forall pos vec md inc azi degs nev n degs' p u m, Node pos vec md inc azi degs nev = Some n ->
  get_node_params n = (p, u, m) -> Node p u m None None degs' true = Some n.
Proof. exact node_rebuild. Qed.
Print Assumptions C161_rebuild.
Theorem C161_connection : forall bump a c u v, connector bump a = inl c -> points_along (start_vec a) u -> points_along (k_vec_target c) v ->
  exists s e, node_start c = Some s /\ node_end c = Some e /\
    describes s (a_pos1 a) u (a_md1 a) /\ describes e (k_pos_target c) v (k_md_target c).
Proof. exact connection_nodes. Qed.
Print Assumptions C161_connection.
Theorem C161_chained : forall bump bump' a c v e m b b' c', connector bump a = inl c -> points_along (k_vec_target c) v -> node_end c = Some e ->
  with_nodes (Some e) m b = Some b' -> connector bump' b' = inl c' ->
  k_pos1 c' = k_pos_target c /\ k_vec1 c' = v /\ k_md1 c' = k_md_target c.
Proof. exact chained. Qed.
Print Assumptions C161_chained.
Theorem C161_target_depth : forall n m p u d a q v e, describes n p u d -> describes m q v e ->
  exists a', with_nodes (Some n) (Some m) a = Some a' /\ a_pos2 a' = Some q /\ a_vec2 a' = Some v /\ a_md2 a' = Some e /\
    forall bump c, connector bump a' <> inl c.
Proof. exact to_node. Qed.
Print Assumptions C161_target_depth.
Theorem C161_survey : forall h rows deg sx sn unit s i n, Survey h rows deg sx sn unit = Some s ->
  (get_node s i = Some n <->
   exists k a p, counts_to (List.length (sv_rows s)) i k /\ nth_error (sv_rows s) k = Some a /\ nth_error (sv_nev s) k = Some p /\
     Node (Some p) None (Some (st_md a)) (Some (st_inc a)) (Some (st_azi a)) false true = Some n).
Proof. exact survey_node. Qed.
Print Assumptions C161_survey.
Example C161_case : points_along (mkV 3 0 4) (mkV (3/5) 0 (4/5)) /\
  (exists n, Node (Some (mkV 1 2 3)) (Some (mkV 3 0 4)) (Some 10) None None true false = Some n /\
     n_pos_nev n = Some (mkV 2 1 3) /\ n_vec_nev n = Some (mkV 0 (3/5) (4/5)) /\ n_md n = Some 10).
Proof.
  split; [exact along_345|]. destruct (node_vector (Some (mkV 1 2 3)) _ _ (Some 10) None None true false along_345) as (n & N & V & _).
  exists n. split; [exact N|]. destruct (node_position _ _ _ _ _ _ _ _ N) as (M & P & _). auto.
Qed.
Example C161_survey_case : exists s n, Survey grid_header build_rows false vzero vzero "meters" = Some s /\ get_node s (-1) = Some n /\ n_md n = Some 200.
Proof.
  destruct build_survey as (s & H & E). destruct (survey_path _ _ _ _ _ _ _ H) as [L _]. exists s.
  destruct (nth_error (sv_nev s) 2) as [p|] eqn:P; [|apply nth_error_None in P; rewrite L, E in P; cbn in P; lia].
  destruct (node_angles (Some p) (Some 200) 1 0 false true) as (n & N & _). exists n. split; [exact H|]. split.
  - apply (survey_node _ _ _ _ _ _ _ (-1) n H). exists 2%nat, (mkSt 200 1 0), p. rewrite E.
    split; [split; [cbn; lia|right; reflexivity]|]. auto.
  - apply (proj1 (node_position _ _ _ _ _ _ _ _ N)).
Qed.
Example C161_chain_case : exists c e b' c', connector vzero (hold_args vzero 0 100) = inl c /\ points_along (k_vec_target c) (mkV 0 0 1) /\
  node_end c = Some e /\ with_nodes (Some e) None (hold_args vzero 0 300) = Some b' /\ connector vzero b' = inl c' /\ k_md1 c' = 100.
Proof. exact chain_case. Qed.
