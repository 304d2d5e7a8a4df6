(** Proofs about nodes (C161). *)
Require Import Reals ZArith Bool String List Lra Lia.
Require Import Verif.Base Verif.NumPy Verif.Spec Verif.M_Utils Verif.M_Survey Verif.Spec_Length Verif.P_Length Verif.M_Connector Verif.P_Trig
  Verif.P_Utils Verif.P_Utils3 Verif.P_Connector Verif.P_Connector2 Verif.P_Connector3 Verif.M_Extend Verif.Spec_Extend Verif.P_Draw4 Verif.M_Node Verif.Spec_Node.
Import ListNotations.
Local Open Scope R_scope.

Lemma nev_of_other v : nev_of v = other_axes v.
Proof. unfold nev_of, get_nev, other_axes, vadd, vsub, vzero. simpl. f_equal; ring. Qed.
Lemma xyz_of_other v : xyz_of v = other_axes v.
Proof. unfold xyz_of, get_xyz, other_axes, vadd, vsub, vzero. simpl. f_equal; ring. Qed.
Lemma other_twice v : other_axes (other_axes v) = v.
Proof. destruct v; reflexivity. Qed.
Lemma other_swap v : swap_xy v = other_axes v.
Proof. reflexivity. Qed.
Lemma radians_in (degs : bool) (x : R) : (if degs then radians x else x) = in_radians degs x.
Proof. unfold in_radians, radians. destruct degs; [field|reflexivity]. Qed.
Lemma nonzero_normalised v : v <> vzero -> normalised v = Some (vunit v) /\ is_unit (vunit v).
Proof.
  intro H. split; [|apply vunit_is_unit, H]. unfold normalised. destruct (Req_EM_T (norm v) 0) as [E|E]; [|reflexivity].
  exfalso. apply H, norm_eq0, E.
Qed.

Lemma node_made : forall pos vec md inc azi degs nev,
  (exists n, Node pos vec md inc azi degs nev = Some n) <->
  (vec = None /\ (inc = None <-> azi = None)) \/ (exists v, vec = Some v /\ v <> vzero).
Proof.
  intros pos vec md inc azi degs nev. unfold Node, make_node. destruct vec as [v|].
  - destruct (v3_eq_dec v vzero) as [E|E].
    + subst v. unfold normalised. rewrite norm_vzero. destruct (Req_EM_T 0 0) as [_|X]; [|lra].
      split; [intros (n & H); discriminate|]. intros [[H _]|(v & H & X)]; [discriminate|]. exfalso. apply X. congruence.
    + rewrite (proj1 (nonzero_normalised v E)). split; [intros _; right; exists v; auto|].
      intros _. destruct nev; eexists; reflexivity.
  - destruct inc as [i|], azi as [a|]; simpl.
    + split; [intros _; left; split; auto; split; discriminate|intros _; eexists; reflexivity].
    + split; [intros (n & H); discriminate|]. intros [[_ H]|(v & H & _)]; [|discriminate]. exfalso. assert (X := proj2 H eq_refl). discriminate.
    + split; [intros (n & H); discriminate|]. intros [[_ H]|(v & H & _)]; [|discriminate]. exfalso. assert (X := proj1 H eq_refl). discriminate.
    + split; [intros _; left; split; auto; tauto|intros _; eexists; reflexivity].
Qed.

(** everything about a node at once *)
Lemma node_all : forall pos vec md inc azi degs nev n, Node pos vec md inc azi degs nev = Some n ->
  n_md n = md /\ n_pos_nev n = (if nev then pos else option_map other_axes pos) /\
  n_pos_xyz n = option_map other_axes (n_pos_nev n) /\ n_vec_xyz n = option_map other_axes (n_vec_nev n) /\
  (vec = None -> inc = None -> n_vec_nev n = None) /\
  (forall v, vec = Some v -> v <> vzero /\ n_vec_nev n = Some (vunit (if nev then v else other_axes v))) /\
  (forall i a, vec = None -> inc = Some i -> azi = Some a -> n_vec_nev n = Some (direction_nev (in_radians degs i) (in_radians degs a))) /\
  n_inc_rad n = option_map (fun u => fst (get_angles true u)) (n_vec_nev n) /\
  n_azi_rad n = option_map (fun u => snd (get_angles true u)) (n_vec_nev n) /\
  (forall u, n_vec_nev n = Some u -> is_unit u).
Proof.
  intros pos vec md inc azi degs nev n H.
  assert (GA : forall u, get_angles false (other_axes u) = get_angles true u).
  { intro u. unfold get_angles, vunit. f_equal.
    assert (norm (other_axes u) = norm u) as -> by (unfold norm, dot, other_axes; simpl; f_equal; ring). reflexivity. }
  assert (GA' : forall u, get_angles false u = get_angles true (other_axes u)) by (intro u; rewrite <- GA, other_twice; reflexivity).
  assert (VU : forall v, vunit (other_axes v) = other_axes (vunit v)).
  { intro v. unfold vunit. assert (norm (other_axes v) = norm v) as -> by (unfold norm, dot, other_axes; simpl; f_equal; ring). reflexivity. }
  assert (PO : forall p, option_map other_axes (option_map other_axes p) = p) by (intros [p|]; simpl; [rewrite other_twice|]; reflexivity).
  assert (P1 : match pos with None => None | Some p => Some (if nev then p else nev_of p) end = (if nev then pos else option_map other_axes pos)).
  { destruct pos as [p|], nev; simpl; try rewrite nev_of_other; reflexivity. }
  assert (P2 : match pos with None => None | Some p => Some (if nev then xyz_of p else p) end = option_map other_axes (if nev then pos else option_map other_axes pos)).
  { destruct pos as [p|], nev; simpl; rewrite ?xyz_of_other, ?other_twice; reflexivity. }
  unfold Node, make_node in H. cbv zeta in H. rewrite P1, P2 in H. clear P1 P2.
  destruct vec as [v|].
  - destruct (v3_eq_dec v vzero) as [E|E].
    { subst v. unfold normalised in H. rewrite norm_vzero in H. destruct (Req_EM_T 0 0) as [_|X]; [discriminate|lra]. }
    destruct (nonzero_normalised v E) as [NV UV]. rewrite NV in H.
    destruct nev; [rewrite xyz_of_other in H | rewrite nev_of_other in H]; cbn [option_map fst snd] in H;
      [rewrite GA in H | rewrite (GA' (vunit v)) in H]; injection H as <-; cbn [n_md n_pos_nev n_pos_xyz n_vec_nev n_vec_xyz n_inc_rad n_azi_rad option_map fst snd].
    + split; [reflexivity|]. split; [reflexivity|]. split; [reflexivity|]. split; [reflexivity|]. split; [intros; discriminate|].
      split; [intros w X; injection X as <-; split; [exact E|reflexivity]|]. split; [intros; discriminate|].
      split; [reflexivity|]. split; [reflexivity|]. intros u X. injection X as <-. exact UV.
    + split; [reflexivity|]. split; [reflexivity|]. split; [reflexivity|]. split; [rewrite other_twice; reflexivity|]. split; [intros; discriminate|].
      split; [intros w X; injection X as <-; split; [exact E|rewrite VU; reflexivity]|]. split; [intros; discriminate|].
      split; [reflexivity|]. split; [reflexivity|]. intros u X. injection X as <-.
      rewrite <- VU. apply vunit_is_unit. intro Z. apply E. rewrite <- (other_twice v), Z. reflexivity.
  - destruct inc as [i|], azi as [a|]; cbn [option_map] in H; try discriminate.
    + assert (GV : get_vec false 1 (in_radians degs i) (in_radians degs a) = other_axes (direction_nev (in_radians degs i) (in_radians degs a)))
        by (rewrite get_vec_spec by lra; reflexivity).
      cbv beta in H. rewrite (radians_in degs i), (radians_in degs a), GV, nev_of_other, other_twice in H. cbn [option_map fst snd] in H. rewrite GA in H.
      injection H as <-. cbn [n_md n_pos_nev n_pos_xyz n_vec_nev n_vec_xyz n_inc_rad n_azi_rad option_map fst snd].
      split; [reflexivity|]. split; [reflexivity|]. split; [reflexivity|]. split; [reflexivity|]. split; [intros; discriminate|].
      split; [intros; discriminate|]. split; [intros i' a' _ X Y; injection X as <-; injection Y as <-; reflexivity|].
      split; [reflexivity|]. split; [reflexivity|]. intros u X. injection X as <-. apply direction_unit.
    + injection H as <-. cbn [n_md n_pos_nev n_pos_xyz n_vec_nev n_vec_xyz n_inc_rad n_azi_rad option_map fst snd].
      repeat split; try reflexivity; intros; discriminate.
Qed.

Lemma node_position : forall pos vec md inc azi degs nev n, Node pos vec md inc azi degs nev = Some n ->
  n_md n = md /\ n_pos_nev n = (if nev then pos else option_map other_axes pos) /\
  n_pos_xyz n = (if nev then option_map other_axes pos else pos).
Proof.
  intros pos vec md inc azi degs nev n H. destruct (node_all _ _ _ _ _ _ _ _ H) as (A & B & C & _).
  split; [exact A|]. split; [exact B|]. rewrite C, B. destruct nev; [reflexivity|]. destruct pos; simpl; rewrite ?other_twice; reflexivity.
Qed.

Lemma node_vector : forall pos v u md inc azi degs nev, points_along v u ->
  exists n, Node pos (Some v) md inc azi degs nev = Some n /\
    n_vec_nev n = Some (if nev then u else other_axes u) /\ n_vec_xyz n = Some (if nev then other_axes u else u).
Proof.
  intros pos v u md inc azi degs nev H. assert (Z := along_nonzero _ _ H).
  destruct (proj2 (node_made pos (Some v) md inc azi degs nev)) as [n N]; [right; exists v; auto|].
  exists n. split; [exact N|]. destruct (node_all _ _ _ _ _ _ _ _ N) as (_ & _ & _ & X & _ & V & _).
  destruct (V v eq_refl) as [_ E].
  assert (E' : n_vec_nev n = Some (if nev then u else other_axes u)).
  { rewrite E. f_equal. destruct nev; [apply along_vunit, H|]. apply along_vunit. destruct H as [U (k & K & ->)]. split.
    - apply (swap_unit u U).
    - exists k. split; [exact K|reflexivity]. }
  split; [exact E'|]. rewrite X, E'. destruct nev; simpl; rewrite ?other_twice; reflexivity.
Qed.

Lemma node_consistent : forall pos vec md inc azi degs nev n u, Node pos vec md inc azi degs nev = Some n -> n_vec_nev n = Some u ->
  exists i a, n_inc_rad n = Some i /\ n_azi_rad n = Some a /\ 0 <= i <= PI /\ 0 <= a < 2 * PI /\ u = direction_nev i a /\
    n_vec_xyz n = Some (other_axes u) /\ n_inc_deg n = Attr (Some (i * (180 / PI))) /\ n_azi_deg n = Attr (Some (a * (180 / PI))).
Proof.
  intros pos vec md inc azi degs nev n u H V. destruct (node_all _ _ _ _ _ _ _ _ H) as (_ & _ & _ & X & _ & _ & _ & I & A & U).
  assert (U' := U u V). rewrite V in I, A, X. cbn [option_map] in I, A, X.
  assert (G := get_angles_direction u (unit_nonzero u U')). assert (B := get_angles_range true u).
  destruct (get_angles true u) as [i a]. cbn [fst snd] in *. exists i, a.
  unfold n_inc_deg, n_azi_deg. rewrite I, A. rewrite (vunit_unit u U') in G. repeat split; try tauto; auto.
Qed.

Lemma node_angles : forall pos md inc azi degs nev, exists n, Node pos None md (Some inc) (Some azi) degs nev = Some n /\
  n_vec_nev n = Some (direction_nev (in_radians degs inc) (in_radians degs azi)) /\
  (0 < in_radians degs inc < PI -> 0 <= in_radians degs azi < 2 * PI ->
     n_inc_rad n = Some (in_radians degs inc) /\ n_azi_rad n = Some (in_radians degs azi)).
Proof.
  intros pos md inc azi degs nev.
  destruct (proj2 (node_made pos None md (Some inc) (Some azi) degs nev)) as [n N]; [left; split; auto; split; discriminate|].
  exists n. split; [exact N|]. destruct (node_all _ _ _ _ _ _ _ _ N) as (_ & _ & _ & X & _ & _ & D & I & A & U).
  assert (E := D inc azi eq_refl eq_refl eq_refl). split; [exact E|]. intros Hi Ha.
  rewrite E in I, A. cbn [option_map] in I, A. rewrite I, A.
  assert (G := get_angles_of_vec true 1 _ _ Rlt_0_1 Hi Ha). rewrite get_vec_spec in G by lra. rewrite G. split; reflexivity.
Qed.

Lemma node_vertical_azimuth : exists n, Node None None None (Some 0) (Some 90) true true = Some n /\ n_azi_deg n = Attr (Some 0).
Proof.
  destruct (proj2 (node_made None None None (Some 0) (Some 90) true true)) as [n N]; [left; split; auto; split; discriminate|].
  destruct (node_all _ _ _ _ _ _ _ _ N) as (_ & _ & _ & X & _ & _ & D & I & A & U).
  exists n. split; [exact N|]. unfold n_azi_deg. rewrite A, (D 0 90 eq_refl eq_refl eq_refl). cbn [option_map].
  assert (V : direction_nev (in_radians true 0) (in_radians true 90) = mkV 0 0 1).
  { unfold direction_nev, in_radians. replace (0 * PI / 180) with 0 by field. rewrite sin_0, cos_0. f_equal; ring. }
  rewrite V. destruct (angles_vertical 1) as (i & G & _); [auto|]. rewrite G. cbn [snd]. unfold degrees. do 2 f_equal. field. apply PI_neq0.
Qed.

Lemma node_no_direction : forall pos md degs nev, exists n, Node pos None md None None degs nev = Some n /\
  n_vec_nev n = None /\ n_vec_xyz n = None /\ n_inc_rad n = None /\ n_azi_rad n = None /\ n_inc_deg n = Attr None /\ n_azi_deg n = AttributeError.
Proof.
  intros pos md degs nev. eexists. split; [reflexivity|]. repeat split; reflexivity.
Qed.

Lemma node_ext (a b : node) : n_pos_nev a = n_pos_nev b -> n_pos_xyz a = n_pos_xyz b -> n_vec_nev a = n_vec_nev b -> n_vec_xyz a = n_vec_xyz b ->
  n_inc_rad a = n_inc_rad b -> n_azi_rad a = n_azi_rad b -> n_md a = n_md b -> a = b.
Proof. destruct a, b. cbn. congruence. Qed.

(** a node is determined by its parameters *)
Lemma node_rebuild : forall pos vec md inc azi degs nev n degs' p u m, Node pos vec md inc azi degs nev = Some n ->
  get_node_params n = (p, u, m) -> Node p u m None None degs' true = Some n.
Proof.
  intros pos vec md inc azi degs nev n degs' p u m H G. injection G as <- <- <-.
  destruct (node_all _ _ _ _ _ _ _ _ H) as (_ & _ & C & X & _ & _ & _ & I & A & U).
  destruct (proj2 (node_made (n_pos_nev n) (n_vec_nev n) (n_md n) None None degs' true)) as [k K].
  { destruct (n_vec_nev n) as [u|]; [right; exists u; split; auto; apply unit_nonzero, U; reflexivity|left; split; auto; tauto]. }
  rewrite K. f_equal. destruct (node_all _ _ _ _ _ _ _ _ K) as (M' & P' & C' & X' & Z' & V' & _ & I' & A' & _).
  cbv iota in P'.
  assert (VV : n_vec_nev k = n_vec_nev n).
  { destruct (n_vec_nev n) as [u|].
    - rewrite (proj2 (V' u eq_refl)). f_equal. apply vunit_unit, U. reflexivity.
    - apply Z'; reflexivity. }
  apply node_ext; try congruence.
Qed.
Lemma node_axes : forall pos vec md inc azi degs, Node pos vec md inc azi degs false =
  Node (option_map other_axes pos) (option_map other_axes vec) md inc azi degs true.
Proof.
  intros pos vec md inc azi degs.
  assert (Z : forall v, v <> vzero <-> other_axes v <> vzero).
  { intro v. split; intros H E; apply H; [rewrite <- (other_twice v), E; reflexivity|subst v; reflexivity]. }
  assert (M1 := node_made pos vec md inc azi degs false). assert (M2 := node_made (option_map other_axes pos) (option_map other_axes vec) md inc azi degs true).
  destruct (Node pos vec md inc azi degs false) as [n|] eqn:E1, (Node (option_map other_axes pos) (option_map other_axes vec) md inc azi degs true) as [k|] eqn:E2.
  - f_equal. destruct (node_all _ _ _ _ _ _ _ _ E1) as (A1 & B1 & C1 & D1 & F1 & G1 & H1 & I1 & J1 & _).
    destruct (node_all _ _ _ _ _ _ _ _ E2) as (A2 & B2 & C2 & D2 & F2 & G2 & H2 & I2 & J2 & _).
    assert (V : n_vec_nev n = n_vec_nev k).
    { destruct vec as [v|].
      - rewrite (proj2 (G1 v eq_refl)), (proj2 (G2 (other_axes v) eq_refl)). reflexivity.
      - destruct inc as [i|]; [|rewrite F1, F2; reflexivity]. destruct azi as [a|].
        + rewrite (H1 i a), (H2 i a); reflexivity.
        + cbn in E1. discriminate. }
    apply node_ext; congruence.
  - exfalso. destruct (proj1 M1) as [[X Y]|(v & X & Y)]; [eauto| |].
    + destruct (proj2 M2) as [q Q]; [left; subst vec; auto|discriminate].
    + destruct (proj2 M2) as [q Q]; [right; exists (other_axes v); subst vec; split; [reflexivity|exact (proj1 (Z v) Y)]|discriminate].
  - exfalso. destruct (proj1 M2) as [[X Y]|(v & X & Y)]; [eauto| |].
    + destruct (proj2 M1) as [q Q]; [left; destruct vec; [discriminate|auto]|discriminate].
    + destruct (proj2 M1) as [q Q]; [right; destruct vec as [w|]; [|discriminate]; exists w; split; [reflexivity|]; apply Z; injection X as ->; exact Y|discriminate].
  - reflexivity.
Qed.

(** * Connections *)
Lemma node_of_along p v u m : points_along v u -> exists n, Node (Some p) (Some v) (Some m) None None true true = Some n /\ describes n p u m.
Proof.
  intro H. destruct (node_vector (Some p) v u (Some m) None None true true H) as (n & N & V & _). exists n. split; [exact N|].
  destruct (node_position _ _ _ _ _ _ _ _ N) as (M & P & _). unfold describes. auto.
Qed.
Lemma connection_nodes : forall bump a c u v, connector bump a = inl c -> points_along (start_vec a) u -> points_along (k_vec_target c) v ->
  exists s e, node_start c = Some s /\ node_end c = Some e /\
    describes s (a_pos1 a) u (a_md1 a) /\ describes e (k_pos_target c) v (k_md_target c).
Proof.
  intros bump a c u v H U V. destruct (connector_start bump a c H) as (A & B & C).
  unfold node_start, node_end. rewrite A, B, C.
  destruct (node_of_along (a_pos1 a) _ u (a_md1 a) U) as (s & S1 & S2).
  destruct (node_of_along (k_pos_target c) _ v (k_md_target c) V) as (e & E1 & E2). exists s, e. auto.
Qed.
Lemma from_node : forall bump n m p u d a a' c, describes n p u d -> with_nodes (Some n) m a = Some a' -> connector bump a' = inl c ->
  k_pos1 c = p /\ k_vec1 c = u /\ k_md1 c = d.
Proof.
  intros bump n m p u d a a' c (P & U & M) W H. unfold with_nodes in W. rewrite P, M, U in W. injection W as <-.
  destruct (connector_start _ _ _ H) as (A & B & C). rewrite A, B, C. split; [reflexivity|]. split; [|reflexivity].
  destruct (connector_cases _ _ _ H) as [CA _]. apply acceptance in CA. cbn [a_vec1 a_inc1 a_azi1] in CA.
  destruct CA as [[(_ & -> & ->)|(X & _)] _]; [|discriminate]. unfold start_vec. cbn [a_inc1 a_azi1 a_vec1].
  destruct (a_inc1 a); reflexivity.
Qed.
Lemma chained : forall bump bump' a c v e m b b' c', connector bump a = inl c -> points_along (k_vec_target c) v -> node_end c = Some e ->
  with_nodes (Some e) m b = Some b' -> connector bump' b' = inl c' ->
  k_pos1 c' = k_pos_target c /\ k_vec1 c' = v /\ k_md1 c' = k_md_target c.
Proof.
  intros bump bump' a c v e m b b' c' H V E W H'.
  destruct (node_of_along (k_pos_target c) _ v (k_md_target c) V) as (e' & E1 & E2).
  assert (e' = e) by (unfold node_end in E; congruence). subst e'. eapply from_node; eauto.
Qed.
Lemma to_node : forall n m p u d a q v e, describes n p u d -> describes m q v e ->
  exists a', with_nodes (Some n) (Some m) a = Some a' /\ a_pos2 a' = Some q /\ a_vec2 a' = Some v /\ a_md2 a' = Some e /\
    forall bump c, connector bump a' <> inl c.
Proof.
  intros n m p u d a q v e (P & U & M) (P2 & U2 & M2). unfold with_nodes. rewrite P, M, P2, M2, U2.
  eexists. split; [reflexivity|]. repeat split.
  intros bump c H. destruct (connector_cases _ _ _ H) as [CA _]. apply acceptance in CA. cbn [a_pos2 a_md2] in CA.
  destruct CA as (_ & _ & _ & [X|X] & _); discriminate.
Qed.

(** * Surveys *)
Lemma item_counts {A} (l : list A) i x : item l i = Some x <-> exists k, counts_to (List.length l) i k /\ nth_error l k = Some x.
Proof.
  unfold item, counts_to. split.
  - destruct (orb _ _) eqn:B; [discriminate|]. apply orb_false_elim in B. destruct B as [B1 B2].
    apply Z.ltb_ge in B1. apply Z.leb_gt in B2. intro H.
    eexists. split; [|exact H]. destruct (Z.ltb_spec i 0); lia.
  - intros (k & (K & [E|E]) & H).
    + subst i. destruct (orb _ _) eqn:B; [exfalso; apply orb_prop in B; destruct B as [B|B]; [apply Z.ltb_lt in B|apply Z.leb_le in B]; lia|].
      destruct (Z.ltb_spec (Z.of_nat k) 0); [lia|]. rewrite Nat2Z.id. exact H.
    + subst i. destruct (orb _ _) eqn:B; [exfalso; apply orb_prop in B; destruct B as [B|B]; [apply Z.ltb_lt in B|apply Z.leb_le in B]; lia|].
      destruct (Z.ltb_spec (Z.of_nat k - Z.of_nat (List.length l)) 0); [|lia].
      replace (Z.to_nat _) with k by lia. exact H.
Qed.
Lemma counts_unique n i k k' : counts_to n i k -> counts_to n i k' -> k = k'.
Proof. unfold counts_to. lia. Qed.
Lemma survey_node : forall h rows deg sx sn unit s i n, Survey h rows deg sx sn unit = Some s ->
  (get_node s i = Some n <->
   exists k a p, counts_to (List.length (sv_rows s)) i k /\ nth_error (sv_rows s) k = Some a /\ nth_error (sv_nev s) k = Some p /\
     Node (Some p) None (Some (st_md a)) (Some (st_inc a)) (Some (st_azi a)) false true = Some n).
Proof.
  intros h rows deg sx sn unit s i n H. destruct (survey_path _ _ _ _ _ _ _ H) as [L _].
  assert (EQ : forall p a, Node (Some p) (Some (get_vec true 1 (st_inc a) (st_azi a))) (Some (st_md a)) None None true true
                = Node (Some p) None (Some (st_md a)) (Some (st_inc a)) (Some (st_azi a)) false true).
  { intros p a. destruct (node_angles (Some p) (Some (st_md a)) (st_inc a) (st_azi a) false true) as (k & K & V & _). rewrite K.
    rewrite get_vec_spec by lra. destruct (node_position _ _ _ _ _ _ _ _ K) as (M & P & _).
    apply (node_rebuild _ _ _ _ _ _ _ k true _ _ _ K). unfold get_node_params. rewrite M, P, V. reflexivity. }
  unfold get_node. split.
  - destruct (item (sv_nev s) i) as [p|] eqn:E1; [|discriminate]. destruct (item (sv_rows s) i) as [a|] eqn:E2; [|discriminate].
    apply item_counts in E1. apply item_counts in E2. destruct E1 as (k & C & E1), E2 as (k' & C' & E2). rewrite L in C.
    assert (k' = k) by (eapply counts_unique; eauto). subst k'. rewrite EQ. intro N. exists k, a, p. auto.
  - intros (k & a & p & C & A & P & N).
    assert (item (sv_nev s) i = Some p) as -> by (apply item_counts; exists k; rewrite L; auto).
    assert (item (sv_rows s) i = Some a) as -> by (apply item_counts; exists k; auto).
    rewrite EQ. exact N.
Qed.

(** two vertical holds, the second from the end node of the first *)
Definition hold_args (p : V3) (m1 m2 : R) : cargs :=
  mkArgs p (Some (mkV 0 0 1)) None None m1 None (Some m2) None None None None true (1 / 100000) false.
Lemma hold_args_conn p m1 m2 bump : m1 <= m2 -> exists c, connector bump (hold_args p m1 m2) = inl c /\
  k_vec_target c = mkV 0 0 1 /\ k_md_target c = m2.
Proof.
  intro L. assert (DU : is_unit (mkV 0 0 1)) by (unfold is_unit, dot; simpl; ring).
  assert (C : check_args (hold_args p m1 m2) = None).
  { apply acceptance. cbn [hold_args a_vec1 a_inc1 a_azi1 a_md2 a_pos2 a_vec2 a_inc2 a_azi2 a_md1 a_dls a_min_error].
    split; [left; repeat split; congruence|]. split; [intros (X & _); discriminate|]. split; [congruence|]. split; [right; reflexivity|].
    split; [intros m X; injection X as <-; exact L|]. split; [intros d X; discriminate|]. lra. }
  assert (T : target_vec (hold_args p m1 m2) = mkV 0 0 1).
  { unfold target_vec. cbn -[v3_eq_dec vneg].
    destruct (v3_eq_dec (mkV 0 0 1) (vneg (mkV 0 0 1))) as [Z|Z]; [|reflexivity].
    exfalso. injection Z as _ _ Z. simpl in Z. lra. }
  assert (M : get_method (hold_args p m1 m2) = inl "hold"%string).
  { apply (dispatch (hold_args p m1 m2) C DU).
    + split; [rewrite T; reflexivity|]. intros q Q. discriminate.
    + intros (_ & Z & _). apply Z. reflexivity. }
  unfold connector. rewrite C, M. change (String.eqb "hold" "hold") with true. cbv iota. unfold do_hold. cbn [hold_args a_pos2 a_md2].
  eexists. split; [reflexivity|]. split; [exact T|reflexivity].
Qed.
Lemma chain_case : exists c e b' c', connector vzero (hold_args vzero 0 100) = inl c /\ points_along (k_vec_target c) (mkV 0 0 1) /\
  node_end c = Some e /\ with_nodes (Some e) None (hold_args vzero 0 300) = Some b' /\ connector vzero b' = inl c' /\ k_md1 c' = 100.
Proof.
  destruct (hold_args_conn vzero 0 100 vzero ltac:(lra)) as (c & H & V & M).
  assert (P : points_along (k_vec_target c) (mkV 0 0 1)).
  { rewrite V. split; [unfold is_unit, dot; simpl; ring|]. exists 1. split; [lra|]. unfold vscale. simpl. f_equal; ring. }
  destruct (node_of_along (k_pos_target c) _ _ (k_md_target c) P) as (e & E & D).
  destruct (hold_args_conn (k_pos_target c) 100 300 vzero ltac:(lra)) as (c' & H' & _).
  exists c, e, (hold_args (k_pos_target c) 100 300), c'. split; [exact H|]. split; [exact P|]. split; [exact E|].
  split; [|split; [exact H'|]].
  - destruct D as (D1 & D2 & D3). unfold with_nodes. rewrite D1, D2, D3, M. reflexivity.
  - apply (connector_start _ _ _ H').
Qed.
