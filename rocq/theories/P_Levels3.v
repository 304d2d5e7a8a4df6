(** The survey of one connection, and the node get_node_tvd returns. *)
Require Import Reals ZArith Bool String List Lra Lia Psatz.
Require Import Verif.Base Verif.NumPy Verif.P_Trig Verif.Spec Verif.Spec_Lists Verif.M_Utils
  Verif.P_Utils Verif.P_Utils2 Verif.P_Utils3 Verif.M_Connector Verif.Spec_Connector Verif.P_Connector6 Verif.P_Connector7 Verif.P_Connector8
  Verif.M_Survey Verif.P_Survey Verif.P_Survey2
  Verif.P_Survey3 Verif.P_Survey4 Verif.P_Tvd Verif.M_Levels Verif.P_Levels Verif.P_Levels2.
Import ListNotations.
Open Scope R_scope.

Lemma level_dls_pos : 0 < level_dls.
Proof. unfold level_dls, radians. pose proof PI_RGT_0. lra. Qed.
Lemma angles_dir : forall v, is_unit v -> let '(i, z) := get_angles true v in direction_nev i z = v.
Proof.
  intros v U. assert (N : v <> vzero) by (intros ->; unfold is_unit in U; revert U; unf; simpl; lra).
  pose proof (get_angles_direction v N) as H. destruct (get_angles true v). rewrite H. apply vunit_unit. auto.
Qed.
Lemma node_station_dir : forall n, is_unit (nd_vec n) -> dir (node_station n) = nd_vec n /\ st_md (node_station n) = nd_md n.
Proof.
  intros n U. pose proof (angles_dir _ U) as H. unfold node_station. destruct (get_angles true (nd_vec n)). split; auto.
Qed.
Lemma to_depth_leg : forall p u m m2 i z,
  connector vzero (to_depth p u m m2 (heading_of (m2, i, z))) = leg level_dls p u m (m2, i, z).
Proof. intros. unfold leg. rewrite (heading_vec m2). reflexivity. Qed.
Lemma to_depth_pos1 : forall p u m m2 v c, connector vzero (to_depth p u m m2 v) = inl c -> k_pos1 c = p.
Proof.
  intros p u m m2 v c H. unfold connector in H. destruct (check_args _); [discriminate|].
  destruct (get_method (to_depth p u m m2 v)) as [k|]; [|discriminate].
  destruct (String.eqb k "hold").
  - cbn in H. injection H as <-. reflexivity.
  - destruct (String.eqb k "min_curve").
    + unfold do_min_curve in H. destruct (start_angles _), (target_angles' _). cbn [a_md2 to_depth] in H.
      cbv zeta in H. destruct (_ || _)%bool in H.
      * destruct (rmin_inf _ _); [|discriminate]. destruct (get_curve_hold_data _ _). injection H as <-. reflexivity.
      * destruct (if Req_EM_T _ 0 then None else _); [|discriminate]. destruct (get_curve_hold_data _ _). injection H as <-. reflexivity.
    + destruct (String.eqb k "curve_hold_curve"); [discriminate|]. cbn in H. discriminate.
Qed.

(** the leg from direction u to v over the length m2 - m: straight, or a turn that
    the connector draws as one arc *)
Definition drawn (u v : V3) (m m2 : R) : Prop :=
  v = u \/ exists t, angle_between u v t /\ 0 < t < PI /\ m2 - m <= 30 / level_dls * t /\
     1 / 10000000000 <= sin t /\ 1 / 100000 < Rabs (t - PI).
Lemma connection_two : forall p u v m m2, is_unit u -> is_unit v -> 1 / 10000 < m2 - m -> drawn u v m m2 ->
  exists c s a b, connector vzero (to_depth p u m m2 v) = inl c /\ connection_survey c = Some s /\
    sv_rows s = [a; b] /\ sv_nev s = [p; vadd p (step_between a b)] /\
    st_md a = m /\ st_md b = m2 /\ dir a = u /\ dir b = v /\ h_unit (sv_header s) = "meters"%string /\ length (sv_xyz s) = 2%nat.
Proof.
  intros p u v m m2 U V L DR.
  pose proof (angles_dir v V) as AV. destruct (get_angles true v) as [iv zv] eqn:GV.
  assert (NO : v <> vneg u).
  { destruct DR as [-> | (t & (A1 & A2) & A3 & _)].
    - intro E. assert (dot u u = 0). { rewrite E at 2. rewrite dot_comm, dot_vneg_l. unfold is_unit in U.
        assert (Q : dot u (vneg u) = dot u u) by (rewrite <- E; reflexivity). rewrite dot_comm, dot_vneg_l in Q. lra. }
      unfold is_unit in U. lra.
    - intro E. assert (C : cos t = -1).
      { rewrite A2, E. rewrite dot_comm, dot_vneg_l. unfold is_unit in U. rewrite U. reflexivity. }
      assert (t = PI); [|lra]. apply cos_inj_0_PI; try lra. rewrite cos_PI. auto. }
  assert (HV : heading_of (m2, iv, zv) = v) by exact AV.
  destruct (leg_spec level_dls p u m (m2, iv, zv) level_dls_pos U) as (c & LE & K).
  { cbn. lra. } { rewrite HV. auto. }
  rewrite HV in K. cbn [depth_of fst] in K. exists c.
  assert (CE : connector vzero (to_depth p u m m2 v) = inl c) by (rewrite <- LE, <- to_depth_leg, HV; reflexivity).
  pose proof (to_depth_pos1 _ _ _ _ _ _ CE) as P1.
  destruct K as (K1 & K2 & K3 & K4 & W & K).
  assert (ROWS : interpolate_well [c] None = [(0 + m, u); (m2 - m + m, v)]).
  { unfold interpolate_well. cbn [flat_map]. rewrite app_nil_r. unfold interpolate_section. rewrite K1, K2, K3, K4.
    destruct K as [(-> & M) | (NV & M & t & A & T & DG & D0 & X)]; rewrite M.
    - reflexivity.
    - destruct DR as [-> | (t' & A' & T' & B1 & B2 & B3)]; [contradiction|].
      assert (t' = t) by (destruct A as [? A], A' as [? A']; apply cos_inj_0_PI; try lra; congruence). subst t'.
      destruct (k_md2 c) as [x|].
      + exfalso. destruct X as [X1 [[X2 X3]|X2]]; [|lra].
        subst x. lra.
      + unfold interpolate_curve. rewrite X, DG. destruct (Req_EM_T (m2 - m) 0); [lra|].
        rewrite Rabs_pos_eq by lra. unfold offsets. cbn [map app].
        destruct (rodrigues_arc u v t U V A T B2) as (n0 & N1 & N2 & N3 & N4).
        rewrite !N4. f_equal; [f_equal|f_equal; f_equal].
        * rewrite Rmult_0_r. unfold arc_tangent. rewrite cos_0, sin_0. destruct u, n0; unf; apply V3_eq; simpl; ring.
        * replace (t / (m2 - m) * (m2 - m)) with t by (field; lra). auto. }
  unfold connection_survey, from_connections. rewrite ROWS. cbn [remove_duplicates drop_same_as_prev].
  cbn [fst].
  destruct (Z.eqb_spec (md_key (m2 - m + m)) (md_key (0 + m))) as [KE|KE].
  { exfalso. apply around_near in KE. rewrite Rabs_pos_eq in KE by lra. simpl in KE. lra. }
  cbn [map fst snd].
  pose proof (angles_dir u U) as AU. destruct (get_angles true u) as [iu zu] eqn:GU. rewrite GV.
  destruct (Survey_total plain_header [(0 + m, iu, zu); (m2 - m + m, iv, zv)] false vzero (vadd (k_pos1 c) vzero))
    as [s HS]; [left; reflexivity|simpl; lia|].
  change (h_unit plain_header) with "meters"%string in HS.
  pose proof (Survey_rows _ _ _ _ _ _ _ HS) as RS. cbn in RS.
  destruct (Survey_inv _ _ _ _ _ _ _ HS) as (_ & HH & _ & _ & _ & XE & NE & _).
  exists s, (mkSt (0 + m) iu zu), (mkSt (m2 - m + m) iv zv).
  split; [exact CE|]. split; [exact HS|]. split; [exact RS|].
  split; [|split; [cbn; lra|split; [cbn; lra|split; [exact AU|split; [exact AV|split; [rewrite HH; reflexivity|]]]]]].
  - rewrite NE, RS, mc_list_path. cbn [map path_from]. rewrite pair_delta_swap, P1.
    generalize (step_between (mkSt (0 + m) iu zu) (mkSt (m2 - m + m) iv zv)). intros [x y z].
    unfold P_Survey2.nev_of, get_nev, swap_xy; destruct p; unf. f_equal; [|f_equal]; apply V3_eq; simpl; ring.
  - rewrite XE, mc_list_length by (rewrite RS; simpl; lia). rewrite RS. reflexivity.
Qed.

(** ** the depth along a leg *)
Definition leg_z (p : V3) (a b : station) (x : R) : R := vz (leg_pos p a b x).
Definition half_turn_z (p : V3) (a b : station) : R :=
  vz (arc_point p (dir a) (bend_normal (dir a) (dir b) (pair_dogleg a b)) ((st_md b - st_md a) / pair_dogleg a b) PI).
Lemma leg_z_eq : forall p a b x T, 0 < pair_dogleg a b < PI -> 0 < st_md b - st_md a ->
  0 <= x <= st_md b - st_md a ->
  let th := pair_dogleg a b in let dl := st_md b - st_md a in let d := x * (th / dl) in
  let bb := vz (dir a) * cos th - vz (dir b) in
  leg_z p a b x = T <->
  vz (dir a) * sin th * sin d + bb * cos d = (T - vz p) * th * sin th / dl + bb.
Proof.
  intros p a b x T Ht Hm Hx th dl d bb. unfold leg_z. rewrite leg_pos_arc by auto. fold th dl. fold d.
  assert (Hs : 0 < sin th) by (apply sin_gt_0; unfold th; lra).
  unfold arc_point, bend_normal.
  assert (E : vz (vadd p (vadd (vscale (dl / th * sin d) (dir a))
     (vscale (dl / th * (1 - cos d)) (vscale (/ sin th) (vsub (dir b) (vscale (cos th) (dir a))))))) =
     vz p + dl / (th * sin th) * (vz (dir a) * sin th * sin d + bb * cos d - bb)).
  { unfold bb. destruct p, (dir a), (dir b). unf. field. unfold th in *. lra. }
  rewrite E. clear E. set (X := vz (dir a) * sin th * sin d + bb * cos d). clearbody X bb.
  assert (T0 : 0 < th) by (unfold th; lra). fold dl in Hm.
  split; intro H.
  - rewrite <- H. field. lra.
  - rewrite H. field. lra.
Qed.
Lemma half_turn_eq : forall p a b T, 0 < pair_dogleg a b < PI -> 0 < st_md b - st_md a ->
  let th := pair_dogleg a b in let dl := st_md b - st_md a in
  let bb := vz (dir a) * cos th - vz (dir b) in
  T <> half_turn_z p a b -> bb + ((T - vz p) * th * sin th / dl + bb) <> 0.
Proof.
  intros p a b T Ht Hm th dl bb NE E. apply NE. unfold half_turn_z. fold th dl.
  assert (Hs : 0 < sin th) by (apply sin_gt_0; unfold th; lra).
  unfold arc_point, bend_normal. rewrite sin_PI, cos_PI.
  assert (G : (T - vz p) = - 2 * bb * dl / (th * sin th)).
  { apply Rmult_eq_reg_r with (th * sin th / dl).
    - replace (-2 * bb * dl / (th * sin th) * (th * sin th / dl)) with (-2 * bb) by (field; unfold th, dl in *; lra).
      unfold Rdiv in *. lra.
    - apply Rgt_not_eq. apply Rdiv_lt_0_compat; [apply Rmult_lt_0_compat; unfold th in *; lra|unfold dl; lra]. }
  replace T with (vz p + (T - vz p)) by ring. rewrite G. unfold bb. fold th in Hs.
  destruct p, (dir a), (dir b). unf. field. unfold th in *; lra.
Qed.

Lemma np_search_two : forall z1 z2 v, let r := np_searchsorted_right [z1; z2] v in (r = 0 \/ r = 1 \/ r = 2)%nat.
Proof.
  intros. unfold r, np_searchsorted_right. simpl. destruct (Rle_dec z2 v); simpl; auto. destruct (Rle_dec z1 v); simpl; auto.
Qed.

Lemma node_tvd_found : forall p a b x1 T origin node1 node2,
  pair_dogleg a b < PI -> 0 <= x1 -> 1 / 10000 < st_md b - st_md a - x1 ->
  nd_md origin = st_md a -> nd_pos origin = p -> nd_vec origin = dir a ->
  nd_md node1 = st_md a + x1 -> nd_pos node1 = leg_pos p a b x1 -> nd_vec node1 = leg_dir a b x1 ->
  nd_md node2 = st_md b -> nd_vec node2 = dir b ->
  drawn (leg_dir a b x1) (dir b) (st_md a + x1) (st_md b) ->
  (0 < pair_dogleg a b -> T <> half_turn_z p a b) ->
  (exists x0, x1 <= x0 <= st_md b - st_md a /\ leg_z p a b x0 = T) ->
  (forall x, 0 <= x <= x1 -> leg_z p a b x <> T) ->
  exists n x, get_node_tvd node1 node2 T origin = Some n /\ x1 < x <= st_md b - st_md a /\
    nd_md n = st_md a + x /\ nd_pos n = leg_pos p a b x /\ nd_vec n = leg_dir a b x /\ leg_z p a b x = T /\
    forall y, 0 <= y < x -> leg_z p a b y <> T.
Proof.
  intros p a b x1 T origin node1 node2 Ht X1 Hm OM OP OV M1 P1 V1 M2 V2 DR HT (x0 & B0 & Z0) NX.
  unfold get_node_tvd. rewrite M1, P1, V1, M2, V2.
  destruct (connection_two (leg_pos p a b x1) (leg_dir a b x1) (dir b) (st_md a + x1) (st_md b))
    as (c & s & a' & b' & CE & SE & RS & NS & MA & MB & DA & DB & HU & LX); auto; try apply direction_unit; try lra.
  rewrite CE, SE. unfold interpolate_tvd_from. rewrite NS, RS. cbn [map length].
  set (r := np_searchsorted_right _ T).
  assert (IDX : exists k, (k = 1 \/ k = -1) /\ (if (r =? 2)%nat then ((2 - 2)%nat, 1)
       else match r with 0%nat => ((2 - 2)%nat, -1) | S i => (i, 1) end) = (0%nat, k)).
  { destruct (np_search_two (vz (leg_pos p a b x1)) (vz (vadd (leg_pos p a b x1) (step_between a' b'))) T) as [E|[E|E]]; unfold r; cbn [map] in *; rewrite E; cbn; eauto. }
  destruct IDX as (k & Hk & ->). cbn [nth_error].
  assert (OS : dir (node_station origin) = dir a).
  { rewrite <- OV. apply node_station_dir. rewrite OV. apply direction_unit. }
  assert (DG : pair_dogleg (node_station origin) b' = pair_dogleg a b).
  { destruct (pair_dogleg_range a b) as [A1 A2]. apply pair_dogleg_is; auto. rewrite A2, OS, DB. reflexivity. }
  rewrite DG, OM, OP, OV, MA, MB.
  destruct (leg_rest p a b x1 a' b' Ht ltac:(lra) ltac:(lra) MA DA MB DB) as [PD RST].
  assert (FIN : forall x, 0 < x <= st_md b - st_md a - x1 ->
    exists n, match match interpolate_at s x 0 with
        | None => TvdError
        | Some (r, h) => match node_of r with
            | None => TvdError
            | Some n => TvdOk (mkNode (nd_md n) (nd_pos n) (nd_vec n) (if Rlt_dec 0 x then true else false)) h
            end end with TvdOk n _ => Some n | _ => None end = Some n /\
       nd_md n = st_md a + (x1 + x) /\ nd_pos n = leg_pos p a b (x1 + x) /\ nd_vec n = leg_dir a b (x1 + x)).
  { intros x Bx. destruct (nth_error_some_lt _ (sv_xyz s) 0) as [xyz X]; [rewrite LX; lia|].
    destruct (interpolate_at_node s x 0 a' b' xyz (leg_pos p a b x1)) as (q & h0 & n0 & E1 & E2 & _ & M & PP & V & _); auto;
      try (rewrite RS; reflexivity); try (rewrite NS; reflexivity).
    rewrite E1, E2. eexists. split; [reflexivity|]. cbn [nd_md nd_pos nd_vec].
    destruct (RST x ltac:(lra)) as [R1 R2].
    split; [rewrite M, MA; ring|]. split; [rewrite PP; exact R2|]. rewrite V. exact R1. }
  destruct (Req_EM_T (pair_dogleg a b) 0) as [Z|NZ].
  - assert (LZ : forall x, leg_z p a b x = vz p + x * vz (dir a)).
    { intro x. unfold leg_z. rewrite leg_pos_straight by auto. destruct p, (dir a). reflexivity. }
    assert (NU : vz (dir a) <> 0).
    { intro E. apply (NX x1 ltac:(lra)). rewrite <- Z0, !LZ, E. ring. }
    assert (ST : vz (vadd (leg_pos p a b x1) (step_between a' b')) = leg_z p a b x1 + (st_md b - (st_md a + x1)) * vz (dir a)).
    { assert (PZ : pair_dogleg a' b' = 0) by (rewrite PD, Z; unfold Rdiv; ring).
      rewrite step_straight' by auto. rewrite DA, leg_dir_straight by auto. rewrite MA, MB. unfold leg_z.
      destruct (leg_pos p a b x1), (dir a). reflexivity. }
    rewrite ST. fold (leg_z p a b x1).
    assert (NE : (st_md b - (st_md a + x1)) * vz (dir a) <> 0) by (apply Rmult_integral_contrapositive; split; lra).
    destruct (Req_EM_T (leg_z p a b x1 + (st_md b - (st_md a + x1)) * vz (dir a)) (leg_z p a b x1)); [exfalso; apply NE; lra|].
    replace ((T - leg_z p a b x1) / (leg_z p a b x1 + (st_md b - (st_md a + x1)) * vz (dir a) - leg_z p a b x1) * (st_md b - (st_md a + x1)))
      with (x0 - x1).
    2: { replace (leg_z p a b x1 + (st_md b - (st_md a + x1)) * vz (dir a) - leg_z p a b x1)
           with ((st_md b - (st_md a + x1)) * vz (dir a)) by ring.
         rewrite <- Z0, !LZ. field. split; lra. }
    assert (X01 : x1 < x0).
    { destruct (Req_dec x0 x1) as [->|]; [|lra]. exfalso. apply (NX x1); auto; lra. }
    destruct (FIN (x0 - x1) ltac:(lra)) as (nn & E & F1 & F2 & F3).
    exists nn, x0. split; [exact E|]. replace (x1 + (x0 - x1)) with x0 in * by ring.
    split; [lra|]. split; [auto|]. split; [auto|]. split; [auto|]. split; [auto|].
    intros y By. rewrite LZ, <- Z0, LZ. intro Q. assert (y = x0); [|lra].
    apply Rmult_eq_reg_r with (vz (dir a)); auto. lra.
  - destruct (pair_dogleg_range a b) as [[T0 _] _].
    set (th := pair_dogleg a b) in *. assert (R0 : 0 < th < PI) by lra.
    set (dl := st_md b - st_md a) in *.
    assert (K0 : 0 < th / dl) by (apply Rdiv_lt_0_compat; lra).
    assert (AP : forall y, 0 <= y <= dl -> 0 <= y * (th / dl) <= th).
    { intros y By. split; [nra|]. replace th with (dl * (th / dl)) at 2 by (field; lra). apply Rmult_le_compat_r; lra. }
    rewrite get_vec_spec by lra. change (direction_nev (st_inc b') (st_azi b')) with (dir b'). rewrite DB.
    destruct (tvd_angle_first k (vz (dir a)) (vz (dir b)) th dl (T - vz p) (x0 * (th / dl)) Hk) as (d & TE & D0 & DE & DN).
    { apply half_turn_eq; [exact R0|unfold dl in *; lra|apply HT; lra]. }
    { specialize (AP x0 ltac:(lra)). lra. }
    { apply leg_z_eq; auto; unfold dl in *; lra. }
    rewrite TE.
    set (x := d / th * dl). assert (XD : x * (th / dl) = d) by (unfold x; field; lra).
    assert (Bx : 0 <= x <= x0).
    { split; [unfold x; apply Rmult_le_pos; [apply Rle_mult_inv_pos; lra|lra]|].
      apply Rmult_le_reg_r with (th / dl); auto. rewrite XD. lra. }
    assert (ZX : leg_z p a b x = T).
    { apply leg_z_eq; [exact R0|unfold dl in *; lra|unfold dl in *; lra|]. fold th dl. rewrite XD. exact DE. }
    assert (X1X : x1 < x).
    { destruct (Rlt_dec x1 x); auto. exfalso. apply (NX x); auto; lra. }
    replace (x - (st_md a + x1 - st_md a)) with (x - x1) by ring.
    destruct (Rle_dec (x - x1) dl) as [_|]; [|lra].
    destruct (FIN (x - x1) ltac:(lra)) as (n & E & F1 & F2 & F3).
    exists n, x. split; [exact E|]. replace (x1 + (x - x1)) with x in * by ring.
    split; [lra|]. split; [auto|]. split; [auto|]. split; [auto|]. split; [auto|].
    intros y By Q. apply (DN (y * (th / dl))).
    + split; [apply AP; lra|]. rewrite <- XD. apply Rmult_lt_compat_r; lra.
    + apply leg_z_eq in Q; auto; unfold dl in *; lra.
Qed.
