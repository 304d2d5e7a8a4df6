(** Closest points, bearings, mesh separation factor, sigmas past the kick-off
    point, and the random-source counterexample. *)
Require Import Reals ZArith Bool String List Lra Lia Psatz.
Require Import Verif.Base Verif.NumPy Verif.P_Trig Verif.Spec Verif.Spec_Lists Verif.M_Utils Verif.P_Utils Verif.P_Utils2.
Require Import Verif.M_Survey Verif.P_Survey Verif.P_Survey2 Verif.P_Survey5.
Require Import Verif.M_Error Verif.Spec_Error Verif.P_Error Verif.P_Error2 Verif.M_Clearance Verif.P_Clearance Verif.P_Clearance2 Verif.Spec_Clearance.
Import ListNotations.
Open Scope R_scope.

Lemma norm_vsub_dist : forall a b, norm (vsub a b) = dist b a.
Proof. intros. unfold dist. rewrite <- norm_vneg. f_equal. vring. Qed.
(** ** C31 *)
Lemma argmin_spec : forall l, l <> [] -> exists m, nth_error l (argmin l) = Some m /\
  (forall k x, nth_error l k = Some x -> m <= x) /\
  (forall k x, (k < argmin l)%nat -> nth_error l k = Some x -> m < x).
Proof.
  induction l as [|a r IH]; intro N; [congruence|]. destruct r as [|b r].
  { exists a. split; [reflexivity|]. split.
    - intros [|[|k]] x H; simpl in H; try discriminate. injection H; intro; subst; lra.
    - intros k x H. simpl in H. lia. }
  destruct IH as (m & Hm & M1 & M2); [discriminate|].
  change (argmin (a :: b :: r)) with (let j := argmin (b :: r) in
                     match nth_error (b :: r) j with
                     | Some b => if Rle_dec a b then 0%nat else S j
                     | None => 0%nat
                     end). cbv zeta. rewrite Hm.
  destruct (Rle_dec a m).
  - exists a. split; [reflexivity|]. split.
    + intros [|k] x H. simpl in H. injection H; intro; subst; lra.
      specialize (M1 k x H). lra.
    + intros; lia.
  - exists m. split; [exact Hm|]. split.
    + intros [|k] x H. simpl in H. injection H; intro; subst; lra. apply (M1 k x H).
    + intros [|k] x L H. simpl in H. injection H; intro; subst; lra. apply (M2 k x); auto. lia.
Qed.

Section Closest.
  Variables (h : header) (rows : list row) (deg : bool) (sx sn : V3) (unit : string) (s : survey).
  Hypothesis HS : Survey h rows deg sx sn unit = Some s.
  Hypothesis Hinc : strictly_increasing (map st_md (sv_rows s)).
  Hypothesis Hdl : forall k a b, nth_error (sv_rows s) k = Some a -> nth_error (sv_rows s) (S k) = Some b ->
    pair_dogleg a b < PI.

  Lemma interpolate_md_in : forall k a b p x, nth_error (sv_rows s) k = Some a -> nth_error (sv_rows s) (S k) = Some b ->
    nth_error (sv_nev s) k = Some p -> 0 <= x <= st_md b - st_md a ->
    exists n h', survey_interpolate_md s (st_md a + x) = NodeOk n h' /\ nd_md n = st_md a + x /\
      nd_pos n = interpolate_pos_nev p a b x.
  Proof.
    intros k a b p x Ha Hb Hp Hx.
    pose proof (md_step_pos s Hinc _ _ _ Ha Hb) as HP.
    destruct (Req_EM_T x 0) as [->|Nx].
    { destruct (interp_at_start a b p (Hdl _ _ _ Ha Hb) HP) as [_ E]. rewrite E. rewrite Rplus_0_r.
      destruct (interpolate_md_station h rows deg sx sn unit s HS Hinc k a p Hdl Ha Hp) as (n & h' & A & B & C & _).
      exists n, h'. auto. }
    destruct (Survey_xyz_len _ _ _ _ _ _ _ HS) as [L1 L2].
    assert (S k < length (sv_rows s))%nat by (apply nth_error_Some; congruence).
    destruct (nth_error_some_lt _ (sv_rows s) 0) as [first Hf]; [lia|].
    destruct (nth_error_some_lt _ (sv_rows s) (pred (length (sv_rows s)))) as [last Hl]; [lia|].
    assert (MB : st_md b <= st_md last).
    { destruct (Nat.eq_dec (S k) (pred (length (sv_rows s)))) as [E|E]. rewrite E in Hb. assert (b = last) by congruence; subst; lra.
      left. eapply (increasing_nth_lt _ (S k) (pred (length (sv_rows s)))); eauto using mds_nth. lia. }
    assert (MF : st_md first <= st_md a).
    { destruct k. assert (a = first) by congruence; subst; lra.
      left. eapply (increasing_nth_lt _ 0 (S k)); eauto using mds_nth. lia. }
    destruct (interpolate_md_inside h rows deg sx sn unit s HS Hinc (st_md a + x) first last Hf Hl ltac:(lra))
      as (j & a' & b' & xyz & nev & n & h' & Ha' & Hb' & _ & Hn' & E & R1 & R2 & N1 & N2 & _).
    rewrite Rmax_left in * by lra. exists n, h'. split; auto. split; auto.
    assert (JK : j = k).
    { destruct (Nat.lt_trichotomy j k) as [Q|[Q|Q]]; auto; exfalso.
      - assert (st_md b' <= st_md a).
        { destruct (Nat.eq_dec (S j) k) as [Z|Z]. subst k. assert (b' = a) by congruence. subst; lra.
          left. eapply (increasing_nth_lt _ (S j) k); eauto using mds_nth. lia. }
        lra.
      - assert (st_md b <= st_md a').
        { destruct (Nat.eq_dec (S k) j) as [Z|Z]. subst j. assert (a' = b) by congruence. subst; lra.
          left. eapply (increasing_nth_lt _ (S k) j); eauto using mds_nth. lia. }
        destruct R2 as [R2|R2]; [|lra].
        assert (st_md first < st_md a'). { eapply (increasing_nth_lt _ 0 j); eauto using mds_nth. lia. } lra. }
    subst j. assert (a' = a) by congruence. assert (b' = b) by congruence. assert (nev = p) by congruence. subst.
    rewrite N2. f_equal. ring.
  Qed.

  Lemma interval_val : forall k a b, nth_error (sv_rows s) k = Some a -> nth_error (sv_rows s) (S k) = Some b ->
    interval s k = st_md b - st_md a.
  Proof. intros. unfold interval. rewrite (nth_error_nth _ _ _ H), (nth_error_nth _ _ _ H0). reflexivity. Qed.

  (** the report of one interval *)
  Lemma report_ok : forall station k a b p x, nth_error (sv_rows s) k = Some a -> nth_error (sv_rows s) (S k) = Some b ->
    nth_error (sv_nev s) k = Some p -> 0 <= x <= st_md b - st_md a ->
    exists q r h' n h'', interpolate_at s x k = Some (r, h') /\ nth_error (sv_nev r) 1 = Some q /\
      closest_fun s k station x = dist station q /\
      survey_interpolate_md s (st_md a + x) = NodeOk n h'' /\ nd_md n = st_md a + x /\ nd_pos n = q.
  Proof.
    intros station k a b p x Ha Hb Hp Hx.
    assert (S k < length (sv_rows s))%nat by (apply nth_error_Some; congruence).
    destruct (rows_at h rows deg sx sn unit s HS k) as (a' & b' & xyz & p' & A & B & X & P); [lia|].
    assert (a' = a) by congruence. assert (b' = b) by congruence. assert (p' = p) by congruence. subst.
    destruct (interpolate_at_node s x k a b xyz p Ha Hb X Hp (depth_unit_ok h rows deg sx sn unit s HS))
      as (r & h' & n & E & NO & _ & _ & N2 & _).
    destruct (interpolate_md_in k a b p x Ha Hb Hp Hx) as (n' & h'' & I1 & I2 & I3).
    assert (Q : nth_error (sv_nev r) 1 = Some (nd_pos n)).
    { unfold node_of in NO. destruct (nth_error (sv_rows r) 1); [|discriminate].
      destruct (nth_error (sv_nev r) 1); [|discriminate]. destruct (nth_error (sv_interpolated r) 1); [|discriminate].
      injection NO; intro; subst n. reflexivity. }
    exists (nd_pos n), r, h', n', h''. split; auto. split; auto. split.
    - unfold closest_fun. rewrite Ha, Hb, Hp, N2. apply norm_vsub_dist.
    - split; auto. split; auto. congruence.
  Qed.

  Lemma closest_point_spec : forall opt station, never_worse opt ->
    exists index x f q a b n h',
      closest_point opt s station (nearest_station (sv_nev s) station) = Some (index, x, f, q) /\
      adjacent (nearest_station (sv_nev s) station) index /\
      nth_error (sv_rows s) index = Some a /\ nth_error (sv_rows s) (S index) = Some b /\
      0 <= x <= st_md b - st_md a /\
      survey_interpolate_md s (st_md a + x) = NodeOk n h' /\ nd_md n = st_md a + x /\ nd_pos n = q /\
      f = dist station q /\
      forall k o, nth_error (sv_nev s) k = Some o -> dist station q <= dist station o.
  Proof.
    intros opt station OPT.
    destruct (Survey_xyz_len _ _ _ _ _ _ _ HS) as [L1 L2].
    pose proof (Survey_inv _ _ _ _ _ _ _ HS) as (_ & _ & L & _).
    set (i := nearest_station (sv_nev s) station).
    destruct (argmin_spec (map (fun q => dist station q) (sv_nev s))) as (m & Hm & M1 & _).
    { destruct (sv_nev s); [simpl in *; lia|discriminate]. }
    fold (nearest_station (sv_nev s) station) in Hm. fold i in Hm.
    rewrite nth_error_map in Hm. destruct (nth_error (sv_nev s) i) as [o|] eqn:Ho; [|discriminate]. simpl in Hm.
    assert (MIN : forall k o', nth_error (sv_nev s) k = Some o' -> dist station o <= dist station o').
    { intros k o' Hk. injection Hm; intros ->. apply (M1 k). rewrite nth_error_map, Hk. reflexivity. }
    assert (iL : (i < length (sv_nev s))%nat) by (apply nth_error_Some; congruence).
    (* the interval before *)
    assert (R1 : (0 < i)%nat -> exists a b p x, nth_error (sv_rows s) (i - 1) = Some a /\ nth_error (sv_rows s) (S (i - 1)) = Some b /\
       nth_error (sv_nev s) (i - 1) = Some p /\
       fst (opt (closest_fun s (i - 1) station) (interval s (i - 1)) (interval s (i - 1))) = x /\ 0 <= x <= st_md b - st_md a /\
       snd (opt (closest_fun s (i - 1) station) (interval s (i - 1)) (interval s (i - 1))) = closest_fun s (i - 1) station x /\
       closest_fun s (i - 1) station x <= dist station o).
    { intro Hi. destruct (rows_at h rows deg sx sn unit s HS (i - 1)) as (a & b & xyz & p & A & B & X & P); [lia|].
      exists a, b, p. eexists. split; auto. split; auto. split; auto. split; [reflexivity|].
      pose proof (md_step_pos s Hinc _ _ _ A B) as HP. rewrite (interval_val _ _ _ A B).
      specialize (OPT (closest_fun s (i - 1) station) (st_md b - st_md a) (st_md b - st_md a) ltac:(lra)).
      destruct (opt _ _ _) as [x v]. destruct OPT as (O1 & O2 & O3). cbn [fst snd]. split; auto. split; auto.
      rewrite <- O2. eapply Rle_trans; [exact O3|]. right.
      unfold closest_fun. rewrite A, B, P.
      destruct (interp_at_end a b p (Hdl _ _ _ A B) HP) as [_ E]. rewrite E.
      replace (S (i - 1)) with i in * by lia.
      replace i with (S (i - 1)) in B, Ho by lia.
      rewrite <- (Survey_nev_step _ _ _ _ _ _ _ _ _ _ _ _ HS A B P Ho). apply norm_vsub_dist. }
    assert (R2 : (i < length (sv_nev s) - 1)%nat -> exists a b p x, nth_error (sv_rows s) i = Some a /\ nth_error (sv_rows s) (S i) = Some b /\
       nth_error (sv_nev s) i = Some p /\
       fst (opt (closest_fun s i station) 0 (interval s i)) = x /\ 0 <= x <= st_md b - st_md a /\
       snd (opt (closest_fun s i station) 0 (interval s i)) = closest_fun s i station x /\
       closest_fun s i station x <= dist station o).
    { intro Hi. destruct (rows_at h rows deg sx sn unit s HS i) as (a & b & xyz & p & A & B & X & P); [lia|].
      exists a, b, p. eexists. split; auto. split; auto. split; auto. split; [reflexivity|].
      pose proof (md_step_pos s Hinc _ _ _ A B) as HP. rewrite (interval_val _ _ _ A B).
      specialize (OPT (closest_fun s i station) 0 (st_md b - st_md a) ltac:(lra)).
      destruct (opt _ _ _) as [x v]. destruct OPT as (O1 & O2 & O3). cbn [fst snd]. split; auto. split; auto.
      rewrite <- O2. eapply Rle_trans; [exact O3|]. right.
      unfold closest_fun. rewrite A, B, P.
      destruct (interp_at_start a b p (Hdl _ _ _ A B) HP) as [_ E]. rewrite E.
      assert (p = o) by congruence. subst p. apply norm_vsub_dist. }
    assert (DONE : forall index a b p x, adjacent i index -> nth_error (sv_rows s) index = Some a -> nth_error (sv_rows s) (S index) = Some b ->
       nth_error (sv_nev s) index = Some p -> 0 <= x <= st_md b - st_md a -> closest_fun s index station x <= dist station o ->
       exists q n h', match interpolate_at s x index with
                | Some (sv, _) => match nth_error (sv_nev sv) 1 with Some q => Some (index, x, closest_fun s index station x, q) | None => None end
                | None => None end = Some (index, x, closest_fun s index station x, q) /\
       survey_interpolate_md s (st_md a + x) = NodeOk n h' /\ nd_md n = st_md a + x /\ nd_pos n = q /\
       closest_fun s index station x = dist station q /\
       forall k o, nth_error (sv_nev s) k = Some o -> dist station q <= dist station o).
    { intros index a b p x AD A B P X F. destruct (report_ok station index a b p x A B P X) as (q & r & h' & n & h'' & E1 & E2 & E3 & E4 & E5 & E6).
      exists q, n, h''. rewrite E1, E2. split; auto. split; auto. split; auto. split; auto. split; auto.
      intros k o' Ho'. rewrite E3 in F. specialize (MIN k o' Ho'). lra. }
    unfold closest_point. fold i.
    destruct (Nat.ltb_spec 0 i) as [B1|B1]; destruct (Nat.ltb_spec i (length (sv_nev s) - 1)) as [B2|B2]; try lia;
      try destruct (R1 B1) as (a1 & b1 & p1 & x1 & A1 & A2 & A3 & A4 & A5 & A6 & A7);
      try destruct (R2 B2) as (a2 & b2 & p2 & x2 & C1 & C2 & C3 & C4 & C5 & C6 & C7).
    - destruct (Rlt_dec _ _) as [LT|LT].
      + rewrite A4, A6. destruct (DONE (i - 1)%nat a1 b1 p1 x1) as (q & n & h' & D & D'); auto. right; lia.
        exists (i - 1)%nat, x1, (closest_fun s (i - 1) station x1), q, a1, b1, n, h'. split; auto. split; [right; lia|]. tauto.
      + rewrite C4, C6. destruct (DONE i a2 b2 p2 x2) as (q & n & h' & D & D'); auto. left; auto.
        exists i, x2, (closest_fun s i station x2), q, a2, b2, n, h'. split; auto. split; [left; auto|]. tauto.
    - rewrite A4, A6. destruct (DONE (i - 1)%nat a1 b1 p1 x1) as (q & n & h' & D & D'); auto. right; lia.
      exists (i - 1)%nat, x1, (closest_fun s (i - 1) station x1), q, a1, b1, n, h'. split; auto. split; [right; lia|]. tauto.
    - rewrite C4, C6. destruct (DONE i a2 b2 p2 x2) as (q & n & h' & D & D'); auto. left; auto.
      exists i, x2, (closest_fun s i station x2), q, a2, b2, n, h'. split; auto. split; [left; auto|]. tauto.
  Qed.
End Closest.

(** ** C64: bearings *)
Lemma bearing_value : forall y x,
  let t := rmod (around6 (arctan2 y x) + PI * 2) (PI * 2) in
  0 <= t < 2 * PI /\ exists e, Rabs e <= / (2 * 10 ^ 6) /\
    x = sqrt (x * x + y * y) * cos (t + e) /\ y = sqrt (x * x + y * y) * sin (t + e).
Proof.
  intros y x t. pose proof PI_RGT_0. unfold t. rewrite (Rmult_comm PI 2). split. apply rmod_bounds; lra.
  set (a := arctan2 y x). exists (a - around6 a).
  split. { rewrite Rabs_minus_sym. pose proof (around6_near a). lra. }
  assert (K : exists k : Z, rmod (around6 a + 2 * PI) (2 * PI) = around6 a + 2 * PI * IZR k).
  { unfold rmod. exists (1 - rfloor ((around6 a + 2 * PI) / (2 * PI)))%Z. rewrite minus_IZR. ring. }
  destruct K as [k K]. rewrite K. replace (around6 a + 2 * PI * IZR k + (a - around6 a)) with (a + 2 * PI * IZR k) by ring.
  assert (C : cos (a + 2 * PI * IZR k) = cos a /\ sin (a + 2 * PI * IZR k) = sin a).
  { rewrite <- cos_rmod, <- sin_rmod, rmod_shift, cos_rmod, sin_rmod by lra. auto. }
  destruct C as [-> ->]. destruct (arctan2_cos_sin y x) as [A B]. fold a in A, B. auto.
Qed.

Lemma unit_or_zero_back : forall v, v = vscale (norm v) (unit_or_zero v (norm v)).
Proof.
  intro v. unfold unit_or_zero. destruct (Req_EM_T (norm v) 0) as [E|E].
  - assert (Z : v = vzero).
    { pose proof (norm_sqr v) as S. rewrite E in S. destruct v; unfold dot in S; simpl in S. unfold vzero. f_equal; nra. }
    rewrite E. rewrite Z. vring.
  - destruct v; unf. f_equal; field; auto.
Qed.
Lemma bearings_hoz : forall inc azi p q,
  let t := dl_hoz_bearing (delta_vectors inc azi p q) in
  0 <= t < 2 * PI /\ exists e r, Rabs e <= / (2 * 10 ^ 6) /\ 0 <= r /\
    vx (vsub q p) = r * cos (t + e) /\ vy (vsub q p) = r * sin (t + e).
Proof.
  intros inc azi p q t. unfold t, delta_vectors. cbn [dl_hoz_bearing].
  set (u := unit_or_zero (vsub q p) (norm (vsub q p))).
  destruct (bearing_value (vy u) (vx u)) as (B & e & E & X & Y). split; auto.
  exists e, (norm (vsub q p) * sqrt (vx u * vx u + vy u * vy u)). split; auto. split.
  { apply Rmult_le_pos. apply norm_ge0. apply sqrt_pos. }
  pose proof (unit_or_zero_back (vsub q p)) as V. fold u in V.
  split.
  - rewrite V at 1. cbn [vscale vx]. rewrite Rmult_assoc. f_equal. exact X.
  - rewrite V at 1. cbn [vscale vy]. rewrite Rmult_assoc. f_equal. exact Y.
Qed.
Lemma bearings_toolface : forall inc azi p q,
  let t := dl_toolface (delta_vectors inc azi p q) in
  let high_side := mkV (cos inc * cos azi) (cos inc * sin azi) (- sin inc) in
  let lateral := mkV (- sin azi) (cos azi) 0 in
  0 <= t < 2 * PI /\ exists e r, Rabs e <= / (2 * 10 ^ 6) /\ 0 <= r /\
    dot (vsub q p) high_side = r * cos (t + e) /\ dot (vsub q p) lateral = r * sin (t + e).
Proof.
  intros inc azi p q t hs la. unfold t, delta_vectors. cbn [dl_toolface].
  set (u := unit_or_zero (vsub q p) (norm (vsub q p))).
  set (w := NEV_to_HLA_vec inc azi u).
  destruct (bearing_value (vy w) (vx w)) as (B & e & E & X & Y). split; auto.
  exists e, (norm (vsub q p) * sqrt (vx w * vx w + vy w * vy w)). split; auto. split.
  { apply Rmult_le_pos. apply norm_ge0. apply sqrt_pos. }
  pose proof (unit_or_zero_back (vsub q p)) as V. fold u in V.
  assert (WX : vx w = dot u hs). { unfold w, hs. rewrite hla_vec_mv. clear. destruct u; unfold get_transform; unf; simpl; ring. }
  assert (WY : vy w = dot u la). { unfold w, la. rewrite hla_vec_mv. clear. destruct u; unfold get_transform; unf; simpl; ring. }
  split.
  - rewrite V at 1. rewrite dot_vscale_l, <- WX, Rmult_assoc. f_equal. exact X.
  - rewrite V at 1. rewrite dot_vscale_l, <- WY, Rmult_assoc. f_equal. exact Y.
Qed.
Lemma deg_wrap : forall t, 0 <= t < 2 * PI -> rmod (degrees t + 360) 360 = degrees t.
Proof.
  intros t H. pose proof PI_RGT_0. assert (D : degrees t = t * (180 / PI)) by (unfold degrees; field; lra).
  assert (B : 0 <= degrees t < 360).
  { rewrite D. split. apply Rmult_le_pos; [lra|]. unfold Rdiv. apply Rmult_le_pos; [lra|left; apply Rinv_0_lt_compat; lra].
    apply Rlt_le_trans with (2 * PI * (180 / PI)). apply Rmult_lt_compat_r; [|lra]. unfold Rdiv. apply Rmult_lt_0_compat; [lra|apply Rinv_0_lt_compat; lra].
    right. field. lra. }
  apply (rmod_unique _ _ _ 1); [lra|auto|ring].
Qed.
Lemma bearings_deg : forall inc azi p q,
  let d := delta_vectors inc azi p q in
  dl_hoz_bearing_deg d = degrees (dl_hoz_bearing d) /\ dl_toolface_deg d = degrees (dl_toolface d) /\
  forall grid, 0 <= traveling_cylinder grid (dl_toolface_deg d) < 360 /\
    exists k, traveling_cylinder grid (dl_toolface_deg d) = grid + degrees (dl_toolface d) + 360 * IZR k.
Proof.
  intros inc azi p q d. destruct (bearings_hoz inc azi p q) as (A & _). destruct (bearings_toolface inc azi p q) as (B & _).
  unfold d. split; [|split].
  - unfold delta_vectors in *. cbn [dl_hoz_bearing_deg dl_hoz_bearing] in *. apply deg_wrap; auto.
  - unfold delta_vectors in *. cbn [dl_toolface_deg dl_toolface] in *. apply deg_wrap; auto.
  - assert (E : dl_toolface_deg (delta_vectors inc azi p q) = degrees (dl_toolface (delta_vectors inc azi p q))).
    { unfold delta_vectors in *. cbn [dl_toolface_deg dl_toolface] in *. apply deg_wrap; auto. }
    intro. rewrite E. unfold traveling_cylinder. split; [apply rmod_bounds; lra|].
    set (x := grid + degrees (dl_toolface (delta_vectors inc azi p q)) + 360).
    exists (1 - rfloor (x / 360))%Z. unfold rmod. rewrite minus_IZR. unfold x. ring.
Qed.

(** ** C63 *)
Lemma mesh_decision : forall collision cc distance depth, 0 <= cc -> 0 <= depth -> 0 <= distance <= cc ->
  (collision = true -> exists x, mesh_sf collision cc distance depth = Fin x /\ 0 <= x < 1) /\
  (collision = false -> mesh_sf collision cc distance depth = PInf \/
                        exists x, mesh_sf collision cc distance depth = Fin x /\ 1 <= x) /\
  (collision = false -> forall cc' distance' x y, 0 <= distance' <= cc' -> cc - distance = cc' - distance' -> distance <= distance' ->
     mesh_sf false cc distance depth = Fin x -> mesh_sf false cc' distance' depth = Fin y -> x <= y).
Proof.
  intros collision cc distance depth H1 H2 H3. split; [|split].
  - intros ->. unfold mesh_sf. destruct (Req_EM_T cc 0). exists 0. split; auto; lra.
    destruct (Req_EM_T depth 0). exists 0. split; auto; lra.
    eexists. split; [reflexivity|].
    assert (Q : cc / (cc + depth) * (cc + depth) = cc) by (field; lra).
    split. unfold Rdiv. apply Rmult_le_pos; [lra|left; apply Rinv_0_lt_compat; lra].
    destruct (Rlt_dec (cc / (cc + depth)) 1); auto. nra.
  - intros ->. unfold mesh_sf. destruct (Req_EM_T (cc - distance) 0); [left; auto|]. right.
    eexists. split; [reflexivity|]. assert (Q : cc / (cc - distance) * (cc - distance) = cc) by (field; lra).
    destruct (Rle_dec 1 (cc / (cc - distance))); auto. nra.
  - intros _ cc' distance' x y A B C. unfold mesh_sf.
    destruct (Req_EM_T (cc - distance) 0); [discriminate|]. destruct (Req_EM_T (cc' - distance') 0); [discriminate|].
    intros X Y. injection X; injection Y; intros; subst. rewrite B. unfold Rdiv. apply Rmult_le_compat_r; [left; apply Rinv_0_lt_compat; lra|lra].
Qed.
Lemma rint_val : forall x (n : Z), IZR n - 1/2 < x < IZR n + 1/2 -> rint x = n.
Proof.
  intros x n H. pose proof (rint_near x) as N.
  assert (- (1/2) <= IZR (rint x) - x <= 1/2) by (unfold Rabs in N; destruct (Rcase_abs _) in N; lra).
  assert (A : IZR (rint x) < IZR (n + 1)) by (rewrite plus_IZR; lra). assert (B : IZR (n - 1) < IZR (rint x)) by (rewrite minus_IZR; lra).
  apply lt_IZR in A. apply lt_IZR in B. lia.
Qed.
Lemma mesh_round_hides : exists cc distance depth x, 0 < cc /\ 0 < depth /\ 0 <= distance <= cc /\
  mesh_sf true cc distance depth = Fin x /\ x < 1 /\ round2 x = 1.
Proof.
  exists 249, 0, 1, (249 / 250). split; [lra|]. split; [lra|]. split; [lra|]. split; [|split; [lra|]].
  - unfold mesh_sf. destruct (Req_EM_T 249 0); [lra|]. destruct (Req_EM_T 1 0); [lra|]. do 2 f_equal. lra.
  - unfold round2. rewrite (rint_val _ 100); lra.
Qed.

(** ** C65 *)
Lemma vsum_rev : forall l, vsum (rev l) = vsum l.
Proof.
  induction l; simpl; auto. rewrite vsum_app, IHl. unfold vsum; simpl. set (x := fold_right vadd vzero l). clearbody x. vring.
Qed.
Lemma telescope : forall l n i a b, nth_error l i = Some a -> nth_error l (i + n) = Some b ->
  vsum (slice i n (pairwise (fun a b => vsub b a) l)) = vsub b a.
Proof.
  induction l as [|x l IH]; intros n i a b Ha Hb. destruct i; discriminate.
  destruct l as [|y l].
  - destruct i; [|destruct i; discriminate]. destruct n; [|destruct n; discriminate]. simpl in *. unfold slice; simpl.
    assert (a = b) by congruence. subst. unfold vsum; simpl. rewrite vsub_self. auto.
  - destruct i as [|i].
    + destruct n as [|n]. { simpl in *. assert (a = b) by congruence. subst. unfold slice, vsum; simpl. rewrite vsub_self. auto. }
      simpl in Ha, Hb. injection Ha; intro; subst x.
      change (pairwise (fun a b => vsub b a) (a :: y :: l)) with (vsub y a :: pairwise (fun a b => vsub b a) (y :: l)).
      unfold slice. cbn [skipn firstn]. unfold vsum. cbn [fold_right].
      specialize (IH n 0%nat y b eq_refl Hb). unfold slice, vsum in IH. cbn [skipn] in IH. rewrite IH. vring.
    + change (pairwise (fun a b => vsub b a) (x :: y :: l)) with (vsub y x :: pairwise (fun a b => vsub b a) (y :: l)).
      unfold slice. cbn [skipn]. apply (IH n i a b); auto.
Qed.
Lemma ref_sigma_spec : forall sigma ki s0, nth_error sigma ki = Some s0 ->
  length (get_ref_sigma sigma ki) = length sigma /\
  nth_error (get_ref_sigma sigma ki) ki = Some vzero /\
  (forall j s, (j < ki)%nat -> nth_error sigma j = Some s -> nth_error (get_ref_sigma sigma ki) j = Some (vsub s0 s)) /\
  (forall j s, (ki < j)%nat -> nth_error sigma j = Some s -> nth_error (get_ref_sigma sigma ki) j = Some (vsub s s0)).
Proof.
  intros sigma ki s0 H.
  assert (L : (ki < length sigma)%nat) by (apply nth_error_Some; congruence).
  set (d := pairwise (fun a b => vsub b a) sigma).
  assert (LD : length d = pred (length sigma)) by apply pairwise_length.
  assert (LA : length (rev (vcumsum (rev (firstn ki d)))) = ki).
  { rewrite rev_length, vcumsum_length, rev_length, firstn_length. lia. }
  unfold get_ref_sigma. fold d. split; [|split; [|split]].
  - rewrite !app_length, LA, vcumsum_length, skipn_length. simpl. lia.
  - rewrite nth_error_app2; rewrite LA; [|lia]. rewrite Nat.sub_diag. reflexivity.
  - intros j s Hj Hs. rewrite nth_error_app1 by lia.
    assert (LF : length (firstn ki d) = ki) by (rewrite firstn_length; lia).
    assert (NR : forall (l : list V3) j, (j < length l)%nat -> nth_error (rev l) j = nth_error l (length l - S j)).
    { intros l j' Hl. destruct (nth_error_some_lt _ l (length l - S j') ltac:(lia)) as [y Hy]. rewrite Hy.
      rewrite (nth_error_nth' (rev l) vzero) by (rewrite rev_length; lia). rewrite rev_nth by lia.
      f_equal. apply nth_error_nth. auto. }
    rewrite NR by (rewrite vcumsum_length, rev_length; lia).
    rewrite vcumsum_length, rev_length, LF. rewrite vcumsum_nth by (rewrite rev_length; lia).
    f_equal. replace (S (ki - S j)) with (ki - j)%nat by lia.
    rewrite firstn_rev, LF, vsum_rev. replace (ki - (ki - j))%nat with j by lia.
    rewrite skipn_firstn_comm. change (firstn (ki - j) (skipn j d)) with (slice j (ki - j) d).
    apply telescope; auto. replace (j + (ki - j))%nat with ki by lia. auto.
  - intros j s Hj Hs. assert (j < length sigma)%nat by (apply nth_error_Some; congruence).
    rewrite nth_error_app2; rewrite LA; [|lia].
    replace (j - ki)%nat with (S (j - ki - 1)) by lia. cbn [app nth_error].
    rewrite vcumsum_nth by (rewrite skipn_length; lia). f_equal.
    change (firstn (S (j - ki - 1)) (skipn ki d)) with (slice ki (S (j - ki - 1)) d).
    apply telescope; auto. replace (ki + S (j - ki - 1))%nat with j by lia. auto.
Qed.

(** ** the random-source counterexample *)
Definition bad_sv : list station := [mkSt 0 0 0; mkSt 100 0 0; mkSt 200 (PI/2) 0].
Definition bad_e : list V3 := [mkV 1 (1/100) 0; mkV 1 (1/100) 0; mkV 1 (1/100) 0].
Lemma bad_NEV : e_NEV (drdp true bad_sv) bad_e = [vzero; mkV (1/2) 0 (1/2); mkV (1/2) 0 0] /\
  e_NEV_star (drdp true bad_sv) bad_e = [vzero; mkV (1/2) 0 1; mkV (1/2) 0 0].
Proof.
  unfold bad_sv, bad_e, e_NEV, e_NEV_star, drdp, map2. simpl.
  unfold e_NEV_row, e_NEV_star_row, drdp_dc, drdp_inc_at, drdp_az_at, half_dmd. simpl.
  rewrite sin_PI2, cos_PI2, sin_0, cos_0. unf.
  split; repeat (f_equal; try field).
Qed.
Lemma gen_random : forall d code e, exists v, generate_error d code e "random" None = Some v /\ er_e_DIA v = e.
Proof. intros. unfold generate_error. simpl. eexists. split; [reflexivity|]. reflexivity. Qed.
Lemma below_random_entry : forall n ki v j m m0, er_propagation v = "random"%string -> depth_only (er_e_DIA v) = false ->
  nth_error (er_cov_NEV v) (ki + j) = Some m -> nth_error (er_cov_NEV v) ki = Some m0 -> (j < n - ki)%nat ->
  nth_error (cov_below_kop n ki [v]) j = Some (msub m m0).
Proof.
  intros n ki v j m m0 P D Em Em0 L. unfold cov_below_kop, source_below. cbn [fold_left]. rewrite P, D. simpl String.eqb. cbv iota. simpl orb. cbv iota.
  rewrite map2_nth, nth_error_map, nth_error_skipn. rewrite Em, (nth_error_nth _ _ _ Em0).
  destruct (nth_error_some_lt _ (repeat mzero (n - ki)) j ltac:(rewrite repeat_length; lia)) as [y Hy].
  rewrite Hy. apply nth_error_In, repeat_spec in Hy. subst y. simpl. f_equal. apply madd_0_l.
Qed.
Lemma random_not_psd : exists rev4 sv ki v,
  (ki < length sv)%nat /\ strictly_increasing (map st_md sv) /\
  (exists code e p, Some v = generate_error (drdp rev4 sv) code e p None /\ length e = length sv) /\
  exists j c, nth_error (cov_below_kop (length sv) ki [v]) j = Some c /\ ~ psd c /\
  exists p q, p <> q /\ forall k spa Sm Rr Ro inc azi oc, iscwsa_rule k spa Sm Rr Ro inc azi p q c oc = None.
Proof.
  destruct bad_NEV as [E1 E2].
  destruct (gen_random (drdp true bad_sv) "X" bad_e) as (v & G & DI).
  exists true, bad_sv, 1%nat, v. split; [simpl; lia|]. split; [simpl; lra|].
  split; [exists "X"%string, bad_e, "random"%string; split; auto|].
  assert (GG : from_generate (drdp true bad_sv) (length bad_sv) (Some v)) by (exists "X"%string, bad_e, "random"%string, None; auto).
  destruct (generate_cases _ _ _ _ _ _ G) as (P & _ & X & _). pose proof (f_equal fst X) as X1. pose proof (f_equal snd X) as X2. cbn [fst snd] in X1, X2. clear X. rewrite E1 in X1. rewrite E2 in X2.
  assert (H0 : (0 < length bad_sv)%nat) by (simpl; lia).
  assert (D : depth_only (er_e_DIA v) = false).
  { destruct (depth_only (er_e_DIA v)) eqn:D; auto. apply depth_only_iff in D. rewrite DI in D. destruct D as [D _].
    destruct (D (mkV 1 (1/100) 0)) as [D1 _]. simpl; auto. simpl in D1. rewrite Rabs_right in D1; lra. }
  destruct (gen_facts true bad_sv H0 v GG) as (_ & _ & LC & _).
  destruct (nth_error_some_lt _ (er_cov_NEV v) 1 ltac:(rewrite LC; simpl; lia)) as [m0 Em0].
  destruct (nth_error_some_lt _ (er_cov_NEV v) 2 ltac:(rewrite LC; simpl; lia)) as [m Em].
  pose proof (random_diff true bad_sv 1 H0 v 1 m m0 (mkV (1/2) 0 0) (mkV (1/2) 0 1) GG P Em Em0 ltac:(rewrite X2; reflexivity) ltac:(rewrite X2; reflexivity)) as RD.
  rewrite X1 in RD. unfold slice in RD. simpl in RD. unfold msum in RD; simpl in RD.
  exists 1%nat, (msub m m0). split.
  { apply below_random_entry; auto. }
  rewrite RD.
  assert (Q : qform (madd (msub (outer (mkV (1 / 2) 0 0) (mkV (1 / 2) 0 0)) (outer (mkV (1 / 2) 0 1) (mkV (1 / 2) 0 1)))
                   (madd (outer (mkV (1 / 2) 0 (1 / 2)) (mkV (1 / 2) 0 (1 / 2))) mzero)) (mkV 0 0 1) < 0).
  { unf. simpl. lra. }
  split. { intro C. specialize (C (mkV 0 0 1)). lra. }
  exists vzero, (mkV 0 0 1). split. { intro N. injection N. lra. }
  intros. unfold iscwsa_rule.
  assert (RN : dl_ref_nev (delta_vectors inc azi vzero (mkV 0 0 1)) = mkV 0 0 1).
  { unfold delta_vectors. cbn [dl_ref_nev]. assert (NN : norm (vsub (mkV 0 0 1) vzero) = 1).
    { unfold norm. replace (dot _ _) with 1 by (unf; simpl; ring). apply sqrt_1. }
    rewrite NN, unit_or_zero_scale by lra. unf. f_equal; simpl; field. }
  rewrite RN. apply pedal_nan in Q. rewrite Q. reflexivity.
Qed.
(** with overlapping wells, more uncertainty raises the separation factor *)
Lemma more_uncertainty_raises : exists k k' spa Sm Rr Ro inc azi p q rc oc r r' sf sf',
  0 < k < k' /\ iscwsa_rule k spa Sm Rr Ro inc azi p q rc oc = Some r /\
  iscwsa_rule k' spa Sm Rr Ro inc azi p q rc oc = Some r' /\
  ru_sf r = Fin sf /\ ru_sf r' = Fin sf' /\ sf < sf'.
Proof.
  exists 1, 2, 1, 0, 1, 1, 0, 0, vzero, vzero, mzero, mzero.
  assert (E : forall k, 0 < k -> exists r, iscwsa_rule k 1 0 1 1 0 0 vzero vzero mzero mzero = Some r /\ ru_sf r = Fin (- 2 / k)).
  { intros k Hk. unfold iscwsa_rule. destruct (pedal_coincide 0 0 vzero mzero) as [A B]. rewrite A, B.
    eexists. split; [reflexivity|]. cbn [ru_sf]. destruct (delta_same 0 0 vzero) as (D & _). rewrite D.
    replace (0 ^ 2 + 0 ^ 2) with 0 by ring. rewrite sqrt_0. replace (0 ^ 2 + 1 ^ 2) with 1 by ring. rewrite sqrt_1.
    unfold ediv. destruct (Req_EM_T (k * 1) 0); [lra|]. f_equal. field. lra. }
  destruct (E 1 ltac:(lra)) as (r & R1 & R2). destruct (E 2 ltac:(lra)) as (r' & R1' & R2').
  exists r, r', (-2/1), (-2/2). repeat split; auto; lra.
Qed.

Lemma closest_on_well : forall h rows deg sx sn unit s opt station,
  Survey h rows deg sx sn unit = Some s -> strictly_increasing (map st_md (sv_rows s)) ->
  (forall i a b, nth_error (sv_rows s) i = Some a -> nth_error (sv_rows s) (S i) = Some b ->
     get_dogleg (st_inc a) (st_azi a) (st_inc b) (st_azi b) < PI) ->
  never_worse opt ->
  let i := nearest_station (sv_nev s) station in
  exists index x f q a b n h',
    closest_point opt s station i = Some (index, x, f, q) /\ adjacent i index /\
    nth_error (sv_rows s) index = Some a /\ nth_error (sv_rows s) (S index) = Some b /\
    0 <= x <= st_md b - st_md a /\
    survey_interpolate_md s (st_md a + x) = NodeOk n h' /\ nd_md n = st_md a + x /\ nd_pos n = q /\
    f = dist station q /\
    forall k o, nth_error (sv_nev s) k = Some o -> dist station q <= dist station o.
Proof. intros h rows deg sx sn unit s opt station HS HI HD HO. exact (closest_point_spec h rows deg sx sn unit s HS HI HD opt station HO). Qed.
Lemma nearest_first : forall offsets station, offsets <> [] ->
  exists o, nth_error offsets (nearest_station offsets station) = Some o /\
  (forall k x, nth_error offsets k = Some x -> dist station o <= dist station x) /\
  (forall k x, (k < nearest_station offsets station)%nat -> nth_error offsets k = Some x -> dist station o < dist station x).
Proof.
  intros offsets station N.
  destruct (argmin_spec (map (fun q => dist station q) offsets)) as (m & Hm & M1 & M2).
  { destruct offsets; [congruence|discriminate]. }
  fold (nearest_station offsets station) in Hm, M2. rewrite nth_error_map in Hm.
  destruct (nth_error offsets (nearest_station offsets station)) as [o|]; [|discriminate]. simpl in Hm. injection Hm; intro; subst m.
  exists o. split; auto. split; intros.
  - apply (M1 k). rewrite nth_error_map, H. reflexivity.
  - apply (M2 k); auto. rewrite nth_error_map, H0. reflexivity.
Qed.
(** the nearer of the two searches is reported *)
Lemma best_of_two : forall opt s station i index x f q,
  closest_point opt s station i = Some (index, x, f, q) ->
  ((0 < i)%nat -> f <= snd (opt (closest_fun s (i - 1) station) (interval s (i - 1)) (interval s (i - 1)))) /\
  ((i < length (sv_nev s) - 1)%nat -> f <= snd (opt (closest_fun s i station) 0 (interval s i))).
Proof.
  intros opt s station i index x f q H. unfold closest_point in H.
  set (r1 := opt (closest_fun s (i - 1) station) (interval s (i - 1)) (interval s (i - 1))) in *.
  set (r2 := opt (closest_fun s i station) 0 (interval s i)) in *. clearbody r1 r2.
  assert (Z : forall ix r, match interpolate_at s (fst r) ix with
     | Some (sv, _) => match nth_error (sv_nev sv) 1 with Some q => Some (ix, fst r, snd r, q) | None => None end
     | None => None end = Some (index, x, f, q) -> f = snd r).
  { intros ix r K. destruct (interpolate_at s (fst r) ix) as [[sv ?]|]; [|discriminate].
    destruct (nth_error (sv_nev sv) 1); [|discriminate]. congruence. }
  destruct (Nat.ltb_spec 0 i), (Nat.ltb_spec i (length (sv_nev s) - 1)); try discriminate.
  - destruct (Rlt_dec (snd r1) (snd r2)); apply Z in H; subst f; split; intros; lra.
  - apply Z in H. subst f. split; intros; [lra|lia].
  - apply Z in H. subst f. split; intros; [lia|lra].
Qed.
