(** Proofs about interpolation by measured depth. *)
Require Import Reals Lra Psatz ZArith String List.
Require Import Verif.Base Verif.NumPy Verif.P_Trig Verif.Spec Verif.Spec_Lists Verif.M_Utils Verif.P_Utils
  Verif.P_Utils2 Verif.M_Survey Verif.P_Survey.
Import ListNotations.
Open Scope R_scope.

Definition nev_of (start_xyz start_nev : V3) (p : V3) : V3 := get_nev p start_xyz start_nev.

Lemma Survey_inv : forall h rows deg sx sn unit s,
  Survey h rows deg sx sn unit = Some s ->
  unit = h_unit h /\ sv_header s = h /\
  (2 <= length (sv_rows s))%nat /\
  length (sv_rows s) = length rows /\
  (unit = "meters" \/ unit = "feet")%string /\
  sv_xyz s = mc_list (sv_rows s) sx /\
  sv_nev s = map (nev_of sx sn) (mc_list (sv_rows s) sx) /\
  sv_interpolated s = map (fun _ => false) rows.
Proof.
  intros h rows deg sx sn unit s H. unfold Survey in H.
  destruct (String.eqb_spec unit (h_unit h)) as [E|E]; simpl in H; [|discriminate].
  match type of H with context [MinCurve ?l sx unit] => set (sts := l) in * end.
  destruct (MinCurve sts sx unit) as [mc|] eqn:M; [|discriminate].
  assert (P : exists mc, MinCurve sts sx unit = Some mc) by eauto.
  apply MinCurve_some in P. destruct P as [PU PL].
  injection H; intros; subst s; clear H; simpl.
  rewrite (MinCurve_poss _ _ _ _ M).
  repeat split; auto. unfold sts. rewrite map_length. reflexivity.
Qed.

Lemma Survey_xyz_len : forall h rows deg sx sn unit s,
  Survey h rows deg sx sn unit = Some s ->
  length (sv_xyz s) = length (sv_rows s) /\ length (sv_nev s) = length (sv_rows s).
Proof.
  intros. apply Survey_inv in H. destruct H as (_ & _ & L & _ & _ & X & N & _).
  rewrite X, N, map_length, !mc_list_length by lia. auto.
Qed.

Lemma nev_of_vadd : forall sx sn p d, nev_of sx sn (vadd p (swap_xy d)) = vadd (nev_of sx sn p) d.
Proof. intros [] [] [] []; unfold nev_of, get_nev, swap_xy; unf; apply V3_eq; simpl; ring. Qed.

Lemma Survey_nev_step : forall h rows deg sx sn unit s k a b p q,
  Survey h rows deg sx sn unit = Some s ->
  nth_error (sv_rows s) k = Some a -> nth_error (sv_rows s) (S k) = Some b ->
  nth_error (sv_nev s) k = Some p -> nth_error (sv_nev s) (S k) = Some q ->
  q = vadd p (step_between a b).
Proof.
  intros h rows deg sx sn unit s k a b p q HS Ha Hb Hp Hq.
  apply Survey_inv in HS. destruct HS as (_ & _ & _ & _ & _ & _ & N & _).
  rewrite N, nth_error_map in Hp, Hq.
  destruct (nth_error (mc_list (sv_rows s) sx) k) as [p'|] eqn:E1; [|discriminate].
  destruct (nth_error (mc_list (sv_rows s) sx) (S k)) as [q'|] eqn:E2; [|discriminate].
  pose proof (mc_list_step _ _ _ _ _ _ _ Ha Hb E1 E2) as S.
  simpl in Hp, Hq. injection Hp; injection Hq; intros; subst.
  rewrite pair_delta_swap, nev_of_vadd. reflexivity.
Qed.

(** the two-row survey built by interpolate_at *)
Lemma interpolate_at_node : forall s x k a b xyz nev,
  nth_error (sv_rows s) k = Some a -> nth_error (sv_rows s) (S k) = Some b ->
  nth_error (sv_xyz s) k = Some xyz -> nth_error (sv_nev s) k = Some nev ->
  (h_unit (sv_header s) = "meters" \/ h_unit (sv_header s) = "feet")%string ->
  exists r h n,
    interpolate_at s x k = Some (r, h) /\ node_of r = Some n /\
    h = mkHeader RefGrid (h_convergence (sv_header s)) (h_declination (sv_header s))
          (h_gsf (sv_header s)) (h_vs_azimuth (sv_header s)) (h_unit (sv_header s)) /\
    nd_md n = st_md a + x /\
    nd_pos n = interpolate_pos_nev nev a b x /\
    nd_vec n = dir (interp_station a b x) /\
    (nd_interp n = false <-> (x = 0 \/ x = st_md b - st_md a)).
Proof.
  intros s x k a b xyz nev Ha Hb Hx Hn Hu.
  unfold interpolate_at. rewrite Ha, Hb, Hx, Hn.
  unfold interp_station, interpolate_pos_nev.
  destruct (interp_angles a b x) as [i z].
  set (h := mkHeader RefGrid _ _ _ _ _).
  destruct (Survey h [(st_md a, st_inc a, st_azi a); (st_md a + x, i, z)] false xyz nev (h_unit h))
    as [r|] eqn:E.
  2: { exfalso. unfold Survey in E. rewrite String.eqb_refl in E. simpl negb in E. cbv iota in E.
       match type of E with context [MinCurve ?l xyz (h_unit h)] => set (sts := l) in * end.
       assert (P : exists mc, MinCurve sts xyz (h_unit h) = Some mc).
       { apply MinCurve_some. split; auto. }
       destruct P as [mc P]. rewrite P in E. discriminate. }
  eexists; exists h; eexists. split; [reflexivity|].
  assert (R : sv_rows r = [mkSt (st_md a) (st_inc a) (st_azi a); mkSt (st_md a + x) i z]).
  { unfold Survey in E. rewrite String.eqb_refl in E. simpl negb in E. cbv iota in E.
    match type of E with context [MinCurve ?l xyz (h_unit h)] => destruct (MinCurve l xyz (h_unit h)) end; [|discriminate].
    injection E; intros; subst r. reflexivity. }
  pose proof (Survey_inv _ _ _ _ _ _ _ E) as (_ & _ & _ & _ & _ & _ & N & _).
  rewrite R in N.
  assert (N1 : nth_error (sv_nev r) 1 = Some (vadd nev (min_curve_step x (st_inc a) (st_azi a) i z))).
  { rewrite N, mc_list_path. simpl. f_equal.
    rewrite pair_delta_swap, nev_of_vadd. unfold step_between; simpl.
    replace (st_md a + x - st_md a) with x by ring. f_equal.
    unfold nev_of. apply nev_datum. }
  unfold node_of. simpl sv_rows. simpl sv_nev. simpl sv_interpolated.
  rewrite R, N1. simpl. split; [reflexivity|]. split; [reflexivity|].
  simpl. split; [reflexivity|]. split; [reflexivity|]. split.
  - rewrite get_vec_spec by lra. reflexivity.
  - destruct (Req_EM_T x 0); [tauto|]. destruct (Req_EM_T x (st_md b - st_md a)); [tauto|].
    split; [discriminate|]. intros []; contradiction.
Qed.

Lemma nth_error_some_lt : forall A (l : list A) k, (k < length l)%nat -> exists a, nth_error l k = Some a.
Proof.
  intros A l k H. destruct (nth_error l k) eqn:E; eauto. apply nth_error_None in E. lia.
Qed.

Lemma interpolate_pos_nev_step : forall p a b x,
  interpolate_pos_nev p a b x = vadd p (step_between a (interp_station a b x)).
Proof.
  intros. unfold interpolate_pos_nev, interp_station, step_between.
  destruct (interp_angles a b x); simpl. replace (st_md a + x - st_md a) with x by ring. reflexivity.
Qed.

Lemma interp_at_end : forall a b p, pair_dogleg a b < PI -> 0 < st_md b - st_md a ->
  dir (interp_station a b (st_md b - st_md a)) = dir b /\
  interpolate_pos_nev p a b (st_md b - st_md a) = vadd p (step_between a b).
Proof.
  intros a b p Ht Hd.
  destruct (dogleg_angle (st_inc a) (st_azi a) (st_inc b) (st_azi b)) as [B C].
  fold (pair_dogleg a b) in B, C. fold (dir a) in C. fold (dir b) in C.
  assert (D : dir (interp_station a b (st_md b - st_md a)) = dir b).
  { destruct (Req_EM_T (pair_dogleg a b) 0) as [Z|Z].
    - unfold interp_station, interp_angles. destruct (Req_EM_T (pair_dogleg a b) 0); [|lra].
      unfold dir; simpl. apply dogleg_0_iff. exact Z.
    - rewrite dir_interp by lra.
      destruct (bend_normal_spec (dir a) (dir b) (pair_dogleg a b)) as [_ [_ B3]]; auto; try apply direction_unit; [lra|].
      rewrite B3 at 2. f_equal. field. lra. }
  split; auto.
  rewrite interpolate_pos_nev_step. f_equal.
  rewrite !step_between_disp, D, md_interp.
  replace (st_md a + (st_md b - st_md a) - st_md a) with (st_md b - st_md a) by ring.
  replace (pair_dogleg a (interp_station a b (st_md b - st_md a))) with (pair_dogleg a b); auto.
  apply (angle_between_unique (dir a) (dir b)).
  - split; auto.
  - rewrite <- D. apply dogleg_angle.
Qed.

Lemma interp_at_start : forall a b p, pair_dogleg a b < PI -> 0 < st_md b - st_md a ->
  dir (interp_station a b 0) = dir a /\ interpolate_pos_nev p a b 0 = p.
Proof.
  intros a b p Ht Hd.
  destruct (dogleg_angle (st_inc a) (st_azi a) (st_inc b) (st_azi b)) as [B _].
  fold (pair_dogleg a b) in B.
  assert (D : dir (interp_station a b 0) = dir a).
  { destruct (Req_EM_T (pair_dogleg a b) 0) as [Z|Z].
    - unfold interp_station, interp_angles. destruct (Req_EM_T (pair_dogleg a b) 0); [|lra]. reflexivity.
    - rewrite dir_interp by lra. rewrite Rmult_0_l. apply arc_tangent_0. }
  split; auto. rewrite interpolate_pos_nev_step, step_between_disp, md_interp.
  unfold mc_disp. replace ((st_md a + 0 - st_md a) * get_rf (pair_dogleg a (interp_station a b 0)) / 2) with 0 by field.
  rewrite vscale_0, vadd_0_r. reflexivity.
Qed.

Section Depth.
  Variables (h : header) (rows : list row) (deg : bool) (sx sn : V3) (unit : string) (s : survey).
  Hypothesis HS : Survey h rows deg sx sn unit = Some s.
  Hypothesis Hinc : increasing (map st_md (sv_rows s)).

  Lemma depth_unit_ok : (h_unit (sv_header s) = "meters" \/ h_unit (sv_header s) = "feet")%string.
  Proof.
    pose proof (Survey_inv _ _ _ _ _ _ _ HS) as (U & H & _ & _ & D & _).
    rewrite H, <- U. exact D.
  Qed.

  Lemma rows_at : forall k, (S k < length (sv_rows s))%nat ->
    exists a b xyz nev, nth_error (sv_rows s) k = Some a /\ nth_error (sv_rows s) (S k) = Some b /\
      nth_error (sv_xyz s) k = Some xyz /\ nth_error (sv_nev s) k = Some nev.
  Proof.
    intros k Hk. destruct (Survey_xyz_len _ _ _ _ _ _ _ HS) as [L1 L2].
    destruct (nth_error_some_lt _ (sv_rows s) k) as [a Ha]; [lia|].
    destruct (nth_error_some_lt _ (sv_rows s) (S k)) as [b Hb]; [lia|].
    destruct (nth_error_some_lt _ (sv_xyz s) k) as [x Hx]; [lia|].
    destruct (nth_error_some_lt _ (sv_nev s) k) as [n Hn]; [lia|].
    exists a, b, x, n; auto.
  Qed.

  Lemma mds_nth : forall k a, nth_error (sv_rows s) k = Some a ->
    nth_error (map st_md (sv_rows s)) k = Some (st_md a).
  Proof. intros. rewrite nth_error_map, H. reflexivity. Qed.

  Lemma md_step_pos : forall k a b, nth_error (sv_rows s) k = Some a ->
    nth_error (sv_rows s) (S k) = Some b -> 0 < st_md b - st_md a.
  Proof.
    intros k a b Ha Hb.
    assert (st_md a < st_md b).
    { eapply (increasing_nth_lt _ k (S k)); eauto using mds_nth. }
    lra.
  Qed.

  Lemma interpolate_md_beyond : forall md last,
    nth_error (sv_rows s) (pred (length (sv_rows s))) = Some last ->
    st_md last < md -> survey_interpolate_md s md = NodeNone.
  Proof.
    intros md last Hl Hm. unfold survey_interpolate_md, interpolate_md.
    assert (F : (length (map st_md (sv_rows s)) <= searchsorted_left (map st_md (sv_rows s)) md)%nat).
    { apply (ss_left_full _ md (st_md last)); auto. rewrite map_length. apply mds_nth; auto. }
    destruct (Nat.leb_spec (length (map st_md (sv_rows s))) (searchsorted_left (map st_md (sv_rows s)) md)); [auto|lia].
  Qed.

  (** general form: below the first station the query is clamped to it *)
  Lemma interpolate_md_inside : forall md first last,
    nth_error (sv_rows s) 0 = Some first ->
    nth_error (sv_rows s) (pred (length (sv_rows s))) = Some last ->
    md <= st_md last ->
    exists k a b xyz nev n h',
      nth_error (sv_rows s) k = Some a /\ nth_error (sv_rows s) (S k) = Some b /\
      nth_error (sv_xyz s) k = Some xyz /\ nth_error (sv_nev s) k = Some nev /\
      survey_interpolate_md s md = NodeOk n h' /\
      st_md a <= Rmax md (st_md first) <= st_md b /\
      (st_md a = st_md first \/ st_md a < md) /\
      nd_md n = Rmax md (st_md first) /\
      nd_pos n = interpolate_pos_nev nev a b (Rmax md (st_md first) - st_md a) /\
      nd_vec n = dir (interp_station a b (Rmax md (st_md first) - st_md a)) /\
      (nd_interp n = false <-> (nd_md n = st_md a \/ nd_md n = st_md b)) /\
      h_ref h' = RefGrid /\ h_convergence h' = h_convergence h /\ h_declination h' = h_declination h.
  Proof.
    intros md first last Hf Hl Hm.
    pose proof (Survey_inv _ _ _ _ _ _ _ HS) as (U & HH & L & _ & D & _ & _ & _).
    set (mds := map st_md (sv_rows s)) in *.
    assert (LM : length mds = length (sv_rows s)) by (unfold mds; apply map_length).
    assert (NF : ~ (length mds <= searchsorted_left mds md)%nat).
    { intro F. apply (ss_left_full mds md (st_md last)) in F; auto; [lra|].
      rewrite LM. apply mds_nth; auto. }
    unfold survey_interpolate_md, interpolate_md. fold mds.
    destruct (Nat.leb_spec (length mds) (searchsorted_left mds md)) as [Q|Q]; [lia|]. clear NF.
    destruct (searchsorted_left mds md) as [|j] eqn:K.
    - (* at or above the first station *)
      destruct (rows_at 0) as (a & b & xyz & nev & Ha & Hb & Hx & Hn); [lia|].
      assert (a = first) by congruence. subst a.
      pose proof (md_step_pos _ _ _ Ha Hb) as HP.
      assert (M0 : md <= st_md first).
      { apply (ss_left_at mds md). rewrite K. apply mds_nth; auto. }
      destruct (interpolate_at_node s 0 0 first b xyz nev Ha Hb Hx Hn depth_unit_ok)
        as (r & h' & n & E & NO & EH & N1 & N2 & N3 & N4).
      rewrite E, NO. rewrite Rmax_right by lra.
      exists 0%nat, first, b, xyz, nev, n, h'.
      split; [exact Ha|]. split; [exact Hb|]. split; [exact Hx|]. split; [exact Hn|].
      split; [reflexivity|]. split; [lra|]. split; [auto|]. split; [lra|].
      replace (st_md first - st_md first) with 0 by ring.
      split; [exact N2|]. split; [exact N3|]. split.
      { rewrite N1. split; intro; [left; ring|]. apply N4. left; auto. }
      rewrite EH; simpl. rewrite HH. auto.
    - destruct (rows_at j) as (a & b & xyz & nev & Ha & Hb & Hx & Hn); [lia|].
      pose proof (md_step_pos _ _ _ Ha Hb) as HP.
      assert (A : st_md a < md).
      { apply (ss_left_below mds md j); [lia|]. apply mds_nth; auto. }
      assert (B : md <= st_md b).
      { apply (ss_left_at mds md). rewrite K. apply mds_nth; auto. }
      assert (F : st_md first <= st_md a).
      { destruct j. assert (a = first) by congruence. subst; lra.
        left. eapply (increasing_nth_lt mds 0 (S j)); eauto using mds_nth. lia. }
      assert (NT : nth j mds 0 = st_md a).
      { apply nth_error_nth. apply mds_nth; auto. }
      rewrite NT.
      destruct (interpolate_at_node s (md - st_md a) j a b xyz nev Ha Hb Hx Hn depth_unit_ok)
        as (r & h' & n & E & NO & EH & N1 & N2 & N3 & N4).
      rewrite E, NO. rewrite Rmax_left by lra.
      exists j, a, b, xyz, nev, n, h'.
      split; [exact Ha|]. split; [exact Hb|]. split; [exact Hx|]. split; [exact Hn|].
      split; [reflexivity|]. split; [lra|]. split; [auto|]. split; [lra|].
      split; [exact N2|]. split; [exact N3|]. split.
      { rewrite N1. rewrite N4. split; intros [|]; [left|right|left|right]; lra. }
      rewrite EH; simpl. rewrite HH. auto.
  Qed.

  Lemma interpolate_md_station : forall k st p,
    (forall i a b, nth_error (sv_rows s) i = Some a -> nth_error (sv_rows s) (S i) = Some b ->
        pair_dogleg a b < PI) ->
    nth_error (sv_rows s) k = Some st -> nth_error (sv_nev s) k = Some p ->
    exists n h', survey_interpolate_md s (st_md st) = NodeOk n h' /\
      nd_md n = st_md st /\ nd_pos n = p /\ nd_vec n = dir st /\ nd_interp n = false.
  Proof.
    intros k st p HD Hk Hp.
    pose proof (Survey_inv _ _ _ _ _ _ _ HS) as (U & HH & L & _ & D & _ & _ & _).
    destruct (Survey_xyz_len _ _ _ _ _ _ _ HS) as [L1 L2].
    destruct (nth_error_some_lt _ (sv_rows s) 0) as [first Hf]; [lia|].
    destruct (nth_error_some_lt _ (sv_rows s) (pred (length (sv_rows s)))) as [last Hl]; [lia|].
    assert (HkL : (k < length (sv_rows s))%nat) by (apply nth_error_Some; congruence).
    assert (MF : st_md first <= st_md st).
    { destruct k. assert (st = first) by congruence; subst; lra.
      left. eapply (increasing_nth_lt _ 0 (S k)); eauto using mds_nth. lia. }
    assert (ML : st_md st <= st_md last).
    { destruct (Nat.eq_dec k (pred (length (sv_rows s)))). subst k. assert (st = last) by congruence; subst; lra.
      left. eapply (increasing_nth_lt _ k (pred (length (sv_rows s)))); eauto using mds_nth. lia. }
    destruct (interpolate_md_inside (st_md st) first last Hf Hl ML)
      as (j & a & b & xyz & nev & n & h' & Ha & Hb & Hx & Hn & E & R1 & R2 & N1 & N2 & N3 & N4 & _).
    rewrite (Rmax_left (st_md st)) in * by lra.
    exists n, h'. split; auto. split; auto.
    pose proof (md_step_pos _ _ _ Ha Hb) as HP.
    pose proof (HD _ _ _ Ha Hb) as HDL.
    (* station k is j (first) or S j *)
    assert (KK : k = j /\ st = a \/ k = S j /\ st = b).
    { destruct (Nat.lt_trichotomy k j) as [Q|[Q|Q]].
      - exfalso. assert (st_md st < st_md a) by (eapply (increasing_nth_lt _ k j); eauto using mds_nth). lra.
      - subst. left; split; auto; congruence.
      - destruct (Nat.eq_dec k (S j)). subst; right; split; auto; congruence.
        exfalso. assert (st_md b < st_md st) by (eapply (increasing_nth_lt _ (S j) k); eauto using mds_nth; lia). lra. }
    destruct KK as [[-> ->]|[-> ->]].
    - replace (st_md a - st_md a) with 0 in * by ring.
      assert (p = nev) by congruence. subst p.
      destruct (interp_at_start a b nev HDL HP) as [S1 S2].
      rewrite N2, N3, S1, S2. repeat split; auto. apply N4. left. rewrite N1; auto.
    - destruct (interp_at_end a b nev HDL HP) as [S1 S2].
      rewrite N2, N3, S1, S2. repeat split; auto.
      symmetry. eapply Survey_nev_step; eauto.
      apply N4. right. rewrite N1; auto.
  Qed.
End Depth.
