(** Interpolated surveys. *)
Require Import Reals ZArith Bool String List Sorted Lra Lia Psatz.
Require Import Verif.Base Verif.NumPy Verif.P_Trig Verif.Spec Verif.Spec_Lists Verif.M_Utils Verif.P_Utils
  Verif.M_Survey Verif.P_Survey3 Verif.M_Torque Verif.P_Torque Verif.M_Clearance Verif.P_Clearance Verif.P_Clearance3
  Verif.M_Connector Verif.Spec_Connector Verif.Spec_Connector2 Verif.P_Connector
  Verif.P_Connector2 Verif.P_Connector3 Verif.P_Connector4 Verif.P_Connector6 Verif.P_Connector7.
Import ListNotations.
Open Scope R_scope.

Lemma heading_unit : forall st, is_unit (heading_of st).
Proof. intro st. unfold heading_of. apply direction_unit. Qed.
Lemma heading_vec : forall m i z, nev_of (get_vec false 1 i z) = heading_of (m, i, z).
Proof.
  intros. rewrite get_vec_spec by lra. unfold nev_of, get_nev, swap_xy, heading_of. cbn.
  unfold direction_nev. unf. apply V3_eq; cbn; ring.
Qed.
Lemma around_near : forall d x y, around d x = around d y -> Rabs (x - y) <= / 10 ^ d.
Proof.
  intros d x y E. unfold around in E. pose proof (rint_near (x * 10 ^ d)) as A. pose proof (rint_near (y * 10 ^ d)) as B.
  rewrite E in A. assert (P : 0 < 10 ^ d) by (apply pow_lt; lra).
  apply Rmult_le_reg_r with (10 ^ d); auto. rewrite Rinv_l by lra.
  rewrite <- (Rabs_pos_eq (10 ^ d)) at 1 by lra. rewrite <- Rabs_mult.
  replace ((x - y) * 10 ^ d) with (- (IZR (rint (y * 10 ^ d)) - x * 10 ^ d) + (IZR (rint (y * 10 ^ d)) - y * 10 ^ d)) by ring.
  eapply Rle_trans; [apply Rabs_triang|]. rewrite Rabs_Ropp. lra.
Qed.
Lemma rint_mono : forall x y, x <= y -> (rint x <= rint y)%Z.
Proof.
  intros x y [L| ->]; [|lia]. unfold rint. pose proof (rfloor_spec x) as Fx. pose proof (rfloor_spec y) as Fy.
  set (a := rfloor x) in *. set (b := rfloor y) in *.
  assert (ab : (a <= b)%Z). { assert (IZR a < IZR (b + 1)) by (rewrite plus_IZR; lra). apply lt_IZR in H. lia. }
  clearbody a b. destruct (Z.eq_dec a b) as [->|N].
  - destruct (Rlt_dec (x - IZR b) (1/2)), (Rlt_dec (y - IZR b) (1/2));
      destruct (Rlt_dec (1/2) (x - IZR b)), (Rlt_dec (1/2) (y - IZR b)); destruct (Z.even b); try lia; lra.
  - destruct (Rlt_dec (x - IZR a) (1/2)), (Rlt_dec (y - IZR b) (1/2));
      destruct (Rlt_dec (1/2) (x - IZR a)), (Rlt_dec (1/2) (y - IZR b)); destruct (Z.even a), (Z.even b); lia.
Qed.
Lemma key_mono : forall x y, x <= y -> (md_key x <= md_key y)%Z.
Proof. intros. unfold md_key, around. apply rint_mono. nra. Qed.

(** ** one leg *)
Definition splits (dls md1 m2 t x : R) : Prop :=
  md1 < x <= m2 /\ ((x = md1 + 30 / dls * t /\ x < m2) \/ Rabs (t - PI) <= 1 / 100000).
Definition leg_ok (dls md1 : R) (v1 : V3) (m2 : R) (v2 : V3) (c : conn) : Prop :=
  k_md1 c = md1 /\ k_vec1 c = v1 /\ k_md_target c = m2 /\ k_vec_target c = v2 /\ wf_conn c /\
  ((v2 = v1 /\ k_method c = Hold) \/
   (v2 <> v1 /\ k_method c = MinCurve /\ exists t, angle_between v1 v2 t /\ 0 < t < PI /\ k_dogleg c = t /\
      0 < k_dist_curve c /\
      match k_md2 c with
      | None => k_dist_curve c = m2 - md1
      | Some x => splits dls md1 m2 t x
      end)).
Lemma leg_spec : forall dls p v1 md1 st, 0 < dls -> is_unit v1 -> md1 < depth_of st ->
  heading_of st <> vneg v1 ->
  exists c, leg dls p v1 md1 st = inl c /\ leg_ok dls md1 v1 (depth_of st) (heading_of st) c.
Proof.
  intros dls p v1 md1 [[m2 i2] z2] Hd U L NO. cbn [depth_of fst snd] in *. unfold leg.
  rewrite (heading_vec m2). set (v2 := heading_of (m2, i2, z2)) in *.
  assert (U2 : is_unit v2) by apply heading_unit. clearbody v2. clear i2 z2.
  set (a := mkArgs p (Some v1) None None md1 (Some dls) (Some m2) None (Some v2) None None true (1 / 100000) true).
  assert (C : check_args a = None).
  { apply acceptance. cbn. split; [left; repeat split; congruence|]. split; [intuition congruence|].
    split; [auto|]. split; [auto|]. split; [intros m E; injection E as <-; lra|].
    split; [intros d E; injection E as <-; auto|lra]. }
  assert (SV : start_vec a = v1) by reflexivity.
  assert (TV : target_vec a = v2).
  { unfold target_vec. cbn -[v3_eq_dec vneg]. destruct (v3_eq_dec v2 (vneg v1)); [contradiction|reflexivity]. }
  assert (RD : radius_design a = Some (30 / dls)) by reflexivity.
  assert (RP : 0 < 30 / dls) by (apply Rdiv_lt_0_compat; lra).
  destruct (method_cases a C U) as [(S & NH & M)|(S & M)].
  - destruct S as (S & _). rewrite TV, SV in S.
    exists (mkConn Hold p v1 md1 (vadd p (vscale (m2 - md1) v1)) (target_vec a) m2 None None 0 0 0 0).
    assert (E : connector vzero a = inl (mkConn Hold p v1 md1 (vadd p (vscale (m2 - md1) v1)) (target_vec a) m2 None None 0 0 0 0)).
    { unfold connector. rewrite C, M. reflexivity. }
    split; [exact E|]. rewrite TV. unfold leg_ok. cbn [k_md1 k_vec1 k_md_target k_vec_target k_method].
    split; [reflexivity|]. split; [reflexivity|]. split; [reflexivity|]. split; [reflexivity|].
    split; [unfold wf_conn; cbn; lra|]. left. auto.
  - assert (NV : v2 <> v1).
    { intro E. destruct S as [S|(F & _)]; [|discriminate]. apply S. split; [rewrite TV; auto|]. intros q Q. discriminate. }
    change (base_method a) with "min_curve"%string in M.
    destruct (connector vzero a) as [c|e] eqn:H.
    2: { exfalso. unfold connector in H. rewrite C, M in H. cbn -[do_min_curve] in H.
         apply min_curve_errors in H. cbn in H. destruct H as [(_ & _ & Z)|(_ & _ & Z)]; discriminate. }
    exists c. split; [reflexivity|]. pose proof (connector_wf vzero a c U H) as W.
    unfold connector in H. rewrite C, M in H. cbn -[do_min_curve] in H.
    unfold do_min_curve in H. cbv zeta in H.
    pose proof (start_angles_dir a C U) as SD. pose proof (target_angles_dir a C U ltac:(rewrite TV; auto)) as TD.
    destruct (start_angles a) as [i1 z1], (target_angles' a) as [i2 z2]. cbn [fst snd] in SD, TD.
    pose proof (dogleg_angle i1 z1 i2 z2) as DA. rewrite SD, TD, SV, TV in DA.
    set (t := get_dogleg i1 z1 i2 z2) in *. clearbody t.
    assert (T0 : 0 < t < PI).
    { destruct DA as [B E].
      assert (X : forall w, is_unit w -> dot v1 w = 1 -> w = v1).
      { intros w Uw Dw. unfold is_unit in *.
        assert (Z : dot (vsub w v1) (vsub w v1) = 0).
        { replace (dot (vsub w v1) (vsub w v1)) with (dot w w - 2 * dot v1 w + dot v1 v1) by (destruct w, v1; unf; cbn; ring).
          rewrite Uw, U, Dw. ring. }
        assert (N0 : norm (vsub w v1) = 0) by (unfold norm; rewrite Z; apply sqrt_0).
        apply vsub_zero. auto. }
      split.
      - destruct (Req_dec t 0) as [->|]; [|lra]. rewrite cos_0 in E. exfalso. apply NV. apply X; auto.
      - destruct (Req_dec t PI) as [->|]; [|lra]. rewrite cos_PI in E. exfalso. apply NO.
        assert (Y : vneg v2 = v1).
        { apply X. unfold is_unit in *. rewrite <- U2. destruct v2; unf; cbn; ring.
          transitivity (- dot v1 v2); [destruct v1, v2; unf; cbn; ring|rewrite <- E; ring]. }
        rewrite <- Y. destruct v2; unf; apply V3_eq; cbn; ring. }
    assert (CD : check_dogleg t = t) by (unfold check_dogleg; destruct (Rlt_dec t 0); lra).
    rewrite CD in H. cbn [a_md2 a a_md1] in H. destruct (Req_EM_T t 0); [lra|].
    assert (RC : Rabs ((m2 - md1) / t) = (m2 - md1) / t) by (apply Rabs_pos_eq; left; apply Rdiv_lt_0_compat; lra).
    rewrite RC in H. set (rc := (m2 - md1) / t) in *.
    assert (RCt : rc * t = m2 - md1) by (unfold rc; field; lra).
    assert (rc0 : 0 < rc) by (apply Rdiv_lt_0_compat; lra).
    rewrite RD in H. destruct (Rlt_dec (30 / dls) rc) as [Q|Q].
    + cbn [orb rmin_inf get_curve_hold_data] in H. rewrite Rmin_left in H by lra. injection H as <-.
      unfold leg_ok. cbn [k_md1 k_vec1 k_md_target k_vec_target k_method k_md2 k_dogleg k_dist_curve].
      split; [reflexivity|]. split; [exact SV|]. split; [reflexivity|]. split; [exact TV|]. split; [exact W|]. right. split; [auto|]. split; [reflexivity|]. exists t.
      split; [exact DA|]. split; [auto|]. split; [auto|]. split; [nra|].
      split; [split; nra|]. left. split; [reflexivity|]. nra.
    + cbn [orb] in H. destruct (Z.eqb_spec (around 5 t) (around 5 PI)) as [A5|A5].
      * cbn [rmin_inf get_curve_hold_data] in H. rewrite Rmin_right in H by lra. injection H as <-.
        unfold leg_ok. cbn [k_md1 k_vec1 k_md_target k_vec_target k_method k_md2 k_dogleg k_dist_curve].
        split; [reflexivity|]. split; [exact SV|]. split; [reflexivity|]. split; [exact TV|]. split; [exact W|]. right. split; [auto|]. split; [reflexivity|]. exists t.
        split; [exact DA|]. split; [auto|]. split; [auto|]. split; [lra|].
        split; [lra|]. right. apply around_near in A5. eapply Rle_trans; [apply A5|]. simpl. lra.
      * cbn [get_curve_hold_data] in H. injection H as <-.
        unfold leg_ok. cbn [k_md1 k_vec1 k_md_target k_vec_target k_method k_md2 k_dogleg k_dist_curve].
        split; [reflexivity|]. split; [exact SV|]. split; [reflexivity|]. split; [exact TV|]. split; [exact W|]. right. split; [auto|]. split; [reflexivity|]. exists t.
        split; [exact DA|]. split; [auto|]. split; [auto|]. split; [lra|]. lra.
Qed.

(** ** the chain *)
Fixpoint chain (dls md : R) (v : V3) (l : list (R * R * R)) (cs : list conn) : Prop :=
  match l, cs with
  | [], [] => True
  | st :: r, c :: cr => leg_ok dls md v (depth_of st) (heading_of st) c /\ chain dls (depth_of st) (heading_of st) r cr
  | _, _ => False
  end.
Fixpoint not_opposite (v : V3) (l : list (R * R * R)) : Prop :=
  match l with
  | [] => True
  | st :: r => heading_of st <> vneg v /\ not_opposite (heading_of st) r
  end.
Lemma legs_chain : forall dls l p v md, 0 < dls -> is_unit v -> strictly_increasing (md :: map depth_of l) ->
  not_opposite v l -> exists cs, legs dls p v md l = inl cs /\ chain dls md v l cs.
Proof.
  intros dls l. induction l as [|st r IH]; intros p v md Hd U S N.
  - exists []. split; [reflexivity|exact I].
  - cbn [map] in S. destruct S as [L S]. destruct N as [N1 N2].
    destruct (leg_spec dls p v md st Hd U L N1) as (c & E & K).
    destruct K as (K1 & K2 & K3 & K4 & K5).
    destruct (IH (k_pos_target c) (heading_of st) (depth_of st) Hd (heading_unit st) S N2) as (cs & E2 & CH).
    exists (c :: cs). split.
    + cbn [legs]. rewrite E, K3, K4, E2. reflexivity.
    + split; [|auto]. repeat split; auto; tauto.
Qed.
Lemma si_le_last : forall l a d, strictly_increasing (a :: l) -> a <= last (a :: l) d.
Proof.
  induction l as [|b r IH]; intros a d S; [cbn; lra|]. destruct S as [L S]. specialize (IH b d S).
  change (last (a :: b :: r) d) with (last (b :: r) d). lra.
Qed.
Lemma chain_grid : forall dls s l md v cs, 0 < s -> l <> [] -> strictly_increasing (md :: map depth_of l) ->
  chain dls md v l cs ->
  wgrid s md (last (md :: map depth_of l) 0) (flat_map marks cs) (map fst (interpolate_well cs (Some s))) /\
  (forall x, In x (flat_map marks cs) -> md <= x) /\ In md (flat_map marks cs) /\
  (forall y, In y l -> In (depth_of y) (flat_map marks cs)).
Proof.
  intros dls s l. induction l as [|st r IH]; intros md v cs Hs NE S C; [congruence|].
  destruct cs as [|c cr]; [destruct C|]. destruct C as [(K1 & K2 & K3 & K4 & W & _) C].
  cbn [map] in S. destruct S as [L S].
  destruct (section_weak c s Hs W) as (B & MB & G).
  assert (M1 : In md (marks c) /\ In (depth_of st) (marks c)).
  { rewrite <- K1, <- K3. unfold marks. destruct (k_method c), (k_md2 c); cbn; auto. }
  rewrite K1, K3 in *. destruct M1 as [Mf Mt].
  destruct r as [|st2 r2].
  - destruct cr; [|destruct C]. cbn [flat_map interpolate_well]. unfold interpolate_well. cbn [flat_map].
    rewrite !app_nil_r. cbn [map last]. split; [exact G|]. split; [intros x I; apply MB in I; lra|].
    split; [auto|]. intros y [<-|[]]. auto.
  - destruct (IH (depth_of st) (heading_of st) cr Hs ltac:(congruence) S C) as (G2 & L2 & I2 & A2).
    assert (LE : depth_of st <= last (depth_of st :: map depth_of (st2 :: r2)) 0) by (apply si_le_last; exact S).
    split; [|split; [|split]].
    + change (last (md :: map depth_of (st :: st2 :: r2)) 0) with (last (depth_of st :: map depth_of (st2 :: r2)) 0).
      unfold interpolate_well. cbn [flat_map]. rewrite map_app.
      apply (wgrid_app s _ (depth_of st) _ (marks c) (flat_map marks cr));
        [split; [apply Rlt_le, L|exact LE]|exact G|exact G2|apply in_or_app; left; auto|
         intros x I; apply MB in I; lra|exact L2].
    + intros x I. cbn [flat_map] in I. apply in_app_or in I. destruct I as [I|I]; [apply MB in I; lra|].
      apply L2 in I. lra.
    + cbn [flat_map]. apply in_or_app. auto.
    + intros y [<-|I]; cbn [flat_map]; apply in_or_app; auto.
Qed.
Lemma chain_marks : forall dls l first cs, chain dls (depth_of first) (heading_of first) l cs ->
  forall x, In x (flat_map marks cs) ->
    (exists y, In y (first :: l) /\ x = depth_of y) \/ extra_depth dls (first :: l) x.
Proof.
  intros dls l. induction l as [|st r IH]; intros first cs C x I.
  - destruct cs; [|destruct C]. destruct I.
  - destruct cs as [|c cr]; [destruct C|]. destruct C as [(K1 & K2 & K3 & K4 & W & K) C].
    cbn [flat_map] in I. apply in_app_or in I. destruct I as [I|I].
    + unfold marks in I. destruct K as [(_ & M)|(_ & M & t & A & T & D & D0 & X)]; rewrite M in I.
      * rewrite K1, K3 in I. destruct I as [<-|[<-|[]]]; left; eexists; (split; [|reflexivity]); cbn; auto.
      * destruct (k_md2 c) as [m|]; rewrite K1, K3 in I.
        -- destruct I as [<-|[<-|[<-|[]]]]; [left; exists first; cbn; auto| |left; exists st; cbn; auto].
           right. exists first, st, t. destruct X as [X1 X2].
           split; [exists [], r; reflexivity|]. repeat split; auto; try lra; apply A.
        -- destruct I as [<-|[<-|[]]]; left; eexists; (split; [|reflexivity]); cbn; auto.
    + destruct (IH st cr C x I) as [(y & Iy & E)|(a & b & t & (pre & post & E) & X)].
      * left. exists y. split; [right; exact Iy|auto].
      * right. exists a, b, t. split; [|exact X]. exists (first :: pre), post. rewrite E. reflexivity.
Qed.

(** ** duplicates *)
Lemma sorted_keys : forall (l : list (R * V3)), StronglySorted Rle (map fst l) ->
  keys_nondecreasing (fun row : R * V3 => md_key (fst row)) l.
Proof.
  induction l as [|a [|b r] IH]; intro S; [exact I|exact I|].
  cbn [map] in S. inversion S; subst. split; [|apply IH; auto].
  apply key_mono. rewrite Forall_forall in H2. apply H2. left; auto.
Qed.
Lemma keys_sorted : forall (l : list (R * V3)),
  StronglySorted (fun a b : R * V3 => (md_key (fst a) < md_key (fst b))%Z) l -> StronglySorted Rlt (map fst l).
Proof.
  intros l S. apply (ss_map _ Rlt fst l) in S; auto. intros x y L.
  destruct (Rlt_dec (fst x) (fst y)); auto. assert (Z := key_mono (fst y) (fst x) ltac:(lra)). lia.
Qed.
Lemma rmem_spec : forall x l, rmem x l = true <-> In x l.
Proof.
  intros. unfold rmem. rewrite existsb_exists. split.
  - intros (y & I & E). destruct (Req_EM_T x y); [subst; auto|discriminate].
  - intro I. exists x. split; auto. destruct (Req_EM_T x x); auto.
Qed.

(** ** the interpolated survey *)
Lemma no_reversal_chain : forall l a, no_reversal (a :: l) -> not_opposite (heading_of a) l.
Proof.
  induction l as [|b r IH]; intros a N; [exact I|]. split.
  - apply N. exists [], r. reflexivity.
  - apply IH. intros x y (pre & post & E). apply N. exists (a :: pre), post. rewrite E. reflexivity.
Qed.
Lemma last_station : forall l a d, exists st, In st (a :: l) /\ last (map depth_of (a :: l)) d = depth_of st.
Proof.
  induction l as [|b r IH]; intros a d; [exists a; cbn; auto|].
  destruct (IH b d) as (st & I & E). exists st. split; [right; auto|]. cbn [map] in *.
  change (last (depth_of a :: depth_of b :: map depth_of r) d) with (last (depth_of b :: map depth_of r) d). auto.
Qed.
Lemma si_bounds : forall l d x, strictly_increasing l -> In x l -> hd d l <= x <= last l d.
Proof.
  induction l as [|a r IH]; intros d x S I; [destruct I|]. destruct r as [|b r].
  - destruct I as [->|[]]. cbn. lra.
  - destruct S as [L S]. change (last (a :: b :: r) d) with (last (b :: r) d). cbn [hd].
    destruct I as [->|I].
    + pose proof (si_le_last r b d S). lra.
    + specialize (IH d x S I). cbn [hd] in IH. lra.
Qed.
Lemma inner_first_last : forall s a l x, strictly_increasing (map depth_of (a :: l)) ->
  (inner_multiple s (a :: l) x <-> depth_of a < x < last (map depth_of (a :: l)) 0 /\ multiple s x).
Proof.
  intros s a l x S. split.
  - intros (M & p & q & (sp & Ip & ->) & (sq & Iq & ->) & B). split; [|auto].
    assert (X := fun st (Z : In st (a :: l)) => si_bounds _ 0 (depth_of st) S (in_map depth_of _ _ Z)).
    pose proof (X sp Ip). pose proof (X sq Iq). cbn [map hd] in *. lra.
  - intros (B & M). split; [auto|]. destruct (last_station l a 0) as (st & I & E).
    exists (depth_of a), (last (map depth_of (a :: l)) 0). split; [exists a; cbn; auto|].
    split; [exists st; auto|auto].
Qed.
Lemma in_fst : forall (l : list (R * V3)) x, In x (map fst l) <-> exists d, In (x, d) l.
Proof.
  intros. rewrite in_map_iff. split.
  - intros ([y d] & E & I). cbn in E. subst. eauto.
  - intros (d & I). exists (x, d). auto.
Qed.

Theorem survey_rows : forall dls s p svy, 0 < dls -> 0 < s -> (2 <= length svy)%nat ->
  strictly_increasing (map depth_of svy) -> no_reversal svy ->
  exists cs rows, interpolate_survey dls p svy s =
      Some (map (fun r : R * V3 => (fst r, snd r, negb (rmem (fst r) (map depth_of svy)))) rows) /\
    (exists a l, svy = a :: l /\ l <> [] /\ chain dls (depth_of a) (heading_of a) l cs) /\
    StronglySorted Rlt (map fst rows) /\
    (forall r, In r rows -> In r (interpolate_well cs (Some s))) /\
    (forall x, In x (map fst rows) -> grid_depth dls s svy x) /\
    (forall x, is_station svy x \/ inner_multiple s svy x ->
       exists y, In y (map fst rows) /\ md_key x = md_key y) /\
    (forall x y, is_station svy y \/ inner_multiple s svy y -> y < x -> md_key x = md_key y ->
       ~ In x (map fst rows)).
Proof.
  intros dls s p svy Hd Hs Len S NR. destruct svy as [|a l]; [cbn in Len; lia|].
  assert (NE : l <> []) by (intro; subst; cbn in Len; lia).
  destruct (legs_chain dls l p (heading_of a) (depth_of a) Hd (heading_unit a) S (no_reversal_chain l a NR))
    as (cs & E & C).
  assert (E' : survey_legs dls p (a :: l) = inl cs).
  { unfold survey_legs. destruct a as [[m i] z]. rewrite (heading_vec m). exact E. }
  destruct (chain_grid dls s l (depth_of a) (heading_of a) cs Hs NE S C) as ((SR & MR) & _ & I1 & IA).
  set (raw := interpolate_well cs (Some s)) in *.
  assert (ST : forall st, In st (a :: l) -> In (depth_of st) (flat_map marks cs)).
  { intros st [<-|I]; auto. }
  assert (TWO : exists b st, l = b :: st) by (destruct l; [congruence|eauto]).
  assert (RD : exists rows, remove_duplicates (fun row : R * V3 => md_key (fst row)) raw = Some rows).
  { destruct TWO as (b & r & ->).
    assert (Ia : In (depth_of a) (map fst raw)) by (apply MR; left; auto).
    assert (Ib : In (depth_of b) (map fst raw)) by (apply MR; left; apply ST; cbn; auto).
    destruct S as [L _]. clearbody raw. destruct raw as [|x [|y z]]; [destruct Ia| |cbn; eauto].
    cbn in Ia, Ib. destruct Ia as [Ia|[]], Ib as [Ib|[]]. lra. }
  destruct RD as (rows & RD). exists cs, rows.
  destruct (remove_duplicates_spec _ _ _ (sorted_keys raw SR) RD) as (K1 & K2 & K3).
  assert (CHR : forall x, In x (map fst raw) -> grid_depth dls s (a :: l) x).
  { intros x I. apply MR in I. destruct I as [I|I].
    - destruct (chain_marks dls l a cs C x I) as [Y|Y]; [left; destruct Y as (y & Iy & Ey); exists y; auto|right; right; auto].
    - right. left. apply inner_first_last; auto. }
  assert (SUB : forall r, In r rows -> In r raw).
  { intros r I. apply K2 in I. destruct I as (pre & post & Er & _). rewrite Er. apply in_or_app. right. left. auto. }
  assert (WR : forall x, is_station (a :: l) x \/ inner_multiple s (a :: l) x -> In x (map fst raw)).
  { intros x W. apply MR. destruct W as [(st & I & ->)|W]; [left; auto|right]. apply inner_first_last in W; auto. }
  split; [|split; [|split; [|split; [|split; [|split]]]]].
  - unfold interpolate_survey. rewrite E'. unfold from_connections. fold raw. rewrite RD.
    rewrite map_map. f_equal. apply map_ext. intros [x d]. cbn [fst snd].
    f_equal.
  - exists a, l. auto.
  - apply keys_sorted. exact K1.
  - exact SUB.
  - intros x I. apply CHR. apply in_map_iff in I. destruct I as (r & <- & I). apply in_map. auto.
  - intros x W. pose proof (WR x W) as I. apply in_map_iff in I. destruct I as (r & <- & I). destruct (K3 r I) as (q & Iq & Eq).
    exists (fst q). split; [apply in_map; auto|auto].
  - intros x y W L K I. apply in_map_iff in I. destruct I as (r & <- & I). apply K2 in I.
    destruct I as (pre & post & Er & F). pose proof (WR y W) as Iy. apply in_map_iff in Iy.
    destruct Iy as (q & <- & Iq). rewrite Er in Iq. apply in_app_or in Iq.
    destruct Iq as [Iq|[<-|Iq]]; [apply (F q Iq); auto|lra|].
    rewrite Er, map_app in SR. cbn [map] in SR. clear - SR Iq L.
    induction pre as [|h pre IH]; cbn in SR.
    + inversion SR; subst. rewrite Forall_forall in H2. pose proof (H2 (fst q) (in_map fst _ _ Iq)). lra.
    + inversion SR; subst. auto.
Qed.

(** ** directions *)
Lemma rodrigues_0 : forall u v, is_unit u -> rodrigues u v 0 = u.
Proof.
  intros u v U. unfold rodrigues. destruct (Rlt_dec (norm (cross u v)) (1 / 10000000000)); [auto|].
  cbv zeta. rewrite cos_0, sin_0.
  replace (vadd (vscale 1 u) (vscale 0 (cross (vscale (/ norm (cross u v)) (cross u v)) u))) with u by (destruct u; vring).
  apply vunit_unit. auto.
Qed.
Lemma section_dirs : forall dls s md1 v1 m2 v2 c x d, 0 < dls -> 0 < s -> is_unit v1 -> is_unit v2 -> md1 < m2 ->
  leg_ok dls md1 v1 m2 v2 c -> In (x, d) (interpolate_section c (Some s)) ->
  md1 <= x <= m2 /\ (x = md1 -> d = v1) /\
  (x = m2 -> d = v2 \/ exists t, angle_between v1 v2 t /\ 0 < t < PI /\ sin t < 1 / 10000000000 /\ d = v1) /\
  ((v2 = v1 /\ d = v1) \/
   (exists n t, is_unit n /\ orthogonal v1 n /\ angle_between v1 v2 t /\ v2 = arc_tangent v1 n t /\
      d = arc_tangent v1 n (t * ((x - md1) / (m2 - md1)))) \/
   exists t, angle_between v1 v2 t /\ 0 < t < PI /\
     (30 / dls * t < m2 - md1 \/ sin t < 1 / 10000000000 \/ Rabs (t - PI) <= 1 / 100000)).
Proof.
  intros dls s md1 v1 m2 v2 c x d Hd Hs U1 U2 L (K1 & K2 & K3 & K4 & W & K) I.
  destruct (section_weak c s Hs W) as (_ & MB & G). rewrite K1, K3 in *.
  assert (B : md1 <= x <= m2).
  { destruct G as [_ G]. assert (Z : In x (map fst (interpolate_section c (Some s)))) by (apply (in_map fst) in I; exact I).
    apply G in Z. destruct Z as [Z|Z]; [apply MB in Z; lra|lra]. }
  split; [exact B|]. clear G MB. unfold interpolate_section in I. rewrite K1, K2, K3, K4 in I.
  destruct K as [(-> & M)|(NV & M & t & A & T & DG & D0 & X)]; rewrite M in I.
  - unfold interpolate_hold in I. apply in_map_iff in I. destruct I as (o & E & _). injection E as _ <-.
    split; [auto|]. split; [auto|]. left. auto.
  - rewrite DG in I.
    assert (SM : sin t < 1 / 10000000000 -> forall y, rodrigues v1 v2 y = v1).
    { intros ST y. unfold rodrigues.
      replace (norm (cross v1 v2)) with (sin t).
      destruct (Rlt_dec (sin t) (1 / 10000000000)); [auto|contradiction].
      symmetry. apply norm_from_sqr; [apply Rlt_le, sin_gt_0; lra|].
      destruct A as [_ A]. pose proof (lagrange v1 v2) as LG.
      unfold is_unit in *. rewrite U1, U2 in LG. rewrite <- A in LG.
      pose proof (sin2_cos2 t) as SC. unfold Rsqr in SC. lra. }
    unfold wf_conn in W. rewrite M in W.
    destruct (k_md2 c) as [m|].
    + destruct X as [X1 X2]. apply in_app_or in I.
      assert (IR : exists t0, angle_between v1 v2 t0 /\ 0 < t0 < PI /\
        (30 / dls * t0 < m2 - md1 \/ sin t0 < 1 / 10000000000 \/ Rabs (t0 - PI) <= 1 / 100000)).
      { exists t. split; [auto|]. split; [auto|]. destruct X2 as [[-> Q]|Q]; [left; lra|right; right; auto]. }
      assert (WM : m = md1 + k_dist_curve c).
      { rewrite K1 in W. tauto. }
      destruct I as [I|I].
      * unfold interpolate_curve in I. destruct (Req_EM_T (k_dist_curve c) 0); [lra|].
        rewrite Rabs_pos_eq in I by lra.
        assert (XB : x < m).
        { destruct (offsets_strict md1 (k_dist_curve c) s false Hs D0) as [_ G].
          assert (Z : In x (map (fun y => y + md1) (offsets md1 (k_dist_curve c) (Some s) false))).
          { apply in_map_iff in I. destruct I as (o & E & Io). injection E as <- _. apply in_map_iff. exists o. auto. }
          apply G in Z. destruct Z as [[<-|[]]|Z]; lra. }
        apply in_map_iff in I. destruct I as (o & E & _). injection E as E1 E2.
        split; [|split; [lra|right; right; auto]].
        intros ->. assert (o = 0) by lra. subst o. rewrite Rmult_0_r in E2. rewrite rodrigues_0 in E2; auto.
      * unfold interpolate_hold in I. apply in_map_iff in I. destruct I as (o & E & Io). injection E as E1 <-.
        split; [|split; [auto|right; right; auto]].
        intros ->. exfalso.
        assert (Z : In md1 (map (fun y => y + m) (offsets m (m2 - m) (Some s) true))) by (apply in_map_iff; exists o; auto).
        destruct (offsets_weak m (m2 - m) s true Hs ltac:(lra)) as [_ G]. apply G in Z. cbn in Z. lra.
    + unfold interpolate_curve in I. rewrite X in I. destruct (Req_EM_T (m2 - md1) 0) as [Z0|Z0]; [lra|].
      apply in_map_iff in I. destruct I as (o & E & _). injection E as E1 E2.
      replace (t / (m2 - md1) * o) with (t * ((x - md1) / (m2 - md1))) in E2 by (subst x; field; lra).
      destruct (Rlt_dec (sin t) (1 / 10000000000)) as [ST|ST].
      * rewrite SM in E2 by auto. subst d. split; [auto|]. split; [intros _; right; exists t; auto|].
        right. right. exists t. auto.
      * destruct (rodrigues_arc v1 v2 t U1 U2 A T ltac:(lra)) as (n & N1 & N2 & N3 & N4).
        rewrite N4 in E2. split; [|split].
        -- intros ->. rewrite <- E2. replace (t * ((md1 - md1) / (m2 - md1))) with 0 by (field; lra).
           unfold arc_tangent. rewrite cos_0, sin_0. destruct v1, n; vring.
        -- intros ->. left. rewrite <- E2. replace (t * ((m2 - md1) / (m2 - md1))) with t by (field; lra). auto.
        -- right. left. exists n, t. auto.
Qed.
Lemma chain_dirs : forall dls s l a cs x d, 0 < dls -> 0 < s -> strictly_increasing (map depth_of (a :: l)) ->
  chain dls (depth_of a) (heading_of a) l cs -> In (x, d) (interpolate_well cs (Some s)) ->
  exists b e, consecutive (a :: l) b e /\ depth_of b < depth_of e /\ exists c,
    leg_ok dls (depth_of b) (heading_of b) (depth_of e) (heading_of e) c /\ In (x, d) (interpolate_section c (Some s)).
Proof.
  intros dls s l. induction l as [|st r IH]; intros a cs x d Hd Hs S C I.
  - destruct cs; [|destruct C]. destruct I.
  - destruct cs as [|c cr]; [destruct C|]. destruct C as [K C]. cbn [map] in S. destruct S as [L S].
    unfold interpolate_well in I. cbn [flat_map] in I. apply in_app_or in I. destruct I as [I|I].
    + exists a, st. split; [exists [], r; reflexivity|]. split; [auto|]. exists c. auto.
    + destruct (IH st cr x d Hd Hs S C I) as (b & e & (pre & post & E) & X).
      exists b, e. split; [|exact X]. exists (a :: pre), post. rewrite E. reflexivity.
Qed.
Lemma consecutive_in : forall {A} (l : list A) a b, consecutive l a b -> In a l /\ In b l.
Proof. intros A l a b (p & q & ->). split; apply in_or_app; right; cbn; auto. Qed.
Lemma si_inj : forall svy a b, strictly_increasing (map depth_of svy) -> In a svy -> In b svy ->
  depth_of a = depth_of b -> a = b.
Proof.
  induction svy as [|h r IH]; intros a b S Ia Ib E; [destruct Ia|].
  assert (S' : strictly_increasing (map depth_of r)) by (destruct r; [exact I|destruct S; auto]).
  assert (G : forall y, In y r -> depth_of h < depth_of y).
  { intros y Iy. destruct r as [|k r]; [destruct Iy|]. destruct S as [L S].
    pose proof (si_bounds _ 0 (depth_of y) S (in_map depth_of _ _ Iy)). cbn [hd map] in H. lra. }
  destruct Ia as [<-|Ia], Ib as [<-|Ib]; auto.
  - pose proof (G b Ib). lra.
  - pose proof (G a Ia). lra.
Qed.
Lemma between_stations : forall svy b e y, strictly_increasing (map depth_of svy) -> consecutive svy b e ->
  In y svy -> depth_of b <= depth_of y <= depth_of e -> y = b \/ y = e.
Proof.
  intros svy b e y S (pre & post & E) Iy B. subst svy. revert S Iy. induction pre as [|h pre IH]; intros S Iy.
  - cbn [app] in *. destruct Iy as [<-|[<-|Iy]]; auto. exfalso.
    destruct S as [_ S]. destruct post as [|k post]; [destruct Iy|]. destruct S as [L S].
    pose proof (si_bounds _ 0 (depth_of y) S (in_map depth_of _ _ Iy)). cbn [hd map] in H. lra.
  - cbn [app] in *. destruct Iy as [<-|Iy].
    + exfalso. assert (Ib : In b (pre ++ b :: e :: post)) by (apply in_or_app; right; cbn; auto).
      destruct (pre ++ b :: e :: post) as [|k r] eqn:Q; [destruct Ib|]. destruct S as [L S].
      pose proof (si_bounds _ 0 (depth_of b) S (in_map depth_of _ _ Ib)). cbn [hd map] in H. lra.
    + apply IH; auto. destruct (pre ++ b :: e :: post); [exact I|destruct S; auto].
Qed.

(** C17 *)
Theorem interpolated_survey : forall dls s p svy, 0 < dls -> 0 < s -> (2 <= length svy)%nat ->
  strictly_increasing (map depth_of svy) -> no_reversal svy ->
  exists rows, interpolate_survey dls p svy s = Some rows /\
    let depths := map (fun r : R * V3 * bool => fst (fst r)) rows in
    StronglySorted Rlt depths /\
    (forall x, In x depths -> grid_depth dls s svy x) /\
    (forall x, is_station svy x \/ inner_multiple s svy x ->
       exists y, In y depths /\ Rabs (x - y) <= 1 / 10000) /\
    (forall x d f, In (x, d, f) rows -> (f = false <-> is_station svy x)) /\
    (forall x d f, In (x, d, f) rows -> exists a b, consecutive svy a b /\
       depth_of a <= x <= depth_of b /\ (on_path a b x d \/ irregular_leg dls a b)) /\
    (forall st d f, In st svy -> In (depth_of st, d, f) rows ->
       d = heading_of st \/ exists a t, consecutive svy a st /\ d = heading_of a /\
         angle_between (heading_of a) (heading_of st) t /\ 0 < t < PI /\ sin t < 1 / 10000000000).
Proof.
  intros dls s p svy Hd Hs Len S NR.
  destruct (survey_rows dls s p svy Hd Hs Len S NR) as (cs & rows & E & (a & l & -> & NE & C) & SO & SUB & G & CV & _).
  eexists. split; [exact E|]. cbv zeta. rewrite map_map. cbn [fst].
  change (map (fun x : R * V3 => fst x) rows) with (map fst rows).
  assert (SEC : forall x d f, In (x, d, f) (map (fun r : R * V3 => (fst r, snd r, negb (rmem (fst r) (map depth_of (a :: l))))) rows) ->
    f = negb (rmem x (map depth_of (a :: l))) /\
    exists b e, consecutive (a :: l) b e /\ depth_of b < depth_of e /\ exists c,
      leg_ok dls (depth_of b) (heading_of b) (depth_of e) (heading_of e) c /\ In (x, d) (interpolate_section c (Some s))).
  { intros x d f I. apply in_map_iff in I. destruct I as ([x0 d0] & Q & I). cbn [fst snd] in Q. injection Q as -> -> <-.
    split; [auto|]. apply (chain_dirs dls s l a cs); auto. }
  split; [exact SO|]. split; [exact G|]. split; [|split; [|split]].
  - intros x W. destruct (CV x W) as (y & Iy & K). exists y. split; [auto|].
    apply around_near in K. eapply Rle_trans; [apply K|]. simpl. lra.
  - intros x d f I. destruct (SEC x d f I) as [-> _]. rewrite negb_false_iff, rmem_spec, in_map_iff.
    split; intros (st & Z1 & Z2); exists st; auto.
  - intros x d f I. destruct (SEC x d f I) as (_ & b & e & CO & L & c & K & Ic). exists b, e. split; [auto|].
    destruct (section_dirs dls s _ _ _ _ c x d Hd Hs (heading_unit b) (heading_unit e) L K Ic) as (B & _ & _ & Q).
    split; [auto|]. destruct Q as [Q|[Q|Q]]; [left; split; auto|left; split; auto|right; exact Q].
  - intros st d f Is I. destruct (SEC _ d f I) as (_ & b & e & CO & L & c & K & Ic).
    destruct (section_dirs dls s _ _ _ _ c _ d Hd Hs (heading_unit b) (heading_unit e) L K Ic) as (B & Q1 & Q2 & _).
    destruct (between_stations _ b e st S CO Is B) as [->| ->]; [left; auto|].
    destruct (Q2 eq_refl) as [Q|(t & A & T & ST & Q)]; [left; auto|]. right. exists b, t. auto.
Qed.
Theorem interpolated_survey_exact : forall dls s p svy rows, 0 < dls -> 0 < s -> (2 <= length svy)%nat ->
  strictly_increasing (map depth_of svy) -> no_reversal svy ->
  (forall x y, grid_depth dls s svy x -> grid_depth dls s svy y -> x < y -> 1 / 10000 < y - x) ->
  interpolate_survey dls p svy s = Some rows ->
  let depths := map (fun r : R * V3 * bool => fst (fst r)) rows in
  (forall x, is_station svy x \/ inner_multiple s svy x -> In x depths) /\
  no_gap_over s (last (map depth_of svy) 0) depths.
Proof.
  intros dls s p svy rows Hd Hs Len S NR SEP ER.
  destruct (interpolated_survey dls s p svy Hd Hs Len S NR) as (rows' & E & X). rewrite E in ER. injection ER as ->.
  cbv zeta in *. destruct X as (SO & G & CV & _).
  assert (IN : forall x, is_station svy x \/ inner_multiple s svy x ->
    In x (map (fun r : R * V3 * bool => fst (fst r)) rows)).
  { intros x W. destruct (CV x W) as (y & Iy & K).
    assert (Gx : grid_depth dls s svy x) by (destruct W; [left|right; left]; auto). pose proof (G y Iy) as Gy.
    destruct (Rtotal_order x y) as [Q|[->|Q]]; auto.
    - pose proof (SEP x y Gx Gy Q). rewrite Rabs_left1 in K; lra.
    - pose proof (SEP y x Gy Gx Q). rewrite Rabs_right in K; lra. }
  split; [exact IN|]. intros x I L. destruct svy as [|a l]; [cbn in Len; lia|].
  assert (Fx : depth_of a <= x).
  { assert (X := fun st (Z : In st (a :: l)) => si_bounds _ 0 (depth_of st) S (in_map depth_of _ _ Z)).
    destruct (G x I) as [(st & Is & ->)|[Q|(b & e & t & CO & _ & _ & B & _)]].
    - pose proof (X st Is). cbn [map hd] in *. lra.
    - apply inner_first_last in Q; auto. lra.
    - apply consecutive_in in CO. destruct CO as [CO _]. pose proof (X b CO). cbn [map hd] in *. lra. }
  destruct (next_multiple s x Hs) as (M & B). set (m := x + (s - rmod x s)) in *.
  destruct (Rlt_dec m (last (map depth_of (a :: l)) 0)) as [Q|Q].
  - exists m. split; [|lra]. apply IN. right. apply inner_first_last; auto. split; [lra|auto].
  - exists (last (map depth_of (a :: l)) 0). split; [|lra]. apply IN. left.
    destruct (last_station l a 0) as (st & Is & ->). exists st. auto.
Qed.
(** too few stations: IndexError *)
Theorem interpolated_survey_short : forall dls s p svy, (length svy < 2)%nat -> interpolate_survey dls p svy s = None.
Proof.
  intros dls s p svy L. destruct svy as [|[[m i] z] [|b r]]; cbn in L; try lia; reflexivity.
Qed.

Lemma md_key_near : forall (k : Z) e, 0 <= e < 1 / 20000 -> md_key (IZR k + e) = (k * 10000)%Z.
Proof.
  intros k e B. unfold md_key, around. replace ((IZR k + e) * 10 ^ 4) with (IZR (k * 10000) + e * 10000) by (rewrite mult_IZR; simpl; ring).
  apply rint_val. lra.
Qed.
Definition dropped_svy : list (R * R * R) := [(0, 0, 0); (30 + 1 / 100000, 0, 0); (60, 0, 0)].
Lemma heading_down : forall m, heading_of (m, 0, 0) = mkV 0 0 1.
Proof. intro m. unfold heading_of, direction_nev. cbn. rewrite sin_0, cos_0. apply V3_eq; cbn; ring. Qed.
Lemma vertical_no_reversal : forall svy, (forall st, In st svy -> heading_of st = mkV 0 0 1) -> no_reversal svy.
Proof.
  intros svy H a b C. apply consecutive_in in C. destruct C as [Ia Ib]. rewrite (H a Ia), (H b Ib).
  unfold vneg. intro E. injection E. lra.
Qed.
(** a station just after a multiple of the step is lost *)
Theorem station_dropped_refuted : exists dls s p svy rows st, 0 < dls /\ 0 < s /\
  strictly_increasing (map depth_of svy) /\ no_reversal svy /\ In st svy /\
  interpolate_survey dls p svy s = Some rows /\
  ~ In (depth_of st) (map (fun r : R * V3 * bool => fst (fst r)) rows).
Proof.
  assert (S : strictly_increasing (map depth_of dropped_svy)) by (cbn; lra).
  assert (N : no_reversal dropped_svy).
  { apply vertical_no_reversal. cbn. intros st [<-|[<-|[<-|[]]]]; apply heading_down. }
  destruct (survey_rows (1 / 100000000) 30 vzero dropped_svy ltac:(lra) ltac:(lra) ltac:(cbn; lia) S N)
    as (cs & rows & E & _ & _ & _ & _ & _ & D).
  exists (1 / 100000000), 30, vzero, dropped_svy. eexists. exists (30 + 1 / 100000, 0, 0).
  split; [lra|]. split; [lra|]. split; [exact S|]. split; [exact N|]. split; [cbn; auto|]. split; [exact E|].
  rewrite map_map. cbn [fst]. change (map (fun x : R * V3 => fst x) rows) with (map fst rows).
  apply (D _ 30).
  - right. apply inner_first_last; auto. split; [cbn; lra|]. exists 1%Z. ring.
  - cbn. lra.
  - cbn [depth_of fst]. rewrite (md_key_near 30) by lra. replace 30 with (IZR 30 + 0) by ring. rewrite md_key_near by lra. reflexivity.
Qed.

(** a case of the hypotheses: two equal headings, then a right turn *)
Definition bend_svy : list (R * R * R) := [(0, 0, 0); (45, 0, 0); (100, PI / 2, 0)].
Lemma bend_heading : heading_of (100, PI / 2, 0) = mkV 1 0 0.
Proof. unfold heading_of, direction_nev. cbn. rewrite sin_PI2, cos_PI2, cos_0, sin_0. apply V3_eq; cbn; ring. Qed.
Lemma bend_pairs : forall a b, consecutive bend_svy a b ->
  (a = (0, 0, 0) /\ b = (45, 0, 0)) \/ (a = (45, 0, 0) /\ b = (100, PI / 2, 0)).
Proof.
  intros a b (pre & post & E). unfold bend_svy in E.
  destruct pre as [|x [|y [|z pre]]]; cbn in E.
  - injection E as E1 E2 E3. left. split; congruence.
  - injection E as E0 E1 E2 E3. right. split; congruence.
  - discriminate.
  - injection E as E0 E1 E2 E3. destruct pre; discriminate.
Qed.
Lemma bend_no_reversal : no_reversal bend_svy.
Proof.
  intros a b C. apply bend_pairs in C. destruct C as [[-> ->]|[-> ->]]; rewrite ?bend_heading, ?heading_down;
    unfold vneg; intro E; injection E; lra.
Qed.
Lemma bend_ordered : strictly_increasing (map depth_of bend_svy).
Proof. cbn. lra. Qed.
Lemma bend_separated : forall x y, grid_depth (1 / 100000000) 30 bend_svy x -> grid_depth (1 / 100000000) 30 bend_svy y ->
  x < y -> 1 / 10000 < y - x.
Proof.
  assert (G : forall x, grid_depth (1 / 100000000) 30 bend_svy x -> exists k : Z, x = IZR k * 5).
  { intros x [(st & I & ->)|[((k & ->) & _)|(a & b & t & C & A & T & B & Q)]].
    - cbn in I. destruct I as [<-|[<-|[<-|[]]]]; cbn; [exists 0%Z|exists 9%Z|exists 20%Z]; ring.
    - exists (6 * k)%Z. rewrite mult_IZR. ring.
    - exfalso. apply bend_pairs in C. destruct C as [[-> ->]|[-> ->]].
      + rewrite !heading_down in A. destruct A as [A1 A2].
        assert (t = 0); [|lra]. apply cos_inj_0_PI; try lra. rewrite cos_0, A2. unfold dot. cbn. ring.
      + rewrite heading_down, bend_heading in A. destruct A as [A1 A2].
        assert (Z := PI_RGT_0). assert (P3 := PI2_3_2).
        assert (t = PI / 2). { apply cos_inj_0_PI; try lra. rewrite cos_PI2, A2. unfold dot. cbn. ring. }
        subst t. cbn [depth_of fst] in *. destruct Q as [[-> Q]|Q].
        * replace (30 / (1 / 100000000)) with 3000000000 in Q by field. lra.
        * rewrite Rabs_left1 in Q; lra. }
  intros x y Gx Gy L. apply G in Gx. apply G in Gy. destruct Gx as (k & ->), Gy as (j & ->).
  assert (IZR k < IZR j) by lra. apply lt_IZR in H. assert (IZR (k + 1) <= IZR j) by (apply IZR_le; lia).
  rewrite plus_IZR in H0. lra.
Qed.
