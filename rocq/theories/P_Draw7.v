(** Concrete projections; the azimuth kept by set_vertical_section. *)
Require Import Reals ZArith Bool String List Lra Lia Psatz Sorted.
Require Import Verif.Base Verif.NumPy Verif.P_Trig Verif.Spec Verif.Spec_Lists Verif.M_Utils
  Verif.P_Utils Verif.P_Utils2 Verif.P_Utils3 Verif.M_Connector Verif.Spec_Connector Verif.Spec_Connector2
  Verif.P_Connector Verif.P_Connector2 Verif.P_Connector3 Verif.P_Connector4 Verif.P_Connector5 Verif.P_Connector6 Verif.P_Connector7 Verif.P_Connector8
  Verif.M_Survey Verif.P_Survey Verif.P_Survey2
  Verif.P_Survey3 Verif.P_Survey4 Verif.P_Levels2 Verif.M_Rates Verif.M_Draw Verif.Spec_Draw
  Verif.P_Refine Verif.P_Draw Verif.P_Draw2 Verif.P_Draw3 Verif.P_Draw4 Verif.P_Draw5 Verif.P_Draw6.
Import ListNotations.
Open Scope R_scope.

(** ** a vertical survey that ends at the origin, at 100 m *)
Definition shaft_rows : list row := [(0, 0, 0); (100, 0, 0)].
Lemma shaft : exists s, Survey (grid_header "meters") shaft_rows false vzero (mkV 0 0 (-100)) "meters" = Some s /\
  sv_header s = grid_header "meters" /\ sv_rows s = [mkSt 0 0 0] ++ [mkSt 100 0 0] /\
  sv_pos_nev s = [mkV 0 0 (-100)] ++ [vzero].
Proof.
  destruct (Survey_total (grid_header "meters") shaft_rows false vzero (mkV 0 0 (-100))) as [s HS]; [left; reflexivity|cbn; lia|].
  change (h_unit (grid_header "meters")) with "meters"%string in HS. exists s. split; auto.
  destruct (Survey_inv _ _ _ _ _ _ _ HS) as (_ & HH & L2 & LR & _ & _ & NE & _). split; auto.
  assert (RS : sv_rows s = [mkSt 0 0 0] ++ [mkSt 100 0 0]).
  { rewrite (Survey_rows _ _ _ _ _ _ _ HS). cbn. repeat (f_equal; try ring). }
  split; auto.
  assert (PN : sv_pos_nev s = sv_nev s) by (eapply pos_nev_agrees; eauto).
  rewrite PN. rewrite RS in NE. cbn [app] in NE.
  assert (LN : length (sv_nev s) = 2%nat) by (rewrite NE, map_length, mc_list_length; cbn; auto).
  destruct (nth_error_some_lt _ (sv_nev s) 0 ltac:(lia)) as [p P]. destruct (nth_error_some_lt _ (sv_nev s) 1 ltac:(lia)) as [q Q].
  assert (P0 : p = mkV 0 0 (-100)).
  { rewrite NE, mc_list_path in P. assert (X : Some (P_Survey2.nev_of vzero (mkV 0 0 (-100)) vzero) = Some p) by exact P.
    injection X as <-. unfold P_Survey2.nev_of, get_nev. unf. apply V3_eq; simpl; ring. }
  assert (Q0 : q = vzero).
  { rewrite (Survey_nev_step _ _ _ _ _ _ _ 0 (mkSt 0 0 0) (mkSt 100 0 0) p q HS); auto; try (rewrite RS; reflexivity).
    assert (D : forall m, dir (mkSt m 0 0) = mkV 0 0 1).
    { intro m. unfold dir. cbn [st_inc st_azi]. unfold direction_nev. rewrite sin_0, cos_0. apply V3_eq; simpl; ring. }
    rewrite step_between_disp.
    assert (PD : pair_dogleg (mkSt 0 0 0) (mkSt 100 0 0) = 0).
    { apply pair_dogleg_is; [pose proof PI_RGT_0; lra|]. rewrite !D, cos_0. symmetry. apply down_unit. }
    rewrite PD, !D, mc_disp_straight, P0. cbn [st_md]. unf. apply V3_eq; simpl; ring. }
  destruct (sv_nev s) as [|x [|y [|z l]]]; try (cbn in LN; lia). cbn in P, Q. injection P as ->. injection Q as ->.
  rewrite P0, Q0. reflexivity.
Qed.
Lemma down_dir : direction_nev 0 0 = mkV 0 0 1.
Proof. unfold direction_nev. rewrite sin_0, cos_0. apply V3_eq; simpl; ring. Qed.
Definition only_pos (q : V3) : M_Connector.node := M_Connector.mkNode (Some q) None None None None None None.
Definition only_md (m : R) : M_Connector.node := M_Connector.mkNode None None None None None None (Some m).
Lemma rate3 : 450 <= 30 / radians 3 < 600.
Proof.
  pose proof PI2_3_2 as A. unfold PI2 in A. pose proof PI_4 as B. pose proof PI_RGT_0.
  unfold radians. assert (E : 30 / (3 * (PI / 180)) * PI = 1800) by (field; lra).
  set (x := 30 / (3 * (PI / 180))) in *. clearbody x. split; nra.
Qed.
Lemma toward_only : forall p u m q, only_position (to_target p u m (only_pos q)) u q (30 / radians 3).
Proof.
  intros p u m q. pose proof PI_RGT_0. repeat split; cbn; try lra. exists (radians 3). split; auto. split; auto. unfold radians. lra.
Qed.
(** one leg: target 400 m north and 800 m below the end *)
Lemma project_example : exists s c z, Survey (grid_header "meters") shaft_rows false vzero (mkV 0 0 (-100)) "meters" = Some s /\
  sv_rows s = [mkSt 0 0 0] ++ [mkSt 100 0 0] /\ sv_pos_nev s = [mkV 0 0 (-100)] ++ [vzero] /\ h_ref (sv_header s) = RefGrid /\
  mkV 400 0 800 <> vzero /\ direction_nev 0 0 <> vunit (vsub (mkV 400 0 800) vzero) /\
  project_to_target (fun _ => vzero) s (only_pos (mkV 400 0 800)) 1 None None None None = PjOk [c] z /\
  sound c /\ far_apart None [c] /\ k_method c = MinDistToTarget /\
  let a := to_target vzero (mkV 0 0 1) 100 (only_pos (mkV 400 0 800)) in
  0 <= a_min_error a /\ is_unit (start_vec a) /\ connector vzero a = inl c /\ radius_design a = Some (30 / radians 3) /\
  off_axis (a_pos1 a) (start_vec a) (k_pos_target c) <> 2 * (30 / radians 3) /\
  0 < ahead (a_pos1 a) (start_vec a) (k_pos_target c) /\ 1 / 10000000000 <= sin (k_dogleg c).
Proof.
  destruct shaft as (s & HS & HH & RS & PS). pose proof rate3 as R3.
  set (a := to_target vzero (mkV 0 0 1) 100 (only_pos (mkV 400 0 800))).
  pose proof (toward_only vzero (mkV 0 0 1) 100 (mkV 400 0 800)) as P. fold a in P.
  destruct (only_position_method _ _ _ _ P) as (C & SV & RD & Hr & GM).
  set (r := 30 / radians 3) in *.
  destruct (curve_hold_solves vzero a _ _ _ P down_unit) as (c & H & M & T).
  - apply not_allclose_dir; lra.
  - apply not_allclose_origin; lra.
  - cbn [a a_pos1 to_target]. rewrite off_down; lra.
  - cbn [a a_pos1 to_target]. rewrite off_down; lra.
  - cbn [a a_pos1 to_target a_min_error]. rewrite tcr_down; lra.
  - assert (U : is_unit (start_vec a)) by (rewrite SV; apply down_unit).
    assert (OFF : off_axis (a_pos1 a) (start_vec a) (k_pos_target c) = 400) by (rewrite T, SV; apply off_down; lra).
    assert (AH : ahead (a_pos1 a) (start_vec a) (k_pos_target c) = 800).
    { rewrite T, SV. unfold ahead. cbn [a a_pos1 to_target]. unf. cbn. ring. }
    destruct (curve_hold_reaches vzero a c r ltac:(cbn [a a_min_error to_target]; lra) U H M RD ltac:(rewrite OFF; lra)) as (pos2 & P2 & W & Bd & Tn & DC & M2 & MT).
    destruct (half_circle _ _ _ _ _ _ _ _ U Hr Tn Bd W ltac:(rewrite OFF; lra)) as (HC & NP).
    destruct (turn_lateral _ _ _ _ _ _ _ _ U W) as (EO & EA). rewrite OFF in EO. rewrite AH in EA.
    assert (LT : k_dogleg c < PI) by (apply HC; right; rewrite AH; lra).
    set (t := k_dogleg c) in *. set (l := k_tangent c) in *.
    pose proof (sin2_cos2 t) as S2. unfold Rsqr in S2.
    assert (SP : 0 < sin t) by (apply sin_gt_0; lra).
    assert (L2 : l * l = 800000 - 800 * r).
    { assert (X : (r * sin t + l * cos t) * (r * sin t + l * cos t) + (r * (1 - cos t) + l * sin t) * (r * (1 - cos t) + l * sin t)
        = l * l * (sin t * sin t + cos t * cos t) + 2 * r * (r * ((1 + (sin t * sin t + cos t * cos t)) / 2 - cos t) + l * sin t)) by field.
      rewrite S2, <- EO, <- EA in X. replace (r * ((1 + 1) / 2 - cos t) + l * sin t) with 400 in X by (rewrite EO; field). lra. }
    assert (LB : 500 < l < 700) by nra.
    assert (SB : 1 / 100 <= sin t).
    { destruct (Rle_dec (1 / 100) (sin t)); auto. exfalso.
      assert (S3 : sin t * sin t <= 1 / 10000) by nra.
      assert (LS : 0 < l * sin t <= 7) by nra. assert (RS' : 0 < r * sin t <= 6) by nra.
      destruct (Rle_dec (cos t) 0).
      - assert (l * cos t <= 0) by nra. lra.
      - assert (99 / 100 <= cos t) by nra. nra. }
    assert (TB : 1 / 100 < t) by (pose proof (sin_lt_x t ltac:(lra)); lra).
    assert (SC : sound c).
    { eapply min_dist_sound; eauto; [cbn [a a_min_error to_target]; lra|rewrite OFF; lra|right; rewrite AH; lra|fold t; lra]. }
    assert (K1 : k_md1 c = 100) by (apply connector_start in H; destruct H as (_ & _ & ->); reflexivity).
    change (a_md1 a) with 100 in M2, MT.
    assert (FA : far_apart None [c]).
    { assert (DD : forall x, drawn_depth None [c] x -> x = 100 \/ x = 100 + r * t \/ x = 100 + r * t + l).
      { intros x [(k & [<-|[]] & [->| ->])|[(k & [<-|[]] & E)|(st0 & ? & ? & E & _)]]; [left; auto|right; right; auto| |discriminate].
        right; left. congruence. }
      assert (B : 1 < r * t) by nra.
      intros x y X Y N. apply DD in X. apply DD in Y. unfold Rabs. destruct (Rcase_abs _); destruct X as [->|[->| ->]], Y as [->|[->| ->]]; lra. }
    assert (HU : wf_conn c) by (eapply connector_wf; eauto).
    destruct (draw_some (grid_header "meters") c None vzero (or_introl eq_refl) HU) as [z Z]; [intros ? E; discriminate|rewrite K1, MT; nra|].
    exists s, c, z. split; auto. split; auto. split; auto. split; [rewrite HH; reflexivity|].
    split; [unfold vzero; intro E; injection E; lra|].
    split; [rewrite down_dir; intro E; apply (not_allclose_dir 400 800); [lra|lra|rewrite <- E; unfold allclose, close, rtol, atol; cbn [vx vy vz]; repeat split; rewrite Rminus_eq_0, Rabs_R0; pose proof (Rabs_pos 1); lra]|].
    split.
    { unfold project_to_target. rewrite RS, PS, HH. cbn [app last st_inc st_azi st_md]. rewrite gvec, down_dir, (normalised_unit _ down_unit).
      cbn [bit_node]. fold a. rewrite H. cbn [app]. rewrite Z. reflexivity. }
    split; auto. split; auto. split; auto. cbv zeta. fold a. fold r. split; [cbn; lra|]. split; auto. split; auto. split; auto.
    split; [rewrite OFF; lra|]. split; [rewrite AH; lra|fold t; lra].
Qed.

(** ** a leg to the bit and a leg to a depth *)
Lemma bit_leg : forall bump p u m m2 v d t, is_unit u -> is_unit v -> angle_between u v t -> 0 < t < PI -> m < m2 -> 0 < d ->
  exists c, connector bump (to_bit p u m m2 v d) = inl c /\ k_method c = MinCurve /\ target_vec (to_bit p u m m2 v d) = v.
Proof.
  intros bump p u m m2 v d t U V AB T Hm Hd. set (a := to_bit p u m m2 v d).
  assert (NO : v <> vneg u).
  { intro E. assert (X : cos t = -1). { rewrite (proj2 AB), E. unfold is_unit in U. destruct u. revert U. unf. simpl. intro. lra. }
    rewrite <- cos_PI in X. apply cos_inj_0_PI in X; lra. }
  assert (NE : v <> u).
  { intro E. assert (X : cos t = 1) by (rewrite (proj2 AB), E; exact U). rewrite <- cos_0 in X. apply cos_inj_0_PI in X; lra. }
  assert (TV : target_vec a = v).
  { unfold target_vec. destruct (v3_eq_dec (target_vec0 a) (vneg (start_vec a))) as [E|E]; [exfalso; apply NO; exact E|reflexivity]. }
  assert (CA : check_args a = None).
  { unfold check_args. cbn [a to_bit a_vec1 a_inc1 a_azi1 a_md2 a_pos2 a_vec2 a_inc2 a_azi2 a_md1 a_dls a_min_error given truthy negb andb orb].
    destruct (Rle_dec m m2); [|lra]. destruct (Rlt_dec 0 (radians d)) as [|N]; [|exfalso; apply N; unfold radians; pose proof PI_RGT_0; nra].
    destruct (Rlt_dec (1 / 100000) 1); [auto|lra]. }
  assert (SV : start_vec a = u) by reflexivity.
  destruct (method_cases a CA ltac:(rewrite SV; exact U)) as [(ST & _ & _)|(_ & E)].
  { destruct ST as [ST _]. rewrite TV, SV in ST. contradiction. }
  change (base_method a) with "min_curve"%string in E.
  assert (X : exists c, do_min_curve a = inl c).
  { unfold do_min_curve. destruct (start_angles a) as [i1 z1], (target_angles' a) as [i2 z2].
    change (a_md2 a) with (Some m2). change (radius_design a) with (Some (30 / radians d)).
    unfold get_curve_hold_data. cbv zeta. set (g := check_dogleg _). destruct (Req_EM_T g 0); cbn [orb rmin_inf]; [eauto|].
    match goal with |- context [Rlt_dec ?x ?y] => destruct (Rlt_dec x y) end; cbn [orb]; [eauto|]. destruct (Z.eqb _ _); eauto. }
  destruct X as [c X]. exists c. split; [|split; auto; eapply min_curve_method; eauto].
  unfold connector. rewrite CA, E. exact X.
Qed.
Lemma hold_leg : forall bump p u m m2, is_unit u -> m < m2 ->
  connector bump (to_target p u m (only_md m2)) =
  inl (mkConn Hold p u m (vadd p (vscale (m2 - m) u)) (target_vec (to_target p u m (only_md m2))) m2 None None 0 0 0 0).
Proof.
  intros bump p u m m2 U Hm. set (a := to_target p u m (only_md m2)).
  assert (CA : check_args a = None).
  { unfold check_args. cbn [a to_target only_md n_md n_pos_nev n_vec_nev a_vec1 a_inc1 a_azi1 a_md2 a_pos2 a_vec2 a_inc2 a_azi2 a_md1 a_dls a_min_error given truthy negb andb orb].
    destruct (Rle_dec m m2); [|lra]. destruct (Rlt_dec 0 (radians 3)) as [|N]; [|exfalso; apply N; unfold radians; pose proof PI_RGT_0; lra].
    destruct (Rlt_dec (1 / 100000) 1); [auto|lra]. }
  unfold connector. rewrite CA. reflexivity.
Qed.
(** 30 m at 2 degrees per 30 m to the bit, designed at 3, then on to 1000 m *)
Lemma bit_example : exists s c1 c2 z, Survey (grid_header "meters") shaft_rows false vzero (mkV 0 0 (-100)) "meters" = Some s /\
  sv_rows s = [mkSt 0 0 0] ++ [mkSt 100 0 0] /\ sv_pos_nev s = [mkV 0 0 (-100)] ++ [vzero] /\
  0 < radians (30 / 30 * 2) < PI /\
  project_to_target (fun _ => vzero) s (only_md 1000) 3 (Some 30) (Some 2) (Some 0) None = PjOk [c1; c2] z /\
  joined [c1; c2] /\ (forall k, In k [c1; c2] -> sound k) /\ far_apart None [c1; c2] /\ far_apart (Some 10) [c1; c2] /\
  (exists v t, let a := to_bit vzero (mkV 0 0 1) 100 130 v 3 in connector vzero a = inl c1 /\ k_method c1 = MinCurve /\
     is_unit (start_vec a) /\ is_unit (target_vec a) /\ angle_between (start_vec a) (target_vec a) t /\ 0 < t < PI /\
     1 / 10000000000 <= sin t /\ forall m, a_md2 a = Some m -> a_md1 a < m) /\
  (exists q v, let a := to_target q v 130 (only_md 1000) in connector vzero a = inl c2 /\ k_method c2 = Hold /\
     is_unit (start_vec a) /\ (forall m, a_md2 a = Some m -> a_md1 a < m) /\ a_pos2 a = None).
Proof.
  destruct shaft as (s & HS & HH & RS & PS). pose proof rate3 as R3. pose proof PI_RGT_0 as PP. pose proof PI_4 as P4.
  pose proof PI2_3_2 as P3. unfold PI2 in P3.
  assert (T : 0 < radians (30 / 30 * 2) < PI) by (unfold radians; split; lra).
  pose proof down_unit as U.
  destruct (project_ahead vzero (mkV 0 0 1) 30 2 0 100) as [[q v] m2] eqn:PA.
  assert (P2 : 0 < 2) by lra. destruct (project_ahead_arc _ _ _ _ _ _ _ _ _ U P2 PA) as (ARC & M2 & _).
  pose proof (ahead_unit _ _ _ _ _ _ _ _ _ U PA) as V.
  set (t := radians (30 / 30 * 2)) in *.
  assert (AB : angle_between (mkV 0 0 1) v t).
  { destruct ARC as (n & rc & N & O & RL & QE & VE). split; [lra|]. rewrite VE.
    replace (mkV 0 0 1) with (arc_tangent (mkV 0 0 1) n 0) at 1
      by (unfold arc_tangent; rewrite sin_0, cos_0; destruct n; unf; apply V3_eq; simpl; ring).
    rewrite arc_dot by auto. f_equal. ring. }
  assert (M2' : m2 = 130) by (rewrite M2; ring). subst m2.
  destruct (bit_leg vzero vzero (mkV 0 0 1) 100 130 v 3 t U V AB T ltac:(lra) ltac:(lra)) as (c1 & C1 & MC & TV).
  set (a := to_bit vzero (mkV 0 0 1) 100 130 v 3) in *.
  assert (SV : start_vec a = mkV 0 0 1) by reflexivity.
  assert (TB : t = PI / 90) by (unfold t, radians; field).
  assert (SB : 1 / 10000000000 <= sin t).
  { pose proof (jordan t ltac:(rewrite TB; lra)) as J. rewrite TB in J at 1. nra. }
  assert (S1 : sound c1).
  { apply (min_curve_sound vzero a c1 t); auto; rewrite ?SV, ?TV; auto. intros m E. injection E as <-. cbn. lra. }
  destruct (min_curve_parts vzero a c1 t ltac:(rewrite SV; auto) ltac:(rewrite TV; auto) C1 MC ltac:(rewrite SV, TV; auto) ltac:(lra))
    as (r & len & R0 & L0 & DL & VT & DC & PT & MT & MD & MN & _ & _ & RM).
  rewrite TV in VT.
  assert (RR : r = 30 / radians 3).
  { rewrite (RM 130 (30 / radians 3) eq_refl eq_refl). apply Rmin_left. cbn [a a_md1 to_bit]. unfold radians. rewrite TB.
    apply Rmult_le_reg_r with PI; [lra|]. replace (30 / (3 * (PI / 180)) * PI) with 1800 by (field; lra).
    replace ((130 - 100) / (PI / 90) * PI) with 2700 by (field; lra). lra. }
  assert (RT : r * t = 20) by (rewrite RR, TB; unfold radians; field; lra).
  assert (MT1 : k_md_target c1 = 130).
  { destruct (min_curve_connection vzero a c1 t ltac:(rewrite SV; auto) ltac:(rewrite TV; auto) C1 MC ltac:(rewrite SV, TV; auto) ltac:(lra))
      as (? & ? & ? & _ & _ & _ & _ & _ & _ & _ & X & _). apply X. reflexivity. }
  assert (KM : k_md1 c1 = 100) by (apply connector_start in C1; destruct C1 as (_ & _ & ->); reflexivity).
  pose proof (hold_leg vzero (k_pos_target c1) v 130 1000 V ltac:(lra)) as C2.
  set (a2 := to_target (k_pos_target c1) v 130 (only_md 1000)) in *.
  match type of C2 with _ = inl ?c => set (c2 := c) in * end.
  assert (S2 : sound c2).
  { apply (hold_sound vzero a2 c2); auto; [intros m E; injection E as <-; cbn; lra|intros q' E; discriminate]. }
  assert (J : joined [c1; c2]).
  { intros x y [l1 [l2 E]]. destruct l1 as [|? [|? [|? ?]]]; cbn in E; try discriminate.
    injection E as <- <- <-. rewrite VT, MT1. repeat split. }
  assert (FA : forall step, step = None \/ step = Some 10 -> far_apart step [c1; c2]).
  { intros step ST. assert (DD : forall x, drawn_depth step [c1; c2] x -> multiple 10 x).
    { intros x [(k & [<-|[<-|[]]] & [->| ->])|[(k & [<-|[<-|[]]] & E)|(s0 & ? & ? & E & _ & _ & _ & X)]]; try discriminate.
      - exists 10%Z. rewrite KM. lra.
      - exists 13%Z. rewrite MT1. lra.
      - exists 13%Z. cbn. lra.
      - exists 100%Z. cbn. lra.
      - apply MD in E. rewrite RT in E. cbn [a a_md1 to_bit] in E. exists 12%Z. lra.
      - destruct ST as [->| ->]; [discriminate|]. injection E as <-. exact X. }
    intros x y X Y N. apply DD in X. apply DD in Y. destruct X as [i ->], Y as [j ->].
    replace (IZR i * 10 - IZR j * 10) with (10 * IZR (i - j)) by (rewrite minus_IZR; ring).
    rewrite Rabs_mult, (Rabs_pos_eq 10) by lra. rewrite Rabs_Zabs.
    assert (1 <= Z.abs (i - j))%Z by (destruct (Z.eq_dec i j) as [->|]; [destruct (N eq_refl)|lia]).
    assert (1 <= IZR (Z.abs (i - j))) by (apply (IZR_le 1); auto). lra. }
  destruct (drawn_survey (grid_header "meters") [c2] c1 None vzero (or_introl eq_refl) ltac:(intros ? E; discriminate) J
    ltac:(intros k [<-|[<-|[]]]; auto) (FA None (or_introl eq_refl))) as (z & Z & _).
  exists s, c1, c2, z. split; auto. split; auto. split; auto. split; auto. split.
  2: split; [exact J|split; [intros k [<-|[<-|[]]]; auto|split; [apply FA; auto|split; [apply FA; auto|split]]]].
  2: exists v, t; cbv zeta; fold a; rewrite SV, TV; repeat split; auto; try lra; [apply AB|intros m E; injection E as <-; cbn; lra].
  2: exists (k_pos_target c1), v; cbv zeta; fold a2; repeat split; auto; intros m E; injection E as <-; cbn; lra.
  unfold project_to_target. rewrite RS, PS, HH. cbn [app last st_inc st_azi st_md]. rewrite gvec, down_dir, (normalised_unit _ U), PA.
  unfold bit_node. rewrite (normalised_unit _ V). cbv beta. rewrite M2'. fold a. rewrite C1, VT, (normalised_unit _ V), MT1. fold a2. rewrite C2.
  cbn [app]. rewrite Z. reflexivity.
Qed.

(** ** a single arc of more than half a circle *)
Lemma long_arc_example : exists c s, connector vzero (plain (mkV 40 0 (-80)) (1 / 10)) = inl c /\ k_method c = MinCurveToTarget /\
  k_pos_target c = mkV 40 0 (-80) /\ ~ allclose vzero (mkV 40 0 (-80)) /\
  off_axis vzero (mkV 0 0 1) (mkV 40 0 (-80)) = 40 /\ ahead vzero (mkV 0 0 1) (mkV 40 0 (-80)) = -80 /\
  tangent_circle_radius vzero (mkV 0 0 1) (mkV 40 0 (-80)) = 100 /\ radius_design (plain (mkV 40 0 (-80)) (1 / 10)) = Some 300 /\
  sin (k_dogleg c) <= - (1 / 10000000000) /\ draw (grid_header "meters") [c] (Some 10) vzero = Some s.
Proof.
  assert (P : only_position (plain (mkV 40 0 (-80)) (1 / 10)) (mkV 0 0 1) (mkV 40 0 (-80)) (30 / (1 / 10))) by (apply plain_only; lra).
  replace (30 / (1 / 10)) with 300 in P by field.
  assert (AH : ahead vzero (mkV 0 0 1) (mkV 40 0 (-80)) = -80) by (unfold ahead; unf; cbn; ring).
  assert (T : tangent_circle_radius vzero (mkV 0 0 1) (mkV 40 0 (-80)) = 100) by (rewrite tcr_down; lra).
  assert (O : off_axis vzero (mkV 0 0 1) (mkV 40 0 (-80)) = 40) by (apply off_down; lra).
  assert (NC : ~ allclose vzero (mkV 40 0 (-80))) by (apply not_allclose_origin; lra).
  destruct (single_arc_solves vzero _ _ _ _ P down_unit) as (c & H & M & Q); cbn [a_pos1 plain]; auto; try lra.
  { apply not_allclose_dir; lra. }
  destruct (only_position_method _ _ _ _ P) as (_ & SV & RD & _).
  destruct (single_arc_reaches vzero (plain (mkV 40 0 (-80)) (1 / 10)) c) as (W & _ & Bd & _ & DC & MT);
    rewrite ?Q, ?SV, ?RD; cbn [a_pos1 plain]; auto using down_unit; try lra.
  { intros r E. injection E as <-. lra. }
  rewrite ?Q, ?SV in W. rewrite ?Q, ?SV in MT. cbn [a_pos1 plain a_md1] in W, MT. rewrite T in W, MT.
  destruct (turn_lateral _ _ _ _ _ _ _ _ down_unit W) as (EO & EA). rewrite AH in EA.
  assert (SN : sin (k_dogleg c) = - (8 / 10)) by lra.
  assert (LT : 1 < k_dogleg c).
  { destruct (Rlt_dec 1 (k_dogleg c)); auto. exfalso. pose proof PI2_3_2 as P3. unfold PI2 in P3.
    assert (0 <= sin (k_dogleg c)) by (apply sin_ge_0; lra). lra. }
  destruct (draw_some (grid_header "meters") c (Some 10) vzero (or_introl eq_refl)) as [s D].
  - eapply connector_wf; eauto. rewrite SV. apply down_unit.
  - intros s E. injection E as <-. lra.
  - destruct (connector_start _ _ _ H) as (_ & _ & E3). rewrite E3, MT. cbn [a_md1 plain]. lra.
  - exists c, s. repeat split; auto. lra.
Qed.

(** ** C120 *)
Lemma vs_header_irrelevant : forall h h' rows deg sx sn unit s s', h_ref h' = h_ref h -> h_convergence h' = h_convergence h ->
  h_declination h' = h_declination h -> Survey h rows deg sx sn unit = Some s -> Survey h' rows deg sx sn unit = Some s' ->
  sv_header s' = h' /\ sv_rows s' = sv_rows s /\ sv_nev s' = sv_nev s /\ ref_azimuths s' = ref_azimuths s.
Proof.
  intros h h' rows deg sx sn unit s s' E1 E2 E3 H H'. unfold Survey in H, H'. rewrite E1, E2, E3 in H'.
  destruct (negb (unit =? h_unit h)%string); [discriminate|]. destruct (negb (unit =? h_unit h')%string); [discriminate|].
  match type of H with context [M_Utils.MinCurve ?l sx unit] => destruct (M_Utils.MinCurve l sx unit) end; [|discriminate].
  injection H as <-. injection H' as <-. unfold ref_azimuths. cbn. rewrite E1. auto.
Qed.
Lemma section_kept : forall h rows deg sx sn unit s a d s', Survey h rows deg sx sn unit = Some s ->
  Survey (fst (set_vertical_section s a d)) rows deg sx sn unit = Some s' ->
  own_vertical_section s' = Some (snd (set_vertical_section s a false)).
Proof.
  intros h rows deg sx sn unit s a d s' H H'.
  destruct (Survey_inv _ _ _ _ _ _ _ H) as (_ & HH & _).
  assert (E1 : h_ref (fst (set_vertical_section s a d)) = h_ref h) by (cbn; rewrite HH; reflexivity).
  assert (E2 : h_convergence (fst (set_vertical_section s a d)) = h_convergence h) by (cbn; rewrite HH; reflexivity).
  assert (E3 : h_declination (fst (set_vertical_section s a d)) = h_declination h) by (cbn; rewrite HH; reflexivity).
  destruct (vs_header_irrelevant _ _ _ _ _ _ _ _ _ E1 E2 E3 H H') as (A & B & C & D).
  unfold own_vertical_section. rewrite A. cbn. unfold survey_vertical_section. rewrite B, C, D. reflexivity.
Qed.
Lemma section_set : forall s a, snd (set_vertical_section s a true) = snd (set_vertical_section s (a * (PI / 180)) false).
Proof. intros. reflexivity. Qed.
Lemma section_rebuilt : forall h rows deg sx sn unit s a d, Survey h rows deg sx sn unit = Some s ->
  exists s', Survey (fst (set_vertical_section s a d)) rows deg sx sn unit = Some s'.
Proof.
  intros h rows deg sx sn unit s a d H. destruct (Survey_inv _ _ _ _ _ _ _ H) as (EU & HH & L & LR & UU & _).
  rewrite EU in *. clear EU.
  change (h_unit h) with (h_unit h). replace (h_unit h) with (h_unit (fst (set_vertical_section s a d))) by (cbn; rewrite HH; reflexivity).
  apply Survey_total; [cbn; rewrite HH; auto|lia].
Qed.
Lemma level_north : exists s, Survey (grid_header "meters") [(0, PI / 2, 0); (100, PI / 2, 0)] false vzero vzero "meters" = Some s /\
  forall a, snd (set_vertical_section s a false) = [0; 100 * cos a].
Proof.
  set (rows := [(0, PI / 2, 0); (100, PI / 2, 0)] : list row).
  destruct (Survey_total (grid_header "meters") rows false vzero vzero) as [s HS]; [left; reflexivity|cbn; lia|].
  change (h_unit (grid_header "meters")) with "meters"%string in HS. exists s. split; auto.
  destruct (Survey_inv _ _ _ _ _ _ _ HS) as (_ & HH & L2 & LR & _ & _ & NE & _).
  assert (RS : sv_rows s = [mkSt 0 (PI / 2) 0; mkSt 100 (PI / 2) 0]).
  { rewrite (Survey_rows _ _ _ _ _ _ _ HS). cbn. repeat (f_equal; try ring). }
  destruct (Survey_xyz_len _ _ _ _ _ _ _ HS) as [_ LN]. rewrite RS in LN.
  destruct (sv_nev s) as [|p [|q [|? ?]]] eqn:N; try (cbn in LN; lia).
  assert (D : forall m, dir (mkSt m (PI / 2) 0) = mkV 1 0 0).
  { intro m. unfold dir. cbn [st_inc st_azi]. unfold direction_nev. rewrite sin_0, cos_0, sin_PI2, cos_PI2. apply V3_eq; simpl; ring. }
  assert (PD : pair_dogleg (mkSt 0 (PI / 2) 0) (mkSt 100 (PI / 2) 0) = 0).
  { apply pair_dogleg_is; [pose proof PI_RGT_0; lra|]. rewrite !D, cos_0. unf. simpl. ring. }
  assert (Q : q = vadd p (mkV 100 0 0)).
  { rewrite (Survey_nev_step _ _ _ _ _ _ _ 0 (mkSt 0 (PI / 2) 0) (mkSt 100 (PI / 2) 0) p q HS); try (rewrite ?RS, ?N; reflexivity).
    rewrite step_between_disp, PD, !D, mc_disp_straight. cbn [st_md]. unf. apply V3_eq; simpl; ring. }
  intro a. destruct (vs_survey_first _ _ _ _ _ _ _ a HS) as (LV & V0).
  change (snd (set_vertical_section s a false)) with (fst (survey_vertical_section s a)).
  destruct (fst (survey_vertical_section s a)) as [|v [|w [|? ?]]] eqn:F; try (cbn in LV; lia).
  cbn in V0. injection V0 as ->.
  pose proof PI_RGT_0 as PP.
  destruct (vs_survey_increment _ _ _ _ _ _ _ a 0 (mkSt 0 (PI / 2) 0) (mkSt 100 (PI / 2) 0) p q 0 w HS) as [E _];
    try (rewrite ?RS, ?N, ?F; reflexivity); cbn [st_inc st_azi st_md]; try lra.
  - change (pair_dogleg (mkSt 0 (PI / 2) 0) (mkSt 100 (PI / 2) 0) < PI). rewrite PD. lra.
  - cbn [st_azi grid_header h_ref] in E. rewrite Q in E. f_equal. f_equal.
    assert (Z : Rabs (0 - 0) <= PI) by (rewrite Rminus_0_r, Rabs_R0; lra).
    specialize (E Z). replace w with (w - 0) by ring. rewrite E. rewrite Rminus_0_r. unf. cbn. ring.
Qed.
Lemma section_degrees_refuted : ~ (forall h rows deg sx sn unit s a s', Survey h rows deg sx sn unit = Some s ->
  Survey (fst (set_vertical_section s a true)) rows deg sx sn unit = Some s' ->
  own_vertical_section s' = Some (snd (set_vertical_section s a true))).
Proof.
  intro G. destruct level_north as (s & HS & V).
  destruct (section_rebuilt _ _ _ _ _ _ _ 1 true HS) as [s' HS'].
  specialize (G _ _ _ _ _ _ _ _ _ HS HS'). rewrite (section_kept _ _ _ _ _ _ _ _ _ _ HS HS'), section_set, !V in G.
  assert (E : cos 1 = cos (1 * (PI / 180))). { injection G as G. lra. }
  pose proof PI2_3_2 as P3. unfold PI2 in P3. pose proof PI_4.
  apply cos_inj_0_PI in E; lra.
Qed.

(** ** C118: when the turn is more than half a circle *)
Lemma long_turn_iff : forall bump a c r, 0 <= a_min_error a -> is_unit (start_vec a) ->
  connector bump a = inl c -> k_method c = MinDistToTarget -> radius_design a = Some r ->
  off_axis (a_pos1 a) (start_vec a) (k_pos_target c) <> 2 * r ->
  (PI < k_dogleg c <-> off_axis (a_pos1 a) (start_vec a) (k_pos_target c) < 2 * r /\
                       ahead (a_pos1 a) (start_vec a) (k_pos_target c) <= 0) /\ k_dogleg c <> PI.
Proof.
  intros bump a c r He U H M RD NO.
  destruct (curve_hold_reaches bump a c r He U H M RD NO) as (pos2 & P2 & W & Bd & Tn & DC & M2 & MT).
  assert (Hr : 0 < r) by (eapply radius_pos; eauto; eapply connector_cases; eauto).
  destruct (half_circle _ _ _ _ _ _ _ _ U Hr Tn Bd W NO) as (HC & NP). split; auto. split.
  - intro L. destruct (Rlt_dec (off_axis (a_pos1 a) (start_vec a) (k_pos_target c)) (2 * r)) as [A|A].
    + split; auto. destruct (Rle_dec (ahead (a_pos1 a) (start_vec a) (k_pos_target c)) 0); auto. exfalso.
      assert (k_dogleg c < PI) by (apply HC; right; lra). lra.
    + exfalso. assert (k_dogleg c < PI) by (apply HC; left; lra). lra.
  - intros [A B]. destruct (Rlt_dec PI (k_dogleg c)); auto. exfalso.
    destruct (proj1 HC ltac:(lra)); lra.
Qed.

Lemma arc_sound_example : exists c, let a := plain (mkV 40 0 80) (1 / 10) in connector vzero a = inl c /\ k_method c = MinCurveToTarget /\
  is_unit (start_vec a) /\ ~ allclose (a_pos1 a) (k_pos_target c) /\ 0 < off_axis (a_pos1 a) (start_vec a) (k_pos_target c) /\
  (forall r, radius_design a = Some r -> tangent_circle_radius (a_pos1 a) (start_vec a) (k_pos_target c) <= r) /\
  0 < ahead (a_pos1 a) (start_vec a) (k_pos_target c) /\ 1 / 10000000000 <= sin (k_dogleg c).
Proof.
  destruct arc_example as (c & H & M & Q & NC & O & A & T & RD). exists c. cbv zeta. set (a := plain (mkV 40 0 80) (1 / 10)) in *.
  assert (SV : start_vec a = mkV 0 0 1) by reflexivity. assert (P1 : a_pos1 a = vzero) by reflexivity.
  assert (AH : ahead vzero (mkV 0 0 1) (mkV 40 0 80) = 80) by (unfold ahead; unf; ring).
  destruct (single_arc_reaches vzero a c) as (W & _ & Bd & _ & DC & MT);
    rewrite ?Q, ?SV, ?P1, ?RD; auto using down_unit.
  { rewrite T. intros r E. injection E as <-. lra. }
  rewrite Q, SV, P1, T in W. destruct (turn_lateral _ _ _ _ _ _ _ _ down_unit W) as (_ & EA). rewrite AH in EA.
  rewrite AH, T. repeat split; auto using down_unit; try lra. intros r E. injection E as <-. lra.
Qed.
