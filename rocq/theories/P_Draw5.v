(** Turns of more than half a circle are drawn on the other side. *)
Require Import Reals ZArith Bool String List Lra Lia Psatz Sorted.
Require Import Verif.Base Verif.NumPy Verif.P_Trig Verif.Spec Verif.Spec_Lists Verif.M_Utils
  Verif.P_Utils Verif.P_Utils2 Verif.P_Utils3 Verif.M_Connector Verif.Spec_Connector Verif.Spec_Connector2
  Verif.P_Connector Verif.P_Connector2 Verif.P_Connector3 Verif.P_Connector4 Verif.P_Connector5 Verif.P_Connector6 Verif.P_Connector7 Verif.P_Connector8
  Verif.M_Survey Verif.P_Survey Verif.P_Survey2
  Verif.P_Survey3 Verif.P_Survey4 Verif.P_Tvd Verif.M_Levels Verif.P_Levels Verif.P_Levels2 Verif.P_Levels3 Verif.M_Draw Verif.Spec_Draw
  Verif.P_Refine Verif.P_Draw Verif.P_Draw2 Verif.P_Draw3 Verif.P_Draw4.
Import ListNotations.
Open Scope R_scope.

(** what [draw] gives, on a grid *)
Lemma draw_inv : forall h c cs step start s, h_ref h = RefGrid -> draw h (c :: cs) step start = Some s ->
  exists rows, remove_duplicates (fun row : R * V3 => md_key (fst row)) (interpolate_well (c :: cs) step) = Some rows /\
    map st_md (sv_rows s) = map fst rows /\
    length (sv_rows s) = length rows /\ length (sv_nev s) = length rows /\
    (forall i x d st, nth_error rows i = Some (x, d) -> nth_error (sv_rows s) i = Some st ->
       st_md st = x /\ (is_unit d -> direction_nev (st_inc st) (st_azi st) = d)) /\
    nth_error (sv_nev s) 0 = Some (vadd (k_pos1 c) start) /\
    (forall i a b p q, nth_error (sv_rows s) i = Some a -> nth_error (sv_rows s) (Datatypes.S i) = Some b ->
       nth_error (sv_nev s) i = Some p -> nth_error (sv_nev s) (Datatypes.S i) = Some q -> q = vadd p (step_between a b)).
Proof.
  intros h c cs step start s HR D. unfold draw in D.
  destruct (from_connections (c :: cs) step) as [fr|] eqn:FC; [|discriminate].
  unfold from_connections in FC.
  destruct (remove_duplicates (fun row : R * V3 => md_key (fst row)) (interpolate_well (c :: cs) step)) as [rows|] eqn:RD; [|discriminate].
  assert (EF : fr = map (fun row : R * V3 => (row, negb (rmem (fst row) (mds_ref (c :: cs))))) rows) by congruence.
  rewrite EF in D. clear EF FC fr. exists rows. split; auto.
  set (given := map (fun r : R * V3 * bool => let '(i, z) := get_angles true (snd (fst r)) in (fst (fst r), i, z))
     (map (fun row : R * V3 => (row, negb (rmem (fst row) (mds_ref (c :: cs))))) rows)) in *.
  destruct (Survey h given false vzero (vadd (k_pos1 c) start) (h_unit h)) as [s0|] eqn:HS; cbn [option_map] in D; [|discriminate].
  injection D as <-. unfold with_flags. cbn [sv_rows sv_nev].
  assert (RS : sv_rows s0 = map (fun r : R * V3 => stn (fst r) (snd r)) rows).
  { rewrite (Survey_rows _ _ _ _ _ _ _ HS). unfold given. rewrite !map_map. apply map_ext. intros [x d]. cbn [fst snd].
    unfold stn. destruct (get_angles true d) as [i z]. rewrite grid_shift, HR, Rplus_0_r. reflexivity. }
  destruct (Survey_inv _ _ _ _ _ _ _ HS) as (_ & HH & L2 & _ & _ & _ & NE & _).
  assert (RN : rows <> []).
  { intro E. rewrite E in RD. destruct (interpolate_well (c :: cs) step) as [|a [|b l]]; discriminate. }
  assert (LR : length (sv_rows s0) = length rows) by (rewrite RS, map_length; auto).
  assert (LN : length (sv_nev s0) = length rows).
  { rewrite NE, map_length, mc_list_length by lia. auto. }
  split; [rewrite RS, map_map; apply map_ext; intros [x d]; unfold stn; cbn [fst snd]; destruct (get_angles true d); auto|].
  split; auto. split; auto. split; [|split].
  - intros i x d st X ST. rewrite RS, nth_error_map, X in ST. cbn [option_map fst snd] in ST. injection ST as <-.
    split; [unfold stn; destruct (get_angles true d); auto|]. intro U. exact (proj1 (stn_dir x d U)).
  - rewrite NE. assert (RN' : sv_rows s0 <> []) by (intro E; rewrite E in LR; destruct rows; [congruence|discriminate]).
    destruct (sv_rows s0) as [|a l]; [congruence|]. rewrite mc_list_path.
    assert (HP : Some (P_Survey2.nev_of vzero (vadd (k_pos1 c) start) vzero) = Some (vadd (k_pos1 c) start)).
    { f_equal. unfold P_Survey2.nev_of, get_nev. destruct (vadd (k_pos1 c) start). unf. apply V3_eq; simpl; ring. }
    destruct l; exact HP.
  - intros. eapply Survey_nev_step; eauto.
Qed.

(** stations on an arc before a depth [B] *)
Lemma drawn_arc : forall h c step start s m r B, h_ref h = RefGrid -> draw h [c] step start = Some s ->
  is_unit (k_vec1 c) -> is_unit m -> orthogonal (k_vec1 c) m -> 0 < r ->
  StronglySorted Rle (map fst (interpolate_section c step)) ->
  nth_error (map fst (interpolate_section c step)) 0 = Some (k_md1 c) ->
  (forall x d, In (x, d) (interpolate_section c step) -> x < B -> d = arc_tangent (k_vec1 c) m ((x - k_md1 c) / r)) ->
  k_md1 c < B ->
  (forall st, In st (sv_rows s) -> st_md st < B ->
     direction_nev (st_inc st) (st_azi st) = arc_tangent (k_vec1 c) m ((st_md st - k_md1 c) / r)) /\
  ((forall a b, consecutive (sv_rows s) a b -> st_md b - st_md a < PI * r) ->
   forall i st p, nth_error (sv_rows s) i = Some st -> nth_error (sv_nev s) i = Some p -> st_md st < B ->
     p = vadd (arc_point (k_pos1 c) (k_vec1 c) m r ((st_md st - k_md1 c) / r)) start).
Proof.
  intros h c step start s m r B HR D U N O R0 SR HD RW MB.
  destruct (draw_inv h c [] step start s HR D) as (rows & RD & MDI & LR & LN & ST & P0 & STEP).
  unfold interpolate_well in RD. cbn [flat_map] in RD. rewrite app_nil_r in RD.
  set (raw := interpolate_section c step) in *.
  destruct (remove_duplicates_spec _ _ _ (sorted_keys raw SR) RD) as (K1 & K2 & K3).
  assert (SUB : forall r, In r rows -> In r raw).
  { intros y I. apply K2 in I. destruct I as (pre & post & Er & _). rewrite Er. apply in_or_app. right. left. auto. }
  assert (SI : strictly_increasing (map fst rows)) by (apply ss_increasing, keys_sorted; exact K1).
  assert (H0 : nth_error (map fst rows) 0 = Some (k_md1 c)).
  { destruct raw as [|a [|b l]]; try discriminate. cbn in RD. injection RD as <-. cbn in HD |- *. auto. }
  assert (DIR : forall i st, nth_error (sv_rows s) i = Some st -> st_md st < B ->
     direction_nev (st_inc st) (st_azi st) = arc_tangent (k_vec1 c) m ((st_md st - k_md1 c) / r)).
  { intros i st X L. assert (LI : (i < length rows)%nat) by (rewrite <- LR; apply nth_error_Some; congruence).
    destruct (nth_error_some_lt _ rows i LI) as [[x d] Y]. destruct (ST i x d st Y X) as [EX ED].
    assert (E : d = arc_tangent (k_vec1 c) m ((x - k_md1 c) / r)).
    { apply RW; [apply SUB; eapply nth_error_In; eauto|lra]. }
    rewrite EX, ED; auto. rewrite E. apply arc_unit; auto. }
  split.
  - intros st I L. apply In_nth_error in I. destruct I as [i I]. eauto.
  - intro GAP.
    induction i as [|i IH]; intros st p X HP L.
    + rewrite P0 in HP. injection HP as <-. assert (E : st_md st = k_md1 c).
      { assert (Y : nth_error (map st_md (sv_rows s)) 0 = Some (st_md st)) by (rewrite nth_error_map, X; auto).
        rewrite MDI, H0 in Y. injection Y; auto. }
      rewrite E. replace ((k_md1 c - k_md1 c) / r) with 0 by (field; lra).
      unfold arc_point. rewrite sin_0, cos_0. destruct (k_pos1 c), (k_vec1 c), m, start. unf. apply V3_eq; simpl; ring.
    + assert (LI : (Datatypes.S i < length (sv_rows s))%nat) by (apply nth_error_Some; congruence).
      destruct (nth_error_some_lt _ (sv_rows s) i ltac:(lia)) as [a A].
      destruct (nth_error_some_lt _ (sv_nev s) i ltac:(lia)) as [q Q].
      assert (LT : st_md a < st_md st).
      { apply (si_lt (map st_md (sv_rows s)) i (Datatypes.S i)); rewrite ?nth_error_map, ?A, ?X; auto. rewrite MDI. auto. }
      assert (GE : k_md1 c <= st_md a).
      { destruct i as [|i].
        - assert (Y : nth_error (map st_md (sv_rows s)) 0 = Some (st_md a)) by (rewrite nth_error_map, A; auto).
          rewrite MDI, H0 in Y. injection Y as <-. lra.
        - left. apply (si_lt (map fst rows) 0 (Datatypes.S i)); auto; [|lia]. rewrite <- MDI, nth_error_map, A. auto. }
      assert (CO : consecutive (sv_rows s) a st).
      { destruct (nth_error_split _ _ A) as (l1 & l2 & EL & LL). exists l1. rewrite EL in X.
        rewrite nth_error_app2 in X by lia. replace (Datatypes.S i - length l1)%nat with 1%nat in X by lia. cbn in X.
        destruct l2 as [|z l2]; [discriminate|]. injection X as ->. exists l2. auto. }
      rewrite (STEP i a st q p A X Q HP), (IH a q A Q ltac:(lra)).
      pose proof (DIR _ _ A ltac:(lra)) as DA. pose proof (DIR _ _ X L) as DX.
      rewrite <- (arc_step (k_pos1 c) (k_vec1 c) m r (st_md a - k_md1 c) (st_md st - k_md1 c) a st); auto.
      * set (y := step_between a st). set (z := arc_point _ _ _ _ _). destruct y, z, start. unf. apply V3_eq; simpl; ring.
      * lra.
      * specialize (GAP a st CO). replace (st_md st - k_md1 c - (st_md a - k_md1 c)) with (st_md st - st_md a) by ring.
        apply (Rmult_lt_reg_r r); auto. unfold Rdiv. rewrite Rmult_assoc, Rinv_l, Rmult_1_r by lra. auto.
      * ring.
Qed.

Lemma section_head : forall c step, wf_conn c -> nth_error (map fst (interpolate_section c step)) 0 = Some (k_md1 c).
Proof.
  intros c step W. unfold wf_conn, interpolate_section, interpolate_hold, interpolate_curve, offsets in *.
  destruct (k_method c), (k_md2 c); try (destruct W; fail); destruct step; try destruct (Req_EM_T (k_dist_curve c) 0);
    cbn; f_equal; lra.
Qed.
Lemma section_sorted : forall c step, wf_conn c -> pos_step step -> StronglySorted Rle (map fst (interpolate_section c step)).
Proof.
  intros c step W P. destruct step as [s|].
  - destruct (section_weak c s (P s eq_refl) W) as (_ & _ & X & _). auto.
  - unfold wf_conn, interpolate_section, interpolate_hold, interpolate_curve, offsets in *.
    destruct (k_method c), (k_md2 c); try (destruct W; fail); try destruct (Req_EM_T (k_dist_curve c) 0); cbn;
    try rewrite (Rabs_pos_eq (k_dist_curve c)) by lra;
    repeat first [apply SSorted_nil | apply SSorted_cons | apply Forall_nil | apply Forall_cons]; lra.
Qed.
(** the rotation of a long turn goes the short way *)
Lemma rod_long : forall u n t x, is_unit u -> is_unit n -> orthogonal u n -> PI < t < 2 * PI ->
  sin t <= - (1 / 10000000000) -> rodrigues u (arc_tangent u n t) x = arc_tangent u (vneg n) x.
Proof.
  intros u n t x U N O Ht SN.
  assert (N' : is_unit (vneg n)) by (unfold is_unit in *; destruct n; revert N; unf; simpl; intro; lra).
  assert (O' : orthogonal u (vneg n)) by (unfold orthogonal in *; destruct u, n; revert O; unf; simpl; intro; lra).
  assert (C : cos (2 * PI - t) = cos t).
  { rewrite cos_minus, cos_2PI, sin_2PI. ring. }
  assert (S : sin (2 * PI - t) = - sin t).
  { rewrite sin_minus, cos_2PI, sin_2PI. ring. }
  assert (E : arc_tangent u n t = arc_tangent u (vneg n) (2 * PI - t)).
  { unfold arc_tangent. rewrite C, S. destruct u, n. unf. apply V3_eq; simpl; ring. }
  assert (A : angle_between u (arc_tangent u n t) (2 * PI - t)).
  { split; [lra|]. rewrite C.
    replace u with (arc_tangent u n 0) at 1
      by (unfold arc_tangent; rewrite sin_0, cos_0; destruct u, n; unf; apply V3_eq; simpl; ring).
    rewrite arc_dot by auto. f_equal. ring. }
  destruct (rodrigues_arc u (arc_tangent u n t) (2 * PI - t) U (arc_unit u n t U N O) A ltac:(lra)) as (n' & N1 & N2 & N3 & N4).
  { rewrite S. lra. }
  rewrite N4. f_equal. symmetry. apply (arc_normal_unique u (vneg n) n' (2 * PI - t)); [lra|]. rewrite <- E, <- N3. auto.
Qed.
Lemma vneg_unit : forall n, is_unit n -> is_unit (vneg n).
Proof. intros n N. unfold is_unit in *; destruct n; revert N; unf; simpl; intro; lra. Qed.
Lemma vneg_orth : forall u n, orthogonal u n -> orthogonal u (vneg n).
Proof. intros u n O. unfold orthogonal in *; destruct u, n; revert O; unf; simpl; intro; lra. Qed.
Lemma long_rows : forall md1 u n t r step e x d, is_unit u -> is_unit n -> orthogonal u n -> PI < t < 2 * PI ->
  sin t <= - (1 / 10000000000) -> 0 < r -> pos_step step ->
  In (x, d) (interpolate_curve md1 u (arc_tangent u n t) (r * t) t step e) -> d = arc_tangent u (vneg n) ((x - md1) / r).
Proof.
  intros md1 u n t r step e x d U N O Ht SN R0 P I. pose proof PI_RGT_0.
  unfold interpolate_curve in I. destruct (Req_EM_T (r * t) 0); [nra|].
  apply in_map_iff in I. destruct I as (o & EO & I). injection EO as <- <-.
  rewrite rod_long by auto. f_equal. field. lra.
Qed.

(** ** a turn of more than half a circle and a straight *)
Lemma long_turn_drawn : forall bump a c r h step start s, 0 <= a_min_error a -> is_unit (start_vec a) ->
  connector bump a = inl c -> k_method c = MinDistToTarget -> radius_design a = Some r ->
  off_axis (a_pos1 a) (start_vec a) (k_pos_target c) <> 2 * r ->
  PI < k_dogleg c -> sin (k_dogleg c) <= - (1 / 10000000000) ->
  h_ref h = RefGrid -> pos_step step -> draw h [c] step start = Some s ->
  exists n, is_unit n /\ orthogonal (start_vec a) n /\ 0 <= dot n (vsub (k_pos_target c) (a_pos1 a)) /\
    k_vec_target c = arc_tangent (start_vec a) n (k_dogleg c) /\
    (forall st, In st (sv_rows s) -> st_md st < a_md1 a + r * k_dogleg c ->
       direction_nev (st_inc st) (st_azi st) = arc_tangent (start_vec a) (vneg n) ((st_md st - a_md1 a) / r)) /\
    ((forall x y, consecutive (sv_rows s) x y -> st_md y - st_md x < PI * r) ->
     forall i st p, nth_error (sv_rows s) i = Some st -> nth_error (sv_nev s) i = Some p ->
       st_md st < a_md1 a + r * k_dogleg c ->
       p = vadd (arc_point (a_pos1 a) (start_vec a) (vneg n) r ((st_md st - a_md1 a) / r)) start).
Proof.
  intros bump a c r h step start s He U H M R B LT SN HR P DR.
  destruct (connector_start bump a c H) as (E1 & E2 & E3).
  destruct (connector_cases bump a c H) as (CA & _).
  assert (Hr : 0 < r) by (eapply radius_pos; eauto).
  destruct (curve_hold_reaches bump a c r He U H M R B) as (pos2 & P2 & (n & N & O & Q & _ & V & _) & Bd & Tn & DC & M2 & MT).
  pose proof (connector_wf bump a c U H) as W. pose proof PI_RGT_0 as PP.
  destruct (drawn_arc h c step start s (vneg n) r (a_md1 a + r * k_dogleg c) HR DR) as (A1 & A2);
    try rewrite E2; try rewrite E1; try rewrite E3; auto using vneg_unit, vneg_orth, section_sorted.
  - rewrite <- E3. apply section_head; auto.
  - intros x d I L. unfold interpolate_section in I. rewrite M, M2 in I. apply in_app_or in I. destruct I as [I|I].
    + rewrite E2, E3, V, DC in I. eapply long_rows in I; eauto. lra.
    + apply hold_rows in I; auto; lra.
  - nra.
  - exists n. rewrite E2, E3 in A1. rewrite E1, E2, E3 in A2. repeat split; auto.
Qed.
(** ** a single arc of more than half a circle: the whole survey is mirrored *)
Lemma long_arc_drawn : forall bump a c h step start s, is_unit (start_vec a) ->
  connector bump a = inl c -> k_method c = MinCurveToTarget ->
  ~ allclose (a_pos1 a) (k_pos_target c) ->
  0 < off_axis (a_pos1 a) (start_vec a) (k_pos_target c) ->
  let rc := tangent_circle_radius (a_pos1 a) (start_vec a) (k_pos_target c) in
  (forall r, radius_design a = Some r -> rc <= r) ->
  ahead (a_pos1 a) (start_vec a) (k_pos_target c) < 0 -> sin (k_dogleg c) <= - (1 / 10000000000) ->
  h_ref h = RefGrid -> pos_step step -> draw h [c] step start = Some s ->
  PI < k_dogleg c /\
  exists n, is_unit n /\ orthogonal (start_vec a) n /\ 0 <= dot n (vsub (k_pos_target c) (a_pos1 a)) /\
    k_vec_target c = arc_tangent (start_vec a) n (k_dogleg c) /\
    (forall st, In st (sv_rows s) ->
       direction_nev (st_inc st) (st_azi st) = arc_tangent (start_vec a) (vneg n) ((st_md st - a_md1 a) / rc)) /\
    ((forall x y, consecutive (sv_rows s) x y -> st_md y - st_md x < PI * rc) ->
     forall i st p, nth_error (sv_rows s) i = Some st -> nth_error (sv_nev s) i = Some p ->
       p = vadd (arc_point (a_pos1 a) (start_vec a) (vneg n) rc ((st_md st - a_md1 a) / rc)) start).
Proof.
  intros bump a c h step start s U H M NC N0 rc L A SN HR P DR.
  destruct (connector_start bump a c H) as (E1 & E2 & E3).
  destruct (single_arc_reaches bump a c U H M NC N0 ltac:(lra) L) as (T & Rc & Bd & Tn & DC & MT). fold rc in T, Rc, DC, MT.
  destruct (turn_lateral _ _ _ _ _ _ _ _ U T) as (_ & EA). destruct T as (n & N & O & Q & _ & V & _).
  pose proof PI_RGT_0 as PP.
  assert (LT : PI < k_dogleg c).
  { destruct (Rlt_dec PI (k_dogleg c)); auto. exfalso.
    assert (0 <= sin (k_dogleg c)) by (apply sin_ge_0; lra). nra. }
  split; auto.
  pose proof (connector_wf bump a c U H) as W.
  assert (BOUND : exists B, a_md1 a < B /\ forall st, In st (sv_rows s) -> st_md st < B).
  { assert (G : forall l, exists B, a_md1 a < B /\ forall st : station, In st l -> st_md st < B).
    { induction l as [|x l (B & B1 & B2)]; [exists (a_md1 a + 1); split; [lra|intros ? []]|].
      exists (Rmax B (st_md x + 1)). pose proof (Rmax_l B (st_md x + 1)). pose proof (Rmax_r B (st_md x + 1)). split; [lra|].
      intros st [<-|I]; [lra|]. specialize (B2 st I). lra. }
    apply G. }
  destruct BOUND as (B & B1 & B2).
  destruct (drawn_arc h c step start s (vneg n) rc B HR DR) as (A1 & A2);
    try rewrite E2; try rewrite E1; try rewrite E3; auto using vneg_unit, vneg_orth, section_sorted.
  - rewrite <- E3. apply section_head; auto.
  - intros x d I _. unfold interpolate_section in I. rewrite M in I.
    rewrite E2, E3, V, DC in I. eapply long_rows in I; eauto. lra.
  - exists n. rewrite E2, E3 in A1. rewrite E1, E2, E3 in A2. repeat split; auto.
    intros G i st p X Y. apply (A2 G i); auto. apply B2. eapply nth_error_In; eauto.
Qed.

Lemma jordan : forall x, 0 < x < PI / 2 -> 2 * x < PI * sin x.
Proof.
  intros x Hx. pose proof PI_RGT_0 as P.
  destruct (MVT_cor2 sin cos 0 x ltac:(lra) (fun c _ => derivable_pt_lim_sin c)) as (c1 & D1 & B1).
  destruct (MVT_cor2 sin cos x (PI / 2) ltac:(lra) (fun c _ => derivable_pt_lim_sin c)) as (c2 & D2 & B2).
  rewrite sin_0 in D1. rewrite sin_PI2 in D2.
  assert (C : cos c2 < cos c1) by (apply cos_decreasing_1; lra).
  assert (E1 : sin x = cos c1 * x) by lra.
  assert (E2 : 1 - sin x = cos c2 * (PI / 2 - x)) by lra.
  assert (cos c2 * (PI / 2 - x) < cos c1 * (PI / 2 - x)) by nra. nra.
Qed.
Lemma long_turn_misses : forall bump a c r h start s, 0 <= a_min_error a -> is_unit (start_vec a) ->
  connector bump a = inl c -> k_method c = MinDistToTarget -> radius_design a = Some r ->
  off_axis (a_pos1 a) (start_vec a) (k_pos_target c) <> 2 * r ->
  PI < k_dogleg c -> sin (k_dogleg c) <= - (1 / 10000000000) ->
  1 / 10000 < r * k_dogleg c -> k_tangent c = 0 \/ 1 / 10000 < k_tangent c ->
  h_ref h = RefGrid -> draw h [c] None start = Some s ->
  exists p, nth_error (sv_nev s) (length (sv_nev s) - 1) = Some p /\
    dist p (vadd (k_pos_target c) start) = 4 * PI * r * sin (k_dogleg c / 2) / (2 * PI - k_dogleg c) /\
    4 * r < dist p (vadd (k_pos_target c) start).
Proof.
  intros bump a c r h start s He U H M R B LT SN FA FB HR DR.
  destruct (connector_start bump a c H) as (E1 & E2 & E3).
  destruct (connector_cases bump a c H) as (CA & _).
  assert (Hr : 0 < r) by (eapply radius_pos; eauto).
  destruct (curve_hold_reaches bump a c r He U H M R B) as (pos2 & P2 & (n & N & O & Q & PQ & V & TQ) & Bd & Tn & DC & M2 & MT).
  pose proof PI_RGT_0 as PP.
  destruct (draw_inv h c [] None start s HR DR) as (rows & RD & MDI & LR & LN & ST & P0 & STEP).
  unfold interpolate_well in RD. cbn [flat_map] in RD. rewrite app_nil_r in RD.
  assert (RAW : interpolate_section c None = [(a_md1 a, start_vec a); (a_md1 a + r * k_dogleg c, k_vec_target c); (k_md_target c, k_vec_target c)]).
  { unfold interpolate_section. rewrite M, M2. unfold interpolate_curve, interpolate_hold, offsets. rewrite DC.
    destruct (Req_EM_T (r * k_dogleg c) 0); [nra|]. cbn [map app]. rewrite E2, E3, V, rod_long by (auto; lra).
    rewrite !Rplus_0_l, Rmult_0_r. f_equal; [|f_equal; f_equal; f_equal; ring].
    f_equal. unfold arc_tangent. rewrite sin_0, cos_0. destruct (start_vec a), n. unf. apply V3_eq; simpl; ring. }
  rewrite RAW in RD. clear RAW.
  assert (UV : is_unit (k_vec_target c)) by (rewrite V; apply arc_unit; auto).
  set (m2 := a_md1 a + r * k_dogleg c) in *.
  assert (K1 : (md_key m2 =? md_key (a_md1 a))%Z = false).
  { apply Z.eqb_neq. intro K. unfold md_key in K. apply around_near in K. unfold m2 in K. simpl in K.
    replace (a_md1 a + r * k_dogleg c - a_md1 a) with (r * k_dogleg c) in K by ring.
    rewrite Rabs_pos_eq in K by lra. lra. }
  (* the turn *)
  assert (TURN : forall x y, dir x = start_vec a -> dir y = k_vec_target c -> st_md y - st_md x = r * k_dogleg c ->
    let f := r * k_dogleg c / (2 * PI - k_dogleg c) in
    step_between x y = vadd (vscale (f * - sin (k_dogleg c)) (start_vec a)) (vscale (f * (1 - cos (k_dogleg c))) (vneg n))).
  { intros x y DX DY ML f.
    assert (C : cos (2 * PI - k_dogleg c) = cos (k_dogleg c)) by (rewrite cos_minus, cos_2PI, sin_2PI; ring).
    assert (S' : sin (2 * PI - k_dogleg c) = - sin (k_dogleg c)) by (rewrite sin_minus, cos_2PI, sin_2PI; ring).
    assert (E : k_vec_target c = arc_tangent (start_vec a) (vneg n) (2 * PI - k_dogleg c)).
    { rewrite V. unfold arc_tangent. rewrite C, S'. destruct (start_vec a), n. unf. apply V3_eq; simpl; ring. }
    assert (PD : pair_dogleg x y = 2 * PI - k_dogleg c).
    { apply pair_dogleg_is; [lra|]. rewrite DX, DY, C, V.
      replace (start_vec a) with (arc_tangent (start_vec a) n 0) at 1
        by (unfold arc_tangent; rewrite sin_0, cos_0; destruct (start_vec a), n; unf; apply V3_eq; simpl; ring).
      rewrite arc_dot by auto. f_equal. ring. }
    rewrite step_between_disp, ML, PD, DX, DY, E.
    replace (r * k_dogleg c) with (f * (2 * PI - k_dogleg c)) by (unfold f; field; lra).
    rewrite mc_disp_radial by (auto using vneg_unit, vneg_orth; lra). rewrite S', C. reflexivity. }
  assert (HOLD : forall x y, dir x = k_vec_target c -> dir y = k_vec_target c ->
    step_between x y = vscale (st_md y - st_md x) (k_vec_target c)).
  { intros x y DX DY. rewrite step_between_disp.
    assert (PD : pair_dogleg x y = 0) by (apply pair_dogleg_is; [lra|]; rewrite DX, DY, cos_0; symmetry; exact UV).
    rewrite PD, DX, DY. apply mc_disp_straight. }
  assert (LAST : exists p, nth_error (sv_nev s) (length (sv_nev s) - 1) = Some p /\
    let f := r * k_dogleg c / (2 * PI - k_dogleg c) in
    p = vadd (vadd (vadd (a_pos1 a) start) (vadd (vscale (f * - sin (k_dogleg c)) (start_vec a)) (vscale (f * (1 - cos (k_dogleg c))) (vneg n))))
          (vscale (k_tangent c) (k_vec_target c))).
  { cbn [remove_duplicates drop_same_as_prev fst] in RD. rewrite K1 in RD.
    assert (P0' : nth_error (sv_nev s) 0 = Some (vadd (a_pos1 a) start)) by (rewrite <- E1; auto). clear P0.
    destruct (md_key (k_md_target c) =? md_key m2)%Z eqn:K2.
    - assert (T0 : k_tangent c = 0).
      { destruct FB as [|FB]; auto. exfalso. apply Z.eqb_eq in K2. unfold md_key in K2. apply around_near in K2.
        rewrite MT in K2. unfold m2 in K2. simpl in K2.
        replace (a_md1 a + r * k_dogleg c + k_tangent c - (a_md1 a + r * k_dogleg c)) with (k_tangent c) in K2 by ring.
        rewrite Rabs_pos_eq in K2 by lra. lra. }
      injection RD as <-. cbn [length] in LR, LN. rewrite LN. cbn [Nat.sub].
      destruct (nth_error_some_lt _ (sv_rows s) 0 ltac:(lia)) as [x X].
      destruct (nth_error_some_lt _ (sv_rows s) 1 ltac:(lia)) as [y Y].
      destruct (nth_error_some_lt _ (sv_nev s) 1 ltac:(lia)) as [p PE].
      exists p. split; auto. cbv zeta.
      destruct (ST 0%nat _ _ x eq_refl X) as [XM XD]. destruct (ST 1%nat _ _ y eq_refl Y) as [YM YD].
      rewrite (STEP 0%nat x y _ p X Y P0' PE), (TURN x y (XD U) (YD UV)) by (rewrite XM, YM; unfold m2; ring).
      rewrite T0, vscale_0, vadd_0_r. reflexivity.
    - injection RD as <-. cbn [length] in LR, LN. rewrite LN. cbn [Nat.sub].
      destruct (nth_error_some_lt _ (sv_rows s) 0 ltac:(lia)) as [x X].
      destruct (nth_error_some_lt _ (sv_rows s) 1 ltac:(lia)) as [y Y].
      destruct (nth_error_some_lt _ (sv_rows s) 2 ltac:(lia)) as [z Z].
      destruct (nth_error_some_lt _ (sv_nev s) 1 ltac:(lia)) as [q QE].
      destruct (nth_error_some_lt _ (sv_nev s) 2 ltac:(lia)) as [p PE].
      exists p. split; auto. cbv zeta.
      destruct (ST 0%nat _ _ x eq_refl X) as [XM XD]. destruct (ST 1%nat _ _ y eq_refl Y) as [YM YD].
      destruct (ST 2%nat _ _ z eq_refl Z) as [ZM ZD].
      rewrite (STEP 1%nat y z q p Y Z QE PE), (HOLD y z (YD UV) (ZD UV)).
      rewrite (STEP 0%nat x y _ q X Y P0' QE), (TURN x y (XD U) (YD UV)) by (rewrite XM, YM; unfold m2; ring).
      rewrite YM, ZM, MT. unfold m2. f_equal. f_equal. ring. }
  destruct LAST as (p & PE & P1). exists p. split; auto. cbv zeta in P1.
  set (f := r * k_dogleg c / (2 * PI - k_dogleg c)) in *.
  assert (DV : vsub p (vadd (k_pos_target c) start) = vscale (- (f + r)) (vadd (vscale (sin (k_dogleg c)) (start_vec a)) (vscale (1 - cos (k_dogleg c)) n))).
  { rewrite P1, TQ, PQ. unfold arc_point. clear. destruct (a_pos1 a), start, (start_vec a), n, (k_vec_target c). unf. apply V3_eq; simpl; ring. }
  assert (SH : 0 < sin (k_dogleg c / 2)) by (apply sin_gt_0; lra).
  assert (NW : norm (vadd (vscale (sin (k_dogleg c)) (start_vec a)) (vscale (1 - cos (k_dogleg c)) n)) = 2 * sin (k_dogleg c / 2)).
  { unfold norm. apply sqrt_lem_1; [apply dot_self_ge0|lra|].
    assert (X : dot (vadd (vscale (sin (k_dogleg c)) (start_vec a)) (vscale (1 - cos (k_dogleg c)) n))
        (vadd (vscale (sin (k_dogleg c)) (start_vec a)) (vscale (1 - cos (k_dogleg c)) n))
      = sin (k_dogleg c) * sin (k_dogleg c) + (1 - cos (k_dogleg c)) * (1 - cos (k_dogleg c))).
    { clear - U N O. unfold is_unit, orthogonal in *. generalize (sin (k_dogleg c)), (1 - cos (k_dogleg c)). intros e g.
      destruct (start_vec a) as [x y z], n as [i j k]. revert U N O. unf. simpl. intros U N O.
      transitivity (e * e * (x * x + y * y + z * z) + g * g * (i * i + j * j + k * k) + 2 * e * g * (x * i + y * j + z * k)); [ring|].
      rewrite U, N, O. ring. }
    rewrite X. clear X.
    replace (cos (k_dogleg c)) with (cos (2 * (k_dogleg c / 2))) by (f_equal; field).
    replace (sin (k_dogleg c)) with (sin (2 * (k_dogleg c / 2))) by (f_equal; field).
    rewrite cos_2a_sin, sin_2a. pose proof (sin2_cos2 (k_dogleg c / 2)) as S2. unfold Rsqr in S2.
    set (ss := sin (k_dogleg c / 2)) in *. set (cc := cos (k_dogleg c / 2)) in *.
    transitivity (4 * (ss * ss) * (ss * ss + cc * cc)); [rewrite S2; ring|ring]. }
  assert (FR : f + r = 2 * PI * r / (2 * PI - k_dogleg c)) by (unfold f; field; lra).
  assert (FP : 0 < f + r).
  { rewrite FR. apply Rdiv_lt_0_compat; [|lra]. nra. }
  assert (DE : dist p (vadd (k_pos_target c) start) = 4 * PI * r * sin (k_dogleg c / 2) / (2 * PI - k_dogleg c)).
  { unfold dist. rewrite DV, norm_vscale, NW, Rabs_Ropp, Rabs_pos_eq by lra. rewrite FR. field. lra. }
  split; auto. rewrite DE.
  set (x := (2 * PI - k_dogleg c) / 2). assert (HX : 0 < x < PI / 2) by (unfold x; lra).
  replace (sin (k_dogleg c / 2)) with (sin x).
  2: { unfold x. replace ((2 * PI - k_dogleg c) / 2) with (PI - k_dogleg c / 2) by field. apply sin_PI_x. }
  pose proof (jordan x HX) as J. replace (2 * PI - k_dogleg c) with (2 * x) by (unfold x; field).
  assert (EQ : 4 * PI * r * sin x / (2 * x) * (2 * x) = 4 * PI * r * sin x) by (field; lra).
  apply (Rmult_lt_reg_r (2 * x)); [lra|]. rewrite EQ. nra.
Qed.

(** ** a survey is drawn when the connection is not shorter than the rounding *)
Lemma draw_some : forall h c step start, (h_unit h = "meters" \/ h_unit h = "feet")%string -> wf_conn c -> pos_step step ->
  1 / 10000 < k_md_target c - k_md1 c -> exists s, draw h [c] step start = Some s.
Proof.
  intros h c step start HU W P L.
  pose proof (section_sorted c step W P) as SR. pose proof (section_head c step W) as HD.
  assert (IB : In (k_md_target c) (map fst (interpolate_section c step))).
  { destruct step as [s|].
    - destruct (section_weak c s (P s eq_refl) W) as (_ & _ & _ & X). apply X. left. apply marks_ends.
    - unfold wf_conn, interpolate_section, interpolate_hold, interpolate_curve, offsets in *.
      destruct (k_method c), (k_md2 c); try (destruct W; fail); try destruct (Req_EM_T (k_dist_curve c) 0); cbn;
      try rewrite (Rabs_pos_eq (k_dist_curve c)) by lra; try lra; repeat (first [left; lra | right]). }
  assert (IA : In (k_md1 c) (map fst (interpolate_section c step))) by (eapply nth_error_In; eauto).
  set (raw := interpolate_section c step) in *.
  assert (RD : exists rows, remove_duplicates (fun row : R * V3 => md_key (fst row)) raw = Some rows).
  { clear - IA IB L. destruct raw as [|x [|y z]]; [destruct IA| |cbn; eauto].
    cbn in IA, IB. destruct IA as [IA|[]], IB as [IB|[]]. lra. }
  destruct RD as (rows & RD).
  destruct (remove_duplicates_spec _ _ _ (sorted_keys raw SR) RD) as (_ & _ & K3).
  assert (LR : (2 <= length rows)%nat).
  { apply in_map_iff in IA. destruct IA as (x & X & IA). apply in_map_iff in IB. destruct IB as (y & Y & IB).
    destruct (K3 x IA) as (x' & IX & EX). destruct (K3 y IB) as (y' & IY & EY).
    destruct rows as [|p [|q l]]; [destruct IX| |cbn; lia]. exfalso.
    destruct IX as [IX|[]], IY as [IY|[]]. subst x' y'.
    assert (K : md_key (fst y) = md_key (fst x)) by congruence. rewrite X, Y in K. unfold md_key in K. apply around_near in K.
    rewrite Rabs_pos_eq in K by lra. simpl in K. lra. }
  unfold draw, from_connections, interpolate_well. cbn [flat_map]. rewrite app_nil_r. fold raw. rewrite RD.
  match goal with |- exists s, option_map _ (Survey h ?g false vzero ?st _) = Some s =>
    destruct (Survey_total h g false vzero st HU) as [s0 HS]; [rewrite !map_length; exact LR|rewrite HS; cbn [option_map]; eauto] end.
Qed.

(** the start heads down and the target lies behind: 40 m off the line and 100 m up *)
Lemma long_example : exists c, connector vzero (plain (mkV 40 0 (-100)) 1) = inl c /\ k_method c = MinDistToTarget /\
  k_pos_target c = mkV 40 0 (-100) /\ radius_design (plain (mkV 40 0 (-100)) 1) = Some 30 /\
  PI < k_dogleg c /\ sin (k_dogleg c) <= - (1 / 10000000000) /\ 1 / 10000 < 30 * k_dogleg c /\ 1 / 10000 < k_tangent c /\
  exists s, draw (grid_header "meters") [c] None vzero = Some s.
Proof.
  pose proof (plain_only (mkV 40 0 (-100)) 1 ltac:(lra)) as P. unfold Rdiv in P. rewrite Rinv_1, Rmult_1_r in P.
  destruct (only_position_method _ _ _ _ P) as (C & SV & RD & Hr & GM).
  destruct (curve_hold_solves vzero _ _ _ _ P down_unit) as (c & H & M & T).
  - apply not_allclose_dir; lra.
  - apply not_allclose_origin; lra.
  - cbn [a_pos1 plain]. rewrite off_down; lra.
  - cbn [a_pos1 plain]. rewrite off_down; lra.
  - cbn [a_pos1 plain a_min_error]. rewrite tcr_down; lra.
  - exists c. split; auto. split; auto. split; auto. split; auto.
    assert (U : is_unit (start_vec (plain (mkV 40 0 (-100)) 1))) by (rewrite SV; apply down_unit).
    assert (OFF : off_axis (a_pos1 (plain (mkV 40 0 (-100)) 1)) (start_vec (plain (mkV 40 0 (-100)) 1)) (k_pos_target c) = 40)
      by (rewrite T, SV; apply off_down; lra).
    destruct (curve_hold_reaches vzero (plain (mkV 40 0 (-100)) 1) c 30 ltac:(cbn [a_min_error plain]; lra) U H M RD ltac:(rewrite OFF; lra)) as (pos2 & P2 & W & Bd & Tn & DC & M2 & MT).
    destruct (half_circle _ _ _ _ _ _ _ _ U Hr Tn Bd W ltac:(rewrite OFF; lra)) as (HC & NP).
    destruct (turn_lateral _ _ _ _ _ _ _ _ U W) as (EO & EA). rewrite OFF in EO.
    assert (AH : ahead (a_pos1 (plain (mkV 40 0 (-100)) 1)) (start_vec (plain (mkV 40 0 (-100)) 1)) (k_pos_target c) = -100).
    { rewrite T, SV. unfold ahead. unf. cbn. ring. }
    rewrite AH in EA, HC. rewrite OFF in HC.
    assert (LT : PI < k_dogleg c).
    { destruct (Rlt_dec PI (k_dogleg c)); auto. exfalso. destruct HC as [HC _]. destruct HC; lra. }
    set (t := k_dogleg c) in *. set (l := k_tangent c) in *. pose proof PI_RGT_0 as PP. pose proof (PI_4) as P4.
    pose proof (sin2_cos2 t) as S2. unfold Rsqr in S2.
    assert (SN0 : sin t < 0) by (apply sin_lt_0; lra).
    assert (L2 : l * l = 9200).
    { assert (X : (30 * sin t + l * cos t) * (30 * sin t + l * cos t) + (30 * (1 - cos t) + l * sin t) * (30 * (1 - cos t) + l * sin t)
        = l * l * (sin t * sin t + cos t * cos t) + 2 * 30 * (30 * ((1 + (sin t * sin t + cos t * cos t)) / 2 - cos t) + l * sin t)) by field.
      rewrite S2, <- EO, <- EA in X. lra. }
    assert (LB : 95 < l < 96) by nra.
    assert (SB : sin t <= - (1 / 10000000000)).
    { destruct (Rle_dec (sin t) (- (1 / 10000000000))); auto. exfalso.
      assert (S3 : sin t * sin t <= 1 / 10000000000) by nra.
      assert (LS : -1 < l * sin t <= 0) by nra.
      destruct (Rle_dec (cos t) 0).
      - assert (cos t <= - (9 / 10)) by nra. lra.
      - assert (9 / 10 <= cos t) by nra. lra. }
    split; auto. split; auto. assert (3 < t) by (pose proof PI2_3_2; unfold PI2 in *; lra).
    split; [lra|]. split; [lra|].
    apply draw_some; auto.
    + eapply connector_wf; eauto.
    + intros s E. discriminate.
    + destruct (connector_start _ _ _ H) as (_ & _ & E3). rewrite E3, MT. lra.
Qed.
