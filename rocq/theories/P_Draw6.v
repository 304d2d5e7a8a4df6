(** project_to_target and set_vertical_section. *)
Require Import Reals ZArith Bool String List Lra Lia Psatz Sorted.
Require Import Verif.Base Verif.NumPy Verif.P_Trig Verif.Spec Verif.Spec_Lists Verif.M_Utils
  Verif.P_Utils Verif.P_Utils2 Verif.P_Utils3 Verif.M_Connector Verif.Spec_Connector Verif.Spec_Connector2
  Verif.P_Connector Verif.P_Connector2 Verif.P_Connector3 Verif.P_Connector4 Verif.P_Connector5 Verif.P_Connector6 Verif.P_Connector7 Verif.P_Connector8
  Verif.M_Survey Verif.P_Survey Verif.P_Survey2
  Verif.P_Survey3 Verif.P_Survey4 Verif.M_Rates Verif.M_Draw Verif.Spec_Draw
  Verif.P_Refine Verif.P_Draw Verif.P_Draw2 Verif.P_Draw3 Verif.P_Draw4 Verif.P_Draw5.
Import ListNotations.
Open Scope R_scope.

Lemma gvec : forall i a, get_vec true 1 i a = direction_nev i a.
Proof. intros. rewrite get_vec_spec by lra. reflexivity. Qed.
Lemma last_snoc' : forall A (l : list A) x d, last (l ++ [x]) d = x.
Proof. intros. apply last_last. Qed.
Lemma snoc_cons : forall A (pre : list A) x, exists a r, pre ++ [x] = a :: r /\ last r a = x.
Proof.
  intros A pre x. destruct pre as [|b pre]; [exists x, []; auto|]. exists b, (pre ++ [x]). split; auto. apply last_last.
Qed.

(** the connection to the bit *)
Lemma to_bit_vec : forall bump p u m m2 v d c, is_unit u -> is_unit v -> connector bump (to_bit p u m m2 v d) = inl c ->
  is_unit (k_vec_target c).
Proof.
  intros bump p u m m2 v d c U V H.
  assert (TV : is_unit (target_vec (to_bit p u m m2 v d))).
  { unfold target_vec. destruct (v3_eq_dec _ _) as [E|E].
    - unfold mod_vec. apply vunit_is_unit. cbn [target_vec0 to_bit a_vec2 a_min_error]. intro Z. unfold is_unit in V. destruct v as [x y w].
      unfold vzero in Z. injection Z as Z1 Z2 Z3. cbn in Z1, Z2, Z3. subst x y. revert V. unf. simpl. intro V. assert (w = 0) by nra. nra.
    - exact V. }
  destruct (connector_cases _ _ _ H) as (C & [D|[D|(q & Q & D)]]).
  - rewrite (proj1 (hold_position bump (to_bit p u m m2 v d) c U H (hold_method _ _ D))). exact U.
  - unfold do_min_curve in D. cbv zeta in D. destruct (start_angles _) as [i1 z1], (target_angles' _) as [i2 z2].
    destruct (a_md2 _) as [md|].
    + destruct (orb _ _).
      * destruct (rmin_inf _ _); [|discriminate]. destruct (get_curve_hold_data _ _). injection D as <-. auto.
      * destruct (Req_EM_T _ _); [discriminate|]. destruct (get_curve_hold_data _ _). injection D as <-. auto.
    + destruct (radius_design _); [|discriminate]. destruct (get_curve_hold_data _ _). injection D as <-. auto.
  - discriminate.
Qed.

(** what a projection is made of *)
Lemma project_inv : forall bump s pre st pp p tgt d delta dls tf step cs z,
  sv_rows s = pre ++ [st] -> sv_pos_nev s = pp ++ [p] ->
  project_to_target bump s tgt d delta dls tf step = PjOk cs z ->
  let u := direction_nev (st_inc st) (st_azi st) in
  draw (sv_header s) cs step vzero = Some z /\
  ((delta = None /\ exists c, cs = [c] /\ connector (bump 1%nat) (to_target p u (st_md st) tgt) = inl c) \/
   (exists l sev t q v w c1 c2, delta = Some l /\ (forall x, dls = Some x -> sev = x) /\ (forall x, tf = Some x -> t = x) /\
      cs = [c1; c2] /\ project_ahead p u l sev t (st_md st) = (q, v, st_md st + l) /\ normalised v = Some w /\
      connector (bump 0%nat) (to_bit p u (st_md st) (st_md st + l) w d) = inl c1 /\
      exists x, normalised (k_vec_target c1) = Some x /\
      connector (bump 1%nat) (to_target (k_pos_target c1) x (k_md_target c1) tgt) = inl c2)).
Proof.
  intros bump s pre st pp p tgt d delta dls tf step cs z RS PS H u.
  destruct (snoc_cons _ pre st) as (a & ra & EA & LA). destruct (snoc_cons _ pp p) as (b & rb & EB & LB).
  unfold project_to_target in H. rewrite RS, EA, PS, EB, LA, LB, gvec in H. cbv zeta in H. fold u in H.
  assert (U : is_unit u) by apply direction_unit.
  rewrite (normalised_unit u U) in H.
  destruct delta as [l|].
  - set (sev := match dls with Some x => Some x | None => _ end) in H. destruct sev as [sv|] eqn:SE; [|discriminate].
    set (t := match tf with Some x => x | None => _ end) in H.
    destruct (project_ahead p u l sv t (st_md st)) as [[q v] m2] eqn:PA.
    assert (M2 : m2 = st_md st + l).
    { unfold project_ahead in PA. destruct (Rlt_dec 0 sv); [destruct (get_angles true u)|]; congruence. }
    subst m2. unfold bit_node in H. destruct (normalised v) as [w|] eqn:NV; [|discriminate].
    destruct (connector (bump 0%nat) (to_bit p u (st_md st) (st_md st + l) w d)) as [c1|e] eqn:C1; [|discriminate].
    destruct (normalised (k_vec_target c1)) as [x|] eqn:NX; [|discriminate].
    destruct (connector (bump 1%nat) (to_target (k_pos_target c1) x (k_md_target c1) tgt)) as [c2|e] eqn:C2; [|discriminate].
    cbn [app] in H. destruct (draw (sv_header s) [c1; c2] step vzero) as [z'|] eqn:D; [|discriminate].
    assert (cs = [c1; c2]) by congruence. assert (z = z') by congruence. subst cs z. split; auto. right.
    exists l, sv, t, q, v, w, c1, c2. split; auto. split; [|split; [|eauto 10]].
    + intros y Y. unfold sev in SE. rewrite Y in SE. congruence.
    + intros y Y. unfold t. rewrite Y. auto.
  - unfold bit_node in H.
    destruct (connector (bump 1%nat) (to_target p u (st_md st) tgt)) as [c2|e] eqn:C2; [|discriminate].
    cbn [app] in H. destruct (draw (sv_header s) [c2] step vzero) as [z'|] eqn:D; [|discriminate].
    assert (cs = [c2]) by congruence. assert (z = z') by congruence. subst cs z. split; auto. left. eauto.
Qed.

(** C119: neither the design curvature nor the curvature and toolface to the bit
    have an effect without a distance to the bit *)
Lemma project_no_effect : forall bump s tgt d d' dls dls' tf tf' step,
  project_to_target bump s tgt d None dls tf step = project_to_target bump s tgt d' None dls' tf' step.
Proof. intros. reflexivity. Qed.
(** the last leg turns at 3 degrees per 30 m *)
Lemma project_rate : forall bump s tgt d delta dls tf step cs z, sv_rows s <> [] -> sv_pos_nev s <> [] ->
  project_to_target bump s tgt d delta dls tf step = PjOk cs z ->
  exists before c, cs = before ++ [c] /\ (k_method c = MinDistToTarget -> k_dist_curve c = 30 / (3 * (PI / 180)) * k_dogleg c).
Proof.
  intros bump s tgt d delta dls tf step cs z RN PN H.
  destruct (exists_last RN) as (pre & st & RS). destruct (exists_last PN) as (pp & p & PS).
  assert (K : forall b p u m c, connector b (to_target p u m tgt) = inl c -> k_method c = MinDistToTarget ->
     k_dist_curve c = 30 / (3 * (PI / 180)) * k_dogleg c).
  { intros b p0 u m c C M. destruct (connector_cases _ _ _ C) as (_ & [D|[D|(q & Q & D)]]).
    - rewrite (hold_method _ _ D) in M. discriminate.
    - apply min_curve_method in D. congruence.
    - unfold do_curve_hold in D. destruct (get_distances _ _ _ _) as [q' ds].
      cbn [radius_design to_target a_dls a_meters] in D. destruct (Rle_dec _ _).
      + unfold do_min_dist in D. destruct (min_dist_to_target _ ds) as [[t dl]|]; [|discriminate].
        cbv zeta in D. unfold get_curve_hold_data in D. destruct (get_vec_target _ _ _ _ _ _); [|discriminate].
        injection D as <-. reflexivity.
      + exfalso. unfold do_min_curve_to_target in D. destruct (min_curve_to_target ds) as [[t rr] dl].
        cbv zeta in D. destruct (rmin_inf _ _); [|discriminate]. destruct (get_curve_hold_data _ _).
        destruct (get_vec_target _ _ _ _ _ _); [|discriminate]. injection D as <-. discriminate. }
  destruct (project_inv _ _ _ _ _ _ _ _ _ _ _ _ _ _ RS PS H) as (_ & [(_ & c & -> & C)|(l & sev & t & q & v & w & c1 & c2 & _ & _ & _ & -> & _ & _ & _ & x & _ & C)]).
  - exists [], c. split; auto. intro M. eapply K; eauto.
  - exists [c1], c2. split; auto. intro M. eapply K; eauto.
Qed.
(** the connections start at the last station and follow one another *)
Lemma ahead_unit : forall p u l sev t m q v x, is_unit u -> project_ahead p u l sev t m = (q, v, x) -> is_unit v.
Proof.
  intros p u l sev t m q v x U PA. destruct (Rlt_dec 0 sev).
  - apply (project_ahead_arc p u l sev t m q v x); auto.
  - unfold project_ahead in PA. destruct (Rlt_dec 0 sev); [lra|]. congruence.
Qed.
Lemma project_chain : forall bump s pre st pp p tgt d delta dls tf step cs z,
  sv_rows s = pre ++ [st] -> sv_pos_nev s = pp ++ [p] ->
  project_to_target bump s tgt d delta dls tf step = PjOk cs z ->
  draw (sv_header s) cs step vzero = Some z /\ joined cs /\
  exists c rest, cs = c :: rest /\ k_pos1 c = p /\ k_vec1 c = direction_nev (st_inc st) (st_azi st) /\ k_md1 c = st_md st.
Proof.
  intros bump s pre st pp p tgt d delta dls tf step cs z RS PS H.
  assert (U : is_unit (direction_nev (st_inc st) (st_azi st))) by apply direction_unit.
  destruct (project_inv _ _ _ _ _ _ _ _ _ _ _ _ _ _ RS PS H) as (D & [(_ & c & -> & C)|(l & sev & t & q & v & w & c1 & c2 & _ & _ & _ & -> & PA & NV & C1 & x & NX & C)]).
  - split; auto. split.
    + intros a b (pr & po & E). destruct pr as [|? [|? ?]]; discriminate.
    + exists c, []. split; auto. apply connector_start in C. auto.
  - pose proof (ahead_unit _ _ _ _ _ _ _ _ _ U PA) as V. rewrite (normalised_unit v V) in NV. injection NV as <-.
    pose proof (to_bit_vec _ _ _ _ _ _ _ _ U V C1) as X. rewrite (normalised_unit _ X) in NX. injection NX as <-.
    split; auto. split.
    + intros a b (pr & po & E). destruct pr as [|? pr].
      * injection E as <- <- _. apply connector_start in C. auto.
      * destruct pr as [|? [|? ?]]; discriminate.
    + exists c1, [c2]. split; auto. apply connector_start in C1. auto.
Qed.
(** one leg to a position: the projected survey ends there *)
Lemma project_reaches : forall bump s pre st pp p tgt q d dls tf step c z,
  sv_rows s = pre ++ [st] -> sv_pos_nev s = pp ++ [p] -> h_ref (sv_header s) = RefGrid ->
  pos_step step -> n_pos_nev tgt = Some q -> q <> p -> direction_nev (st_inc st) (st_azi st) <> vunit (vsub q p) ->
  project_to_target bump s tgt d None dls tf step = PjOk [c] z -> sound c -> far_apart step [c] ->
  exists rest first last, sv_rows z = first :: rest /\ nth_error (sv_rows z) (length rest) = Some last /\
    st_md first = st_md st /\ direction_nev (st_inc first) (st_azi first) = direction_nev (st_inc st) (st_azi st) /\
    st_md last = k_md_target c /\ direction_nev (st_inc last) (st_azi last) = k_vec_target c /\
    nth_error (sv_nev z) 0 = Some p /\ nth_error (sv_nev z) (length rest) = Some q.
Proof.
  intros bump s pre st pp p tgt q d dls tf step c z RS PS HR P TQ NQ ND H S F.
  destruct (project_chain _ _ _ _ _ _ _ _ _ _ _ _ _ _ RS PS H) as (D & J & c' & rest & E & E1 & E2 & E3).
  injection E as <- <-.
  destruct (project_inv _ _ _ _ _ _ _ _ _ _ _ _ _ _ RS PS H) as (_ & [(_ & c' & E & C)|(l & sev & t & q' & v & w & c1 & c2 & DM & _)]); [|discriminate].
  injection E as <-.
  assert (QE : k_pos_target c = q).
  { apply (target_kept (bump 1%nat) (to_target p (direction_nev (st_inc st) (st_azi st)) (st_md st) tgt) c q); auto. apply direction_unit. }
  assert (HU : (h_unit (sv_header s) = "meters" \/ h_unit (sv_header s) = "feet")%string).
  { unfold draw in D. destruct (from_connections [c] step); [|discriminate].
    match type of D with context [Survey ?a ?b ?c ?e ?f ?g] => destruct (Survey a b c e f g) as [s0|] eqn:HS end; [|discriminate].
    destruct (Survey_inv _ _ _ _ _ _ _ HS) as (_ & _ & _ & _ & X & _). exact X. }
  destruct (drawn_survey (sv_header s) [] c step vzero HU P J) as (z' & D' & HH & LN & LI & SI & DX & ROW); auto.
  { intros k [<-|[]]. auto. }
  assert (z' = z) by congruence. subst z'.
  assert (INC : forall x, In x (map st_md (sv_rows z)) -> k_md1 c <= x <= k_md_target c).
  { intros x I. apply DX in I. pose proof (sound_lt c S) as L. destruct I as [(k & Ik & I)|[(k & Ik & I)|(st0 & a & b & _ & Ia & Ib & I & _)]].
    - destruct Ik as [<-|[]]. lra.
    - destruct Ik as [<-|[]]. apply marks_range; auto. apply marks_in; auto.
    - destruct Ia as [<-|[]], Ib as [<-|[]]. lra. }
  assert (IA : In (k_md1 c) (map st_md (sv_rows z))) by (apply DX; left; exists c; split; [left|left]; auto).
  assert (IB : In (k_md_target c) (map st_md (sv_rows z))) by (apply DX; left; exists c; split; [left|right]; auto).
  destruct (sv_rows z) as [|first rest] eqn:RZ; [destruct IA|].
  destruct (nth_error_some_lt _ (first :: rest) (length rest) ltac:(cbn; lia)) as [lst LST].
  exists rest, first, lst. split; auto. split; auto.
  assert (MF : st_md first = k_md1 c).
  { apply In_nth_error in IA. destruct IA as [[|i] I].
    - cbn in I. congruence.
    - pose proof (si_lt _ 0 (Datatypes.S i) (st_md first) (k_md1 c) SI eq_refl I ltac:(lia)).
      destruct (INC (st_md first)) as [? _]; [left; auto|]. lra. }
  assert (ML : st_md lst = k_md_target c).
  { apply In_nth_error in IB. destruct IB as [i I].
    assert (LE : (i < length (map st_md (first :: rest)))%nat) by (apply nth_error_Some; congruence).
    rewrite map_length in LE. cbn in LE.
    assert (X : nth_error (map st_md (first :: rest)) (length rest) = Some (st_md lst)) by (rewrite nth_error_map, LST; auto).
    destruct (Nat.eq_dec i (length rest)) as [->|NI]; [congruence|].
    pose proof (si_lt _ i (length rest) _ _ SI I X ltac:(lia)).
    destruct (INC (st_md lst)) as [_ ?]; [apply nth_error_In in X; auto|]. lra. }
  destruct (nth_error_some_lt _ (sv_nev z) 0 ltac:(cbn in LN; lia)) as [p0 P0].
  destruct (nth_error_some_lt _ (sv_nev z) (length rest) ltac:(cbn in LN; lia)) as [p1 P1].
  destruct (nth_error_some_lt _ (sv_interpolated z) 0 ltac:(cbn in LI; lia)) as [f0 F0].
  destruct (nth_error_some_lt _ (sv_interpolated z) (length rest) ltac:(cbn in LI; lia)) as [f1 F1].
  destruct (ROW 0%nat first p0 f0 eq_refl P0 F0) as (_ & k & qa & da & [<-|[]] & ONA & DA & PA).
  destruct (ROW (length rest) lst p1 f1 LST P1 F1) as (_ & k & qb & db & [<-|[]] & ONB & DB & PB).
  assert (TG : to_grid (sv_header s) = 0) by (unfold to_grid; rewrite HR; auto).
  rewrite TG, turned_0 in DA, DB, PA, PB. rewrite MF in ONA. rewrite ML in ONB.
  destruct (on_unique c _ _ _ _ _ S ONA (on_start c S)) as [-> ->].
  destruct (on_unique c _ _ _ _ _ S ONB (on_end c S)) as [-> ->].
  rewrite MF, ML, DA, DB, P0, P1, PA, PB. repeat split; auto; f_equal.
  - rewrite E1. destruct p. unf. apply V3_eq; simpl; ring.
  - rewrite QE. destruct (k_pos1 c), q. unf. apply V3_eq; simpl; ring.
Qed.
(** the connection to the bit and the projection to the bit *)
Lemma sin_gt_cos : forall t, 0 < t < PI -> t * cos t < sin t.
Proof.
  intros t Ht. destruct (MVT_cor2 sin cos 0 t ltac:(lra) (fun c _ => derivable_pt_lim_sin c)) as (c & D & B).
  rewrite sin_0 in D. assert (cos t < cos c) by (apply cos_decreasing_1; lra). nra.
Qed.
Lemma project_bit : forall bump s pre st pp p tgt d l sev tf step cs z,
  sv_rows s = pre ++ [st] -> sv_pos_nev s = pp ++ [p] -> 0 < l -> 0 < sev -> radians (l / 30 * sev) < PI ->
  project_to_target bump s tgt d (Some l) (Some sev) (Some tf) step = PjOk cs z ->
  exists c1 c2 q v, cs = [c1; c2] /\
    project_ahead p (direction_nev (st_inc st) (st_azi st)) l sev tf (st_md st) = (q, v, st_md st + l) /\
    k_md_target c1 = st_md st + l /\ k_vec_target c1 = v /\ (k_pos_target c1 = q <-> d <= sev).
Proof.
  intros bump s pre st pp p tgt d l sev tf step cs z RS PS Hl Hs HT H.
  assert (U : is_unit (direction_nev (st_inc st) (st_azi st))) by apply direction_unit.
  destruct (project_inv _ _ _ _ _ _ _ _ _ _ _ _ _ _ RS PS H) as (_ & [(DM & _)|(l' & sev' & t' & q & v & w & c1 & c2 & DM & DS & DT & -> & PA & NV & C1 & x & NX & C)]); [discriminate|].
  injection DM as <-. rewrite (DS sev eq_refl), (DT tf eq_refl) in PA. clear DS DT sev' t'.
  pose proof (ahead_unit _ _ _ _ _ _ _ _ _ U PA) as V. rewrite (normalised_unit v V) in NV. injection NV as <-.
  exists c1, c2, q, v. split; auto. split; auto.
  destruct (project_ahead_arc _ _ _ _ _ _ _ _ _ U Hs PA) as (ARC & _ & _).
  set (u := direction_nev (st_inc st) (st_azi st)) in *. set (t := radians (l / 30 * sev)) in *.
  pose proof PI_RGT_0 as PP.
  assert (T0 : 0 < t).
  { unfold t, radians. apply Rmult_lt_0_compat; [|lra]. apply Rmult_lt_0_compat; lra. }
  destruct ARC as (n & rc & N & O & RL & QE & VE).
  assert (AB : angle_between u v t).
  { split; [lra|]. rewrite VE. replace u with (arc_tangent u n 0) at 1
      by (unfold arc_tangent; rewrite sin_0, cos_0; destruct u, n; unf; apply V3_eq; simpl; ring).
    rewrite arc_dot by auto. f_equal. ring. }
  set (a := to_bit p u (st_md st) (st_md st + l) v d) in *.
  assert (NO : v <> vneg u).
  { intro E. assert (X : cos t = -1). { rewrite (proj2 AB), E. unfold is_unit in U. destruct u. revert U. unf. simpl. intro. lra. }
    rewrite <- cos_PI in X. apply cos_inj_0_PI in X; lra. }
  assert (TV : target_vec a = v).
  { unfold target_vec. destruct (v3_eq_dec (target_vec0 a) (vneg (start_vec a))) as [E|E]; [exfalso; apply NO; exact E|reflexivity]. }
  destruct (connector_cases _ _ _ C1) as (CA & _).
  assert (M : k_method c1 = MinCurve).
  { destruct (connector_cases _ _ _ C1) as (_ & [D|[D|(q' & Q & D)]]); [|apply min_curve_method in D; auto|discriminate].
    exfalso. destruct (method_cases a CA U) as [(ST & _ & _)|(_ & E)].
    - destruct ST as [ST _]. rewrite TV in ST. change (start_vec a) with u in ST.
      assert (X : cos t = 1) by (rewrite (proj2 AB), ST; exact U). rewrite <- cos_0 in X. apply cos_inj_0_PI in X; lra.
    - unfold connector in C1. rewrite CA, E in C1. cbn -[do_min_curve] in C1. apply min_curve_method in C1.
      apply hold_method in D. congruence. }
  destruct (min_curve_parts _ a c1 t U ltac:(rewrite TV; exact V) C1 M ltac:(rewrite TV; exact AB) ltac:(lra))
    as (r & len & R0 & L0 & DL & VT & DC & PT & MT & _ & _ & _ & _ & RM).
  rewrite TV in VT, PT. cbn [a a_md1 a_pos1 to_bit] in MT, PT. change (start_vec a) with u in PT.
  assert (LEN : k_md_target c1 = st_md st + l).
  { destruct (min_curve_connection _ a c1 t U ltac:(rewrite TV; exact V) C1 M ltac:(rewrite TV; exact AB) ltac:(lra))
      as (? & ? & ? & _ & _ & _ & _ & _ & _ & _ & X & _). apply X. reflexivity. }
  split; auto. split; auto.
  assert (DP : 0 < radians d).
  { pose proof (proj1 (acceptance a) CA) as ACC. cbn [a to_bit a_dls] in ACC.
    destruct ACC as (_ & _ & _ & _ & _ & ACC). destruct ACC as (ACC & _). apply ACC. reflexivity. }
  assert (RR : r = Rmin (30 / radians d) (l / t)).
  { rewrite (RM (st_md st + l) (30 / radians d) eq_refl eq_refl). cbn [a a_md1 to_bit]. f_equal. f_equal. ring. }
  assert (RC : rc = l / t) by (apply (Rmult_eq_reg_r t); [|lra]; rewrite <- RL; field; lra).
  assert (PG : get_pos p u v (r * t) (get_rf t) = arc_point p u n r t).
  { change (get_pos p u v (r * t) (get_rf t)) with (vadd p (mc_disp (r * t) t u v)). rewrite VE, mc_disp_radial by (auto; lra).
    unfold arc_point. destruct p, u, n. unf. apply V3_eq; simpl; ring. }
  rewrite PG in PT. rewrite PT, QE, VE.
  assert (LE : len = (rc - r) * t) by nra.
  assert (CMP : rc <= 30 / radians d <-> d <= sev).
  { assert (X : rc = 30 / radians sev).
    { rewrite RC. unfold t, radians. field. repeat split; lra. }
    assert (SP : 0 < radians sev) by (unfold radians; nra).
    assert (Y1 : 30 / radians sev * radians sev = 30) by (field; lra).
    assert (Y2 : 30 / radians d * radians d = 30) by (field; lra).
    rewrite X. clear X. unfold radians in *. set (k := PI / 180) in *. assert (0 < k) by (unfold k; lra).
    set (A := 30 / (sev * k)) in *. set (B := 30 / (d * k)) in *. clearbody A B k.
    assert (0 < d) by nra. assert (0 < A) by nra. assert (0 < B) by nra.
    assert (EQ : A * sev = B * d) by (apply (Rmult_eq_reg_r k); nra). split; intro; nra. }
  rewrite <- CMP. split.
  - intro E. destruct (Rle_dec rc (30 / radians d)) as [|NL]; auto. exfalso.
    assert (R1 : r = 30 / radians d) by (rewrite RR, <- RC; apply Rmin_left; lra).
    assert (X : dot u (vsub (vadd (arc_point p u n r t) (vscale len (arc_tangent u n t))) p) = dot u (vsub (arc_point p u n rc t) p)) by (rewrite E; auto).
    assert (G : forall e g, dot u (vsub (vadd (arc_point p u n e t) (vscale g (arc_tangent u n t))) p) = e * sin t + g * cos t).
    { intros e g. clear - U O. unfold arc_point, arc_tangent, is_unit, orthogonal in *. destruct u as [x y z], n as [i j k], p.
      revert U O. unf. simpl. intros U O.
      transitivity ((e * sin t + g * cos t) * (x * x + y * y + z * z) + (e * (1 - cos t) + g * sin t) * (x * i + y * j + z * k)); [ring|].
      rewrite U, O. ring. }
    rewrite G in X. specialize (G rc 0). rewrite vscale_0, vadd_0_r in G. rewrite G in X.
    pose proof (sin_gt_cos t ltac:(lra)) as SC. nra.
  - intro LL. assert (R1 : r = rc) by (rewrite RR, <- RC; apply Rmin_right; lra).
    assert (L00 : len = 0) by nra. rewrite L00, R1, vscale_0, vadd_0_r. reflexivity.
Qed.
