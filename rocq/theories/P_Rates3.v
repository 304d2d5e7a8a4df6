(** Proofs about M_Rates.v: existence of the angles along an arc, rates at
    interior stations, project_to_bit. *)
Require Import Reals ZArith Bool String List Lra Lia Psatz.
Require Import Verif.Base Verif.NumPy Verif.P_Trig Verif.Spec Verif.Spec_Lists Verif.Spec_Rates
  Verif.M_Utils Verif.P_Utils Verif.P_Utils2 Verif.P_Utils3 Verif.M_Survey Verif.P_Survey Verif.P_Survey2 Verif.P_Survey3
  Verif.M_Rates Verif.P_Rates Verif.P_Rates2.
Import ListNotations.
Open Scope R_scope.

Lemma lim_dot : forall D w c x, vderivative D x w ->
  derivable_pt_lim (fun s => dot (D s) c) x (dot w c).
Proof.
  intros D w c x (H1 & H2 & H3).
  assert (K : forall (f : V3 -> R) l k, derivable_pt_lim (fun s => f (D s)) x l ->
     derivable_pt_lim (fun s => f (D s) * k) x (l * k)).
  { intros f l k H. apply (eq_rect (l * k + f (D x) * 0) (derivable_pt_lim (fun s => f (D s) * k) x)); [|ring].
    apply (derivable_pt_lim_mult (fun s => f (D s)) (fun _ => k)); [auto|apply derivable_pt_lim_const]. }
  unfold dot.
  apply (derivable_pt_lim_plus (fun s => vx (D s) * vx c + vy (D s) * vy c) (fun s => vz (D s) * vz c)).
  apply (derivable_pt_lim_plus (fun s => vx (D s) * vx c) (fun s => vy (D s) * vy c)).
  all: apply K; auto.
Qed.

Lemma positive_near : forall f x l, derivable_pt_lim f x l -> 0 < f x ->
  exists eps, 0 < eps /\ forall s, Rabs (s - x) < eps -> 0 < f s.
Proof.
  intros f x l H P.
  assert (C : continuity_pt f x) by (apply derivable_continuous_pt; exists l; auto).
  destruct (C (f x) P) as [alp [Ha HC]]. exists alp. split; auto.
  intros s Hs. destruct (Req_EM_T s x) as [->|N]; auto.
  specialize (HC s). simpl in HC. unfold R_dist in HC.
  assert (K : Rabs (f s - f x) < f x). { apply HC. split; [split; [constructor | auto]|exact Hs]. }
  apply Rabs_def2 in K. lra.
Qed.

Lemma attitude_of_unit : forall a w x y, is_unit w -> 
  x = dot w (mkV (cos a) (sin a) 0) -> y = dot w (right_side a) -> 0 < x ->
  direction_nev (acos (vz w)) (a + atan (y / x)) = w.
Proof.
  intros a [w1 w2 w3] x y U X Y Hx. unfold is_unit, right_side, dot in *; simpl in *.
  pose proof (sin2_cos2' a) as Pa. assert (Sa : sin a * sin a = 1 - cos a * cos a) by lra.
  assert (E1 : x * cos a - y * sin a = w1) by (subst; ring [Sa]).
  assert (E2 : x * sin a + y * cos a = w2) by (subst; ring [Sa]).
  assert (N : x * x + y * y = w1 * w1 + w2 * w2) by (subst; ring [Sa]).
  assert (B : -1 <= w3 <= 1) by nra.
  unfold direction_nev. rewrite sin_acos, cos_acos by lra. unfold Rsqr.
  replace (1 - w3 * w3) with (x * x + y * y) by lra.
  assert (AT : arctan2 y x = atan (y / x)) by (unfold arctan2; destruct (Rlt_dec 0 x); [auto|lra]).
  destruct (arctan2_cos_sin y x) as [C S]. rewrite AT in C, S.
  apply V3_eq; simpl; auto.
  - rewrite cos_plus, Rmult_minus_distr_l, <- E1. rewrite <- (Rmult_assoc _ (cos a)), <- (Rmult_assoc _ (sin a)).
    rewrite (Rmult_comm _ (cos a)), (Rmult_comm _ (sin a)), !Rmult_assoc, C, S. ring.
  - rewrite sin_plus, Rmult_plus_distr_l, <- E2. rewrite <- (Rmult_assoc _ (cos a)), <- (Rmult_assoc _ (sin a)).
    rewrite (Rmult_comm _ (cos a)), (Rmult_comm _ (sin a)), !Rmult_assoc, C, S. ring.
Qed.

Lemma attitude_exists : forall D w i a, (forall s, is_unit (D s)) -> vderivative D 0 w ->
  D 0 = direction_nev i a -> 0 < i < PI ->
  exists incf azif di da, attitude_along D incf azif di da /\ incf 0 = i /\ azif 0 = a.
Proof.
  intros D w i a U W D0 Hi.
  pose proof (sin2_cos2' a) as Pa. assert (Sa : sin a * sin a = 1 - cos a * cos a) by lra.
  assert (Hs : 0 < sin i) by (apply sin_gt_0; lra).
  set (fx := fun s => dot (D s) (mkV (cos a) (sin a) 0)).
  set (fy := fun s => dot (D s) (right_side a)).
  pose proof (lim_dot D w (mkV (cos a) (sin a) 0) 0 W) as LX. fold fx in LX.
  pose proof (lim_dot D w (right_side a) 0 W) as LY. fold fy in LY.
  assert (X0 : fx 0 = sin i) by (unfold fx; rewrite D0; unfold direction_nev, dot; simpl; ring [Sa]).
  assert (Y0 : fy 0 = 0) by (unfold fy; rewrite D0; unfold direction_nev, right_side, dot; simpl; ring).
  destruct (positive_near fx 0 _ LX) as [eps [He P]]; [lra|].
  assert (Z0 : vz (D 0) = cos i) by (rewrite D0; reflexivity).
  assert (Bc : -1 < cos i < 1).
  { pose proof (sin2_cos2' i). nra. }
  assert (LI : derivable_pt (fun s => acos (vz (D s))) 0).
  { destruct W as (_ & _ & W3). rewrite <- Z0 in Bc.
    destruct (derivable_pt_acos _ Bc) as [l Hl].
    eexists. apply (derivable_pt_lim_comp (fun s => vz (D s)) acos); [exact W3 | exact Hl]. }
  assert (LA : derivable_pt (fun s => a + atan (fy s / fx s)) 0).
  { eexists. apply (derivable_pt_lim_plus (fun _ => a) (fun s => atan (fy s / fx s))); [apply derivable_pt_lim_const|].
    apply (derivable_pt_lim_comp (fun s => fy s / fx s) atan); [|apply derivable_pt_lim_atan].
    apply (derivable_pt_lim_div fy fx); eauto. lra. }
  destruct LI as [di LI]. destruct LA as [da LA].
  exists (fun s => acos (vz (D s))), (fun s => a + atan (fy s / fx s)), di, da.
  split; [split; [|split; auto]|].
  - exists eps. split; auto. intros s Hs'. apply attitude_of_unit; auto. apply P. rewrite Rminus_0_r. auto.
  - split. rewrite Z0. apply acos_cos. lra.
    rewrite Y0. unfold Rdiv. rewrite Rmult_0_l, atan_0. ring.
Qed.

Lemma last_rates_exist : forall p u q i a len t n,
  is_unit u -> section_arc p u q (direction_nev i a) len t n -> 0 < i < PI ->
  exists incf azif di da,
    attitude_along (fun s => arc_tangent u n (t + s * (t / len))) incf azif di da /\
    incf 0 = i /\ azif 0 = a.
Proof.
  intros p u q i a len t n Hu (N1 & N2 & Ht & EP & EV) Hi.
  eapply attitude_exists; eauto.
  - intro s. apply arc_tangent_unit; auto.
  - apply lim_arc_tangent.
  - rewrite EV. f_equal. ring.
Qed.

(** ** project_to_bit *)
Lemma bend_is_toolface : forall i a t, bend_direction i a t = toolface_dir i a t.
Proof.
  intros. unfold bend_direction, toolface_dir, high_side, right_side, HLA_to_NEV_vec, get_transform; unf.
  apply V3_eq; simpl; ring.
Qed.

(** projection along an arc that bends toward the toolface direction *)
Lemma project_ahead_exact : forall pos vec d dls tf md, is_unit vec -> 0 < dls ->
  project_ahead pos vec d dls tf md
  = (let '(i, a) := get_angles true vec in
     let r := 30 * 360 / (2 * PI * dls) in
     (arc_point pos vec (toolface_dir i a tf) r (d / r),
      arc_tangent vec (toolface_dir i a tf) (d / r), md + d)).
Proof.
  intros pos vec d dls tf md Hu Hd. unfold project_ahead.
  destruct (Rlt_dec 0 dls); [|lra].
  set (radius := 30 / dls * 360 / (2 * PI)) in *.
  set (dogleg := radians (d / 30 * dls)) in *.
  pose proof (arc_transform_fwd dogleg radius tf pos vec (unit_nonzero _ Hu)) as A.
  unfold arc_transform in A.
  pose proof (get_angles_direction vec (unit_nonzero _ Hu)) as HD.
  destruct (get_angles true vec) as [i a].
  rewrite (vunit_unit _ Hu) in A, HD.
  set (M := mm (rotz a) (mm (roty i) (rotz tf))) in *.
  assert (E : vadd (mv M (arc_local_pos dogleg radius)) pos
              = arc_point pos vec (bend_direction i a tf) radius dogleg) by congruence.
  destruct (rot_axes i a tf) as [Rz Rx]. fold M in Rz, Rx. fold (bend_direction i a tf) in Rx.
  assert (EV : mv M (arc_local_vec dogleg) = arc_tangent vec (bend_direction i a tf) dogleg).
  { unfold arc_local_vec.
    replace (mkV (sin dogleg) 0 (cos dogleg)) with (vadd (vscale (cos dogleg) (mkV 0 0 1)) (vscale (sin dogleg) (mkV 1 0 0)))
      by (unf; apply V3_eq; simpl; ring).
    rewrite mv_vadd, !mv_vscale, Rz, Rx, HD. reflexivity. }
  rewrite E, EV, bend_is_toolface. pose proof PI_RGT_0.
  assert (ER : radius = 30 * 360 / (2 * PI * dls)) by (unfold radius; field; lra).
  assert (ED : dogleg = d / (30 * 360 / (2 * PI * dls))) by (unfold dogleg, radians; field; lra).
  rewrite ER, ED. reflexivity.
Qed.

(** going on along the arc from its end is being further along it *)
Lemma arc_point_further : forall p u n r t s,
  arc_point (arc_point p u n r t) (arc_tangent u n t) (arc_normal u n t) r s = arc_point p u n r (t + s).
Proof.
  intros. unfold arc_point, arc_tangent, arc_normal. rewrite sin_plus, cos_plus.
  destruct p, u, n; unf; apply V3_eq; simpl; ring.
Qed.
Lemma arc_tangent_further : forall u n t s,
  arc_tangent (arc_tangent u n t) (arc_normal u n t) s = arc_tangent u n (t + s).
Proof.
  intros. unfold arc_tangent, arc_normal. rewrite sin_plus, cos_plus.
  destruct u, n; unf; apply V3_eq; simpl; ring.
Qed.

Lemma last_of : forall (A : Type) (l : list A) k x d, nth_error l k = Some x -> length l = S k -> last l d = x.
Proof.
  intros A l k x d H L. assert (N : l <> []) by (intro; subst; discriminate).
  pose proof (last_nth_error _ l d N) as E. rewrite L in E. simpl in E. congruence.
Qed.
Lemma last_cons_of : forall (A : Type) (a : A) l k x, nth_error (a :: l) k = Some x -> length (a :: l) = S k -> last l a = x.
Proof.
  intros A a l k x H L. destruct l as [|b l].
  - simpl in L. injection L as L. subst k. simpl in *. congruence.
  - change (last (b :: l) a) with (last (a :: b :: l) a). eapply last_of; eauto.
Qed.

Lemma dls_list_length : forall x rows, rows <> [] -> length (dls_list x rows) = length rows.
Proof. intros x [|a r] H; [congruence|]. unfold dls_list. cbn [length]. rewrite pairwise_length. reflexivity. Qed.

(** the same axes for the angles recovered from the vector *)
Lemma recovered_axes : forall i a, sin i <> 0 ->
  let '(j, b) := get_angles true (direction_nev i a) in
  exists e, (e = 1 \/ e = -1) /\ forall t, toolface_dir j b t = vscale e (toolface_dir i a t).
Proof.
  intros i a Hi.
  pose proof (get_angles_direction (direction_nev i a) (unit_nonzero _ (direction_unit i a))) as G.
  rewrite (vunit_unit _ (direction_unit i a)) in G.
  destruct (get_angles true (direction_nev i a)) as [j b].
  destruct (same_direction_axes j b i a G Hi) as (e & He & _ & H1 & H2).
  exists e. split; auto. intro t. unfold toolface_dir. rewrite H1, H2.
  destruct (high_side i a), (right_side a); unf; apply V3_eq; simpl; ring.
Qed.

Lemma recovered_axes_pos : forall i a, 0 < i < PI ->
  let '(j, b) := get_angles true (direction_nev i a) in
  forall t, toolface_dir j b t = toolface_dir i a t.
Proof.
  intros i a Hi. assert (Hs : 0 < sin i) by (apply sin_gt_0; lra).
  pose proof (get_angles_direction (direction_nev i a) (unit_nonzero _ (direction_unit i a))) as G.
  pose proof (get_angles_range true (direction_nev i a)) as [B _].
  rewrite (vunit_unit _ (direction_unit i a)) in G.
  destruct (get_angles true (direction_nev i a)) as [j b]. simpl in B.
  destruct (same_direction_axes j b i a G ltac:(lra)) as (e & He & S & H1 & H2).
  assert (0 <= sin j) by (apply sin_ge_0; lra).
  assert (e = 1) by (destruct He; subst e; [auto|lra]). subst e.
  intro t. unfold toolface_dir. rewrite H1, H2, !vscale_1. reflexivity.
Qed.

Lemma get_vec_nev : forall i a, get_vec true 1 i a = direction_nev i a.
Proof. intros. rewrite get_vec_spec by lra. reflexivity. Qed.

Lemma vertical_axes : forall i a t, sin i = 0 -> cos i = 1 ->
  toolface_dir i a t = mkV (cos (a + t)) (sin (a + t)) 0.
Proof.
  intros i a t S C. unfold toolface_dir, high_side, right_side. rewrite S, C, cos_plus, sin_plus.
  unf. apply V3_eq; simpl; ring.
Qed.

(** project_to_bit with the survey's own dls and toolface *)
Lemma bit_default : forall h rows deg sx sn unit s k a b p q t n d,
  Survey h rows deg sx sn unit = Some s ->
  nth_error (sv_rows s) k = Some a -> nth_error (sv_rows s) (S k) = Some b ->
  length (sv_rows s) = S (S k) ->
  nth_error (sv_nev s) k = Some p -> nth_error (sv_nev s) (S k) = Some q ->
  let u := direction_nev (st_inc a) (st_azi a) in
  let v := direction_nev (st_inc b) (st_azi b) in
  let len := st_md b - st_md a in
  section_arc p u q v len t n -> 0 < len -> 0 < st_inc b < PI ->
  let r := (if String.eqb unit "meters" then 1 else 30 / 100) * (len / t) in
  project_to_bit s d None None
  = Some (arc_point q v (arc_normal u n t) r (d / r), arc_tangent v (arc_normal u n t) (d / r), st_md b + d).
Proof.
  intros h rows deg sx sn unit s k a b p q t n d HS A B L P Q u v len SA Hl Hi r.
  pose proof SA as (N1 & N2 & Ht & EP & EV).
  assert (AB : angle_between u v t).
  { split; [lra|]. rewrite EV. unfold arc_tangent.
    rewrite dot_vadd_r, !dot_vscale_r. unfold orthogonal in N2. rewrite N2.
    pose proof (direction_unit (st_inc a) (st_azi a)) as U. fold u in U. unfold is_unit in U. rewrite U. ring. }
  pose proof (Survey_xyz_len _ _ _ _ _ _ _ HS) as [_ LN].
  assert (EX : rate_length (h_unit (sv_header s)) = if String.eqb unit "meters" then 30 else 100).
  { apply Survey_inv in HS. destruct HS as (HU & HH & _). rewrite HH, <- HU. reflexivity. }
  pose proof (dls_next s k a b t A B AB ltac:(unfold len in Hl; lra)) as D. rewrite EX in D. fold len in D.
  destruct (toolfaces_last _ _ _ _ A B L) as [TF [_ TL]].
  destruct (toolface_final _ _ _ _ _ _ _ _ _ _ _ _ _ _ _ HS A B L P Q SA TF) as [_ NE].
  fold u in NE.
  assert (LD : last (cv_dls (survey_curves s)) (Fin 0) = Fin ((if String.eqb unit "meters" then 30 else 100) * (t * (180 / PI)) / len)).
  { eapply last_of; [exact D|]. cbn [survey_curves cv_dls]. rewrite dls_list_length; auto. destruct (sv_rows s); discriminate. }
  assert (LT : last (cv_toolface (survey_curves s)) 0 = toolface_end a b) by exact TL.
  unfold project_to_bit. rewrite LD, LT.
  destruct (sv_rows s) as [|a0 ra] eqn:ER; [destruct k; discriminate|].
  destruct (sv_nev s) as [|p0 rp] eqn:EN; [destruct k; discriminate|].
  rewrite (last_cons_of _ _ _ _ _ B L).
  rewrite (last_cons_of _ _ _ _ _ Q) by congruence.
  pose proof PI_RGT_0.
  assert (Hper : 0 < (if String.eqb unit "meters" then 30 else 100)) by (destruct (String.eqb unit "meters"); lra).
  assert (Hd : 0 < (if String.eqb unit "meters" then 30 else 100) * (t * (180 / PI)) / len).
  { apply Rdiv_lt_0_compat; auto. repeat apply Rmult_lt_0_compat; try lra. apply Rinv_0_lt_compat; lra. }
  rewrite get_vec_nev, project_ahead_exact by (auto using direction_unit).
  pose proof (recovered_axes_pos (st_inc b) (st_azi b) Hi) as RA.
  destruct (get_angles true (direction_nev (st_inc b) (st_azi b))) as [j c].
  cbv zeta. rewrite RA, NE. fold v. f_equal.
  assert (ERR : 30 * 360 / (2 * PI * ((if String.eqb unit "meters" then 30 else 100) * (t * (180 / PI)) / len)) = r).
  { unfold r. destruct (String.eqb unit "meters"); field; repeat split; lra. }
  rewrite ERR. reflexivity.
Qed.

(** in meters the bit is further along the last arc *)
Lemma bit_continues_arc : forall h rows deg sx sn s k a b p q t n d,
  Survey h rows deg sx sn "meters" = Some s ->
  nth_error (sv_rows s) k = Some a -> nth_error (sv_rows s) (S k) = Some b ->
  length (sv_rows s) = S (S k) ->
  nth_error (sv_nev s) k = Some p -> nth_error (sv_nev s) (S k) = Some q ->
  let u := direction_nev (st_inc a) (st_azi a) in
  let v := direction_nev (st_inc b) (st_azi b) in
  let r := (st_md b - st_md a) / t in
  section_arc p u q v (st_md b - st_md a) t n -> st_md a < st_md b -> 0 < st_inc b < PI ->
  project_to_bit s d None None
  = Some (arc_point p u n r (t + d / r), arc_tangent u n (t + d / r), st_md b + d).
Proof.
  intros h rows deg sx sn s k a b p q t n d HS A B L P Q u v r SA Hl Hi.
  rewrite (bit_default _ _ _ _ _ _ _ _ _ _ _ _ _ _ d HS A B L P Q SA ltac:(lra) Hi).
  cbn [String.eqb Ascii.eqb Bool.eqb]. 
  destruct SA as (N1 & N2 & Ht & EP & EV).
  replace (if "meters" =? "meters" then 1 else 30 / 100)%string with 1 by reflexivity.
  rewrite Rmult_1_l. fold r. fold r in EP. fold u v. fold u in EP, EV. fold v in EV.
  do 2 f_equal. f_equal.
  - rewrite <- arc_point_further, <- EP, <- EV. reflexivity.
  - rewrite <- arc_tangent_further, <- EV. reflexivity.
Qed.
