(** Proofs about M_Rates.v: interior stations, projection of straight and
    vertical ends, normals, radius vectors and circle centres. *)
Require Import Reals ZArith Bool String List Lra Lia Psatz.
Require Import Verif.Base Verif.NumPy Verif.P_Trig Verif.Spec Verif.Spec_Lists Verif.Spec_Rates
  Verif.M_Utils Verif.P_Utils Verif.P_Utils2 Verif.P_Utils3 Verif.M_Survey Verif.P_Survey Verif.P_Survey2 Verif.P_Survey3
  Verif.M_Rates Verif.P_Rates Verif.P_Rates2 Verif.P_Rates3.
Import ListNotations.
Open Scope R_scope.

Lemma section_angle : forall p i a q v len t n, section_arc p (direction_nev i a) q v len t n ->
  angle_between (direction_nev i a) v t.
Proof.
  intros p i a q v len t n (N1 & N2 & Ht & EP & EV). split; [lra|]. rewrite EV. unfold arc_tangent.
  rewrite dot_vadd_r, !dot_vscale_r. unfold orthogonal in N2. rewrite N2.
  pose proof (direction_unit i a) as U. unfold is_unit in U. rewrite U. ring.
Qed.

(** rates of an arc that starts bending at toolface [tf] *)
Lemma start_rates : forall i a tf k incf azif di da, sin i <> 0 ->
  attitude_along (fun s => arc_tangent (direction_nev i a) (toolface_dir i a tf) (s * k)) incf azif di da ->
  Rabs di = Rabs (k * cos tf) /\ Rabs da = Rabs (k * sin tf / sin i).
Proof.
  intros i a tf k incf azif di da Hi AT.
  set (u := direction_nev i a) in *. set (n := toolface_dir i a tf) in *.
  assert (L : vderivative (fun s => arc_tangent u n (s * k)) 0 (vscale k n)).
  { pose proof (lim_arc_tangent u n 0 k) as (L1 & L2 & L3).
    assert (E : vscale k (arc_normal u n 0) = vscale k n).
    { unfold arc_normal. rewrite cos_0, sin_0. destruct u, n; unf; apply V3_eq; simpl; ring. }
    rewrite E in L1, L2, L3.
    split; [|split]; eapply derivable_pt_lim_ext; try eassumption; intro z; simpl; rewrite Rplus_0_l; reflexivity. }
  pose proof (attitude_rates _ _ _ _ _ _ AT L) as W.
  destruct AT as ((eps & He & E) & LI & LA).
  assert (E0 : direction_nev (incf 0) (azif 0) = direction_nev i a).
  { rewrite E by (rewrite Rabs_R0; auto). fold u. unfold arc_tangent. rewrite Rmult_0_l, cos_0, sin_0.
    destruct u, n; unf; apply V3_eq; simpl; ring. }
  destruct (same_direction_axes _ _ _ _ E0 Hi) as (e & He1 & SI & HH & RR).
  rewrite HH, RR, SI in W. unfold n, toolface_dir in W.
  rewrite vscale_vadd, !vscale_vscale in W. apply axes_independent in W. destruct W as [W1 W2].
  assert (Ea : Rabs e = 1) by (destruct He1; subst e; [apply Rabs_R1 | rewrite Rabs_left; lra]).
  assert (Ee : e * e = 1) by (destruct He1; subst e; ring).
  split.
  - rewrite W1, Rabs_mult, Ea. ring.
  - rewrite W2. replace (da * (e * sin i) * e / sin i) with ((e * e) * da) by (field; auto).
    rewrite Ee, Rmult_1_l. auto.
Qed.

(** the rates reported at a station that has a section after it *)
Lemma interior_rates : forall h rows deg sx sn unit s k a b p q t n d incf azif di da,
  Survey h rows deg sx sn unit = Some s ->
  nth_error (sv_rows s) k = Some a -> nth_error (sv_rows s) (S k) = Some b ->
  nth_error (sv_nev s) k = Some p -> nth_error (sv_nev s) (S k) = Some q ->
  let u := direction_nev (st_inc a) (st_azi a) in
  let v := direction_nev (st_inc b) (st_azi b) in
  let r := (st_md b - st_md a) / t in
  section_arc p u q v (st_md b - st_md a) t n -> st_md a < st_md b -> sin (st_inc a) <> 0 ->
  attitude_along (fun s => arc_tangent u n (s / r)) incf azif di da ->
  nth_error (cv_dls (survey_curves s)) k = Some (Fin d) ->
  nth_error (cv_build_rate (survey_curves s)) k = Some (Fin (Rabs d * (r * Rabs di))) /\
  nth_error (cv_turn_rate (survey_curves s)) k = Some (Fin (Rabs d * (r * Rabs da))).
Proof.
  intros h rows deg sx sn unit s k a b p q t n d incf azif di da HS A B P Q u v r SA Hl Hi AT D.
  pose proof (section_angle _ _ _ _ _ _ _ _ SA) as AB.
  pose proof SA as (N1 & N2 & Ht & EP & EV).
  assert (TF : nth_error (cv_toolface (survey_curves s)) k = Some (toolface_start a b)) by (apply toolfaces_nth; auto).
  destruct (toolface_first _ _ _ _ _ _ _ _ _ _ _ _ _ _ HS A B P Q AB Ht TF) as [_ (_ & _ & _ & _ & EV')].
  set (tf := toolface_start a b) in *.
  assert (EN : n = toolface_dir (st_inc a) (st_azi a) tf).
  { rewrite (normal_unique _ _ _ _ Ht EV). symmetry. apply normal_unique; auto. }
  assert (Hr : 0 < r) by (unfold r; apply Rdiv_lt_0_compat; lra).
  destruct (start_rates (st_inc a) (st_azi a) tf (/ r) incf azif di da Hi) as [R1 R2].
  { rewrite EN in AT. exact AT. }
  destruct (rates_everywhere s k a d tf A D TF) as [RB [RT _]].
  rewrite RB, RT by auto.
  assert (K : forall z y, Rabs y = Rabs (/ r * z) -> Rabs z = r * Rabs y).
  { intros z y Hz. rewrite Hz. rewrite <- (Rabs_right r) at 1 by lra. rewrite <- Rabs_mult. f_equal. field. lra. }
  split; do 2 f_equal.
  - rewrite Rabs_mult. f_equal. apply K, R1.
  - unfold Rdiv. rewrite Rmult_assoc, Rabs_mult. f_equal. apply K. rewrite R2. f_equal. field. lra.
Qed.

(** so they are the next section's rates only when the two sections have the
    same severity *)
Lemma interior_rates_iff : forall h rows deg sx sn unit s k a b c p q t n d t' incf azif di da,
  Survey h rows deg sx sn unit = Some s ->
  nth_error (sv_rows s) k = Some c -> nth_error (sv_rows s) (S k) = Some a -> nth_error (sv_rows s) (S (S k)) = Some b ->
  nth_error (sv_nev s) (S k) = Some p -> nth_error (sv_nev s) (S (S k)) = Some q ->
  let u := direction_nev (st_inc a) (st_azi a) in
  let v := direction_nev (st_inc b) (st_azi b) in
  let r := (st_md b - st_md a) / t in
  section_arc p u q v (st_md b - st_md a) t n -> st_md c < st_md a < st_md b -> sin (st_inc a) <> 0 ->
  angle_between (direction_nev (st_inc c) (st_azi c)) u t' ->
  attitude_along (fun s => arc_tangent u n (s / r)) incf azif di da ->
  di <> 0 ->
  let per := if String.eqb unit "meters" then 30 else 100 in
  nth_error (cv_build_rate (survey_curves s)) (S k) = Some (Fin d) ->
  (d = per * Rabs (degrees di) <-> t' / (st_md a - st_md c) = t / (st_md b - st_md a)).
Proof.
  intros h rows deg sx sn unit s k a b c p q t n d t' incf azif di da HS C A B P Q u v r SA [Hl1 Hl2] Hi AB' AT Hdi per RB.
  assert (EX : rate_length (h_unit (sv_header s)) = per).
  { apply Survey_inv in HS. destruct HS as (HU & HH & _). rewrite HH, <- HU. reflexivity. }
  pose proof (dls_next s k c a t' C A AB' ltac:(lra)) as D. rewrite EX in D.
  destruct (interior_rates _ _ _ _ _ _ _ _ _ _ _ _ _ _ _ _ _ _ _ HS A B P Q SA Hl2 Hi AT D) as [RB' _].
  rewrite RB in RB'. injection RB' as RB'. subst d. pose proof PI_RGT_0.
  assert (Hper : 0 < per) by (unfold per; destruct (String.eqb unit "meters"); lra).
  destruct SA as (_ & _ & Ht & _). destruct AB' as [[Ht' _] _].
  assert (Hdi' : 0 < Rabs di) by (apply Rabs_pos_lt; auto).
  assert (E1 : Rabs (per * (t' * (180 / PI)) / (st_md a - st_md c)) = per * (180 / PI) * (t' / (st_md a - st_md c))).
  { rewrite Rabs_right. field; lra. apply Rle_ge. apply Rmult_le_pos; [|left; apply Rinv_0_lt_compat; lra].
    apply Rmult_le_pos; [lra|]. apply Rmult_le_pos; [lra|]. left. apply Rdiv_lt_0_compat; lra. }
  assert (E2 : Rabs (degrees di) = 180 / PI * Rabs di).
  { unfold degrees. rewrite Rabs_mult, (Rabs_right (180 / PI)). ring. left. apply Rdiv_lt_0_compat; lra. }
  change (((st_md b - st_md a) / t) * Rabs di) with (r * Rabs di) in *.
  rewrite E1, E2.
  assert (Hk : 0 < per * (180 / PI) * Rabs di).
  { repeat apply Rmult_lt_0_compat; try lra. apply Rinv_0_lt_compat; lra. }
  assert (Hrr : r * (t / (st_md b - st_md a)) = 1) by (unfold r; field; lra).
  assert (Hr : 0 < r) by (unfold r; apply Rdiv_lt_0_compat; lra).
  set (x := t' / (st_md a - st_md c)) in *. set (y := t / (st_md b - st_md a)) in *.
  split; intro E.
  - assert (E' : (per * (180 / PI) * Rabs di) * (x * r) = (per * (180 / PI) * Rabs di) * (y * r)).
    { rewrite (Rmult_comm y r), Hrr.
      transitivity (per * (180 / PI) * x * (r * Rabs di)); [ring|]. rewrite E. ring. }
    apply Rmult_eq_reg_l in E'; [|lra]. apply Rmult_eq_reg_r in E'; lra.
  - rewrite E. transitivity (per * (180 / PI) * Rabs di * (r * y)); [ring|]. rewrite Hrr. ring.
Qed.

Lemma first_rates : forall h rows deg sx sn unit s a,
  Survey h rows deg sx sn unit = Some s -> nth_error (sv_rows s) 0 = Some a ->
  nth_error (cv_build_rate (survey_curves s)) 0 = Some (Fin 0) /\
  (sin (st_inc a) <> 0 -> nth_error (cv_turn_rate (survey_curves s)) 0 = Some (Fin 0)) /\
  (sin (st_inc a) = 0 -> nth_error (cv_turn_rate (survey_curves s)) 0 = Some NaN).
Proof.
  intros h rows deg sx sn unit s a HS A.
  assert (L : (2 <= length (sv_rows s))%nat) by (apply Survey_inv in HS; destruct HS as (_ & _ & L & _); exact L).
  destruct (nth_error (sv_rows s) 1) as [b|] eqn:B; [|apply nth_error_None in B; lia].
  pose proof (toolfaces_nth _ _ _ _ A B) as TF.
  destruct (rates_everywhere s 0 a 0 _ A eq_refl TF) as (R1 & R2 & R3 & _).
  rewrite R1. rewrite Rmult_0_l, Rabs_R0. split; [auto|]. split.
  - intro H. rewrite R2 by auto. rewrite Rmult_0_l. unfold Rdiv. rewrite Rmult_0_l, Rabs_R0. auto.
  - intro H. rewrite R3; auto. ring.
Qed.

(** ** projecting a straight or a vertical end *)
Lemma bit_straight : forall h rows deg sx sn unit s k a b p q d,
  Survey h rows deg sx sn unit = Some s ->
  nth_error (sv_rows s) k = Some a -> nth_error (sv_rows s) (S k) = Some b ->
  length (sv_rows s) = S (S k) ->
  nth_error (sv_nev s) k = Some p -> nth_error (sv_nev s) (S k) = Some q ->
  let v := direction_nev (st_inc b) (st_azi b) in
  direction_nev (st_inc a) (st_azi a) = v ->
  project_to_bit s d None None = Some (vadd q (vscale d v), v, st_md b + d).
Proof.
  intros h rows deg sx sn unit s k a b p q d HS A B L P Q v E.
  pose proof (Survey_xyz_len _ _ _ _ _ _ _ HS) as [_ LN].
  assert (AB : angle_between (dir a) (dir b) 0).
  { split; [pose proof PI_RGT_0; lra|]. rewrite cos_0. unfold dir. rewrite E. symmetry. apply direction_unit. }
  assert (LD : last (cv_dls (survey_curves s)) (Fin 0) = Fin 0).
  { eapply last_of with (k := S k).
    2:{ cbn [survey_curves cv_dls]. rewrite dls_list_length; auto. destruct (sv_rows s); discriminate. }
    cbn [survey_curves cv_dls]. unfold dls_list. simpl.
    rewrite (pairwise_nth _ _ (pair_dls _) _ _ _ _ A B).
    pose proof (pair_angle_is a b 0 AB) as Z.
    destruct (Req_EM_T (st_md a) (st_md b)).
    - rewrite pair_dls_repeat_same; auto.
    - rewrite pair_dls_distinct by auto. rewrite Z. unfold degrees, Rdiv. do 2 f_equal. ring. }
  unfold project_to_bit. rewrite LD.
  destruct (sv_rows s) as [|a0 ra] eqn:ER; [destruct k; discriminate|].
  destruct (sv_nev s) as [|p0 rp] eqn:EN; [destruct k; discriminate|].
  rewrite (last_cons_of _ _ _ _ _ B L).
  rewrite (last_cons_of _ _ _ _ _ Q) by congruence.
  rewrite get_vec_nev. unfold project_ahead. destruct (Rlt_dec 0 0); [lra|]. reflexivity.
Qed.

Lemma angles_down : get_angles true (mkV 0 0 1) = (0, 0).
Proof.
  unfold get_angles. rewrite vunit_unit by (unfold is_unit, dot; simpl; ring).
  unfold get_angles_xyz; simpl. pose proof PI_RGT_0.
  replace (0 * (0 * 1) + 0 * (0 * 1)) with 0 by ring. rewrite sqrt_0. rewrite arctan2_00.
  f_equal.
  - unfold arctan2. destruct (Rlt_dec 0 1); [|lra]. unfold Rdiv. rewrite Rmult_0_l. apply atan_0.
  - rewrite Rplus_0_l. apply (rmod_unique _ _ _ 1); simpl; lra.
Qed.

Lemma bit_vertical : forall h rows deg sx sn s k a b p q t n d c,
  Survey h rows deg sx sn "meters" = Some s ->
  nth_error (sv_rows s) k = Some a -> nth_error (sv_rows s) (S k) = Some b ->
  length (sv_rows s) = S (S k) ->
  nth_error (sv_nev s) k = Some p -> nth_error (sv_nev s) (S k) = Some q ->
  let u := direction_nev (st_inc a) (st_azi a) in
  let v := direction_nev (st_inc b) (st_azi b) in
  let r := (st_md b - st_md a) / t in
  section_arc p u q v (st_md b - st_md a) t n -> st_md a < st_md b -> st_inc b = 0 ->
  arc_normal u n t = mkV (cos c) (sin c) 0 ->
  let m := mkV (cos (c - st_azi b)) (sin (c - st_azi b)) 0 in
  project_to_bit s d None None = Some (arc_point q v m r (d / r), arc_tangent v m (d / r), st_md b + d).
Proof.
  intros h rows deg sx sn s k a b p q t n d c HS A B L P Q u v r SA Hl Hi EC m.
  pose proof (section_angle _ _ _ _ _ _ _ _ SA) as AB.
  pose proof SA as (N1 & N2 & Ht & EP & EV).
  pose proof (Survey_xyz_len _ _ _ _ _ _ _ HS) as [_ LN].
  assert (EX : rate_length (h_unit (sv_header s)) = 30).
  { apply Survey_inv in HS. destruct HS as (HU & HH & _). rewrite HH, <- HU. reflexivity. }
  pose proof (dls_next s k a b t A B AB ltac:(lra)) as D. rewrite EX in D.
  destruct (toolfaces_last _ _ _ _ A B L) as [TF [_ TL]].
  destruct (toolface_final _ _ _ _ _ _ _ _ _ _ _ _ _ _ _ HS A B L P Q SA TF) as [_ NE].
  fold u in NE. rewrite EC in NE.
  assert (LD : last (cv_dls (survey_curves s)) (Fin 0) = Fin (30 * (t * (180 / PI)) / (st_md b - st_md a))).
  { eapply last_of; [exact D|]. cbn [survey_curves cv_dls]. rewrite dls_list_length; auto. destruct (sv_rows s); discriminate. }
  assert (LT : last (cv_toolface (survey_curves s)) 0 = toolface_end a b) by exact TL.
  unfold project_to_bit. rewrite LD, LT.
  destruct (sv_rows s) as [|a0 ra] eqn:ER; [destruct k; discriminate|].
  destruct (sv_nev s) as [|p0 rp] eqn:EN; [destruct k; discriminate|].
  rewrite (last_cons_of _ _ _ _ _ B L).
  rewrite (last_cons_of _ _ _ _ _ Q) by congruence.
  pose proof PI_RGT_0.
  assert (Hd : 0 < 30 * (t * (180 / PI)) / (st_md b - st_md a)).
  { apply Rdiv_lt_0_compat; [|lra]. repeat apply Rmult_lt_0_compat; try lra. apply Rinv_0_lt_compat; lra. }
  rewrite get_vec_nev, project_ahead_exact by (auto using direction_unit).
  assert (ED : direction_nev (st_inc b) (st_azi b) = mkV 0 0 1).
  { unfold direction_nev. rewrite Hi, sin_0, cos_0. apply V3_eq; simpl; ring. }
  rewrite ED, angles_down. cbv zeta. unfold v. rewrite ED.
  assert (ERR : 30 * 360 / (2 * PI * (30 * (t * (180 / PI)) / (st_md b - st_md a))) = r).
  { unfold r. field; repeat split; lra. }
  rewrite ERR.
  assert (EM : toolface_dir 0 0 (toolface_end a b) = m).
  { rewrite vertical_axes in NE |- * by (rewrite ?Hi; auto using sin_0, cos_0).
    injection NE as Z1 Z2. rewrite Rplus_0_l. unfold m. rewrite cos_minus, sin_minus, <- Z1, <- Z2.
    set (g := toolface_end a b). rewrite <- cos_minus, <- sin_minus.
    replace (st_azi b + g - st_azi b) with g by ring. reflexivity. }
  rewrite EM. reflexivity.
Qed.

(** ** normals, radius vectors, centres *)
Lemma vec_nev_of_dir : forall a, vec_nev_of a = direction_nev (st_inc a) (st_azi a).
Proof.
  intro a. unfold vec_nev_of. rewrite get_vec_spec by lra.
  destruct (direction_nev (st_inc a) (st_azi a)) as [x y z]. unfold get_nev, swap_xy; unf. apply V3_eq; simpl; ring.
Qed.

Lemma section_cross : forall p u q v len t n, is_unit u -> section_arc p u q v len t n ->
  is_unit (cross u n) /\ cross u v = vscale (sin t) (cross u n) /\ 0 < sin t /\
  cross (cross u n) u = n /\ cross (cross u n) v = arc_normal u n t.
Proof.
  intros p u q v len t n U (N1 & N2 & Ht & EP & EV).
  assert (0 < sin t) by (apply sin_gt_0; lra).
  unfold is_unit, orthogonal in *.
  assert (X : is_unit (cross u n)).
  { unfold is_unit. rewrite <- lagrange, U, N1, N2. ring. }
  assert (TP : forall a b c, cross (cross a b) c = vsub (vscale (dot a c) b) (vscale (dot b c) a)) by vring.
  split; [exact X|]. split.
  { rewrite EV. unfold arc_tangent. destruct u, n; unf; apply V3_eq; simpl; ring. }
  split; [auto|]. split.
  - rewrite TP, U, (dot_comm n u), N2. destruct u, n; unf; apply V3_eq; simpl; ring.
  - rewrite TP. rewrite EV. unfold arc_tangent, arc_normal.
    rewrite !dot_vadd_r, !dot_vscale_r, U, N1, (dot_comm n u), N2. destruct u, n; unf; apply V3_eq; simpl; ring.
Qed.

Lemma row_unit_scale : forall k v, 0 < k -> is_unit v -> row_unit (vscale k v) = Some v.
Proof.
  intros k v Hk U. unfold row_unit.
  assert (N : norm (vscale k v) = k) by (rewrite norm_vscale, (norm_1 v U), Rabs_right; lra).
  rewrite N. destruct (Req_EM_T k 0); [lra|]. f_equal. rewrite vscale_vscale. rewrite Rinv_l by auto. apply vscale_1.
Qed.
Lemma row_unit_zero : row_unit vzero = None.
Proof. unfold row_unit. rewrite norm_vzero. destruct (Req_EM_T 0 0); [auto|lra]. Qed.

Lemma normal_of_section : forall a b p q len t n,
  section_arc p (direction_nev (st_inc a) (st_azi a)) q (direction_nev (st_inc b) (st_azi b)) len t n ->
  plane_normal a b = Some (cross (direction_nev (st_inc a) (st_azi a)) n).
Proof.
  intros a b p q len t n SA. unfold plane_normal. rewrite !vec_nev_of_dir.
  destruct (section_cross _ _ _ _ _ _ _ (direction_unit _ _) SA) as (X & C & S & _).
  rewrite C. apply row_unit_scale; auto.
Qed.

Lemma cross_self : forall u, cross u u = vzero. Proof. vring. Qed.

Lemma normals_nth : forall rows k a b, nth_error rows k = Some a -> nth_error rows (S k) = Some b ->
  nth_error (normals rows) k = Some (plane_normal a b).
Proof. intros. apply pairwise_nth; auto. Qed.

Lemma radius_vec_next : forall rows k a b, nth_error rows k = Some a -> nth_error rows (S k) = Some b ->
  nth_error (radius_vectors rows) (S k)
  = Some (match plane_normal a b with
          | Some n => Some (cross n (direction_nev (st_inc b) (st_azi b))) | None => None end).
Proof.
  intros rows k a b A B. unfold radius_vectors. cbv zeta.
  pose proof (normals_nth rows k a b A B) as N.
  destruct (normals rows) as [|n0 ns] eqn:E; [destruct k; discriminate|].
  rewrite nth_error_map.
  assert (C : nth_error (firstn 1 (n0 :: ns) ++ n0 :: ns) (S k) = Some (plane_normal a b)) by exact N.
  rewrite (combine_nth_error _ _ _ _ _ _ _ C B). simpl. rewrite get_vec_nev. reflexivity.
Qed.
Lemma radius_vec_first : forall rows a b, nth_error rows 0 = Some a -> nth_error rows 1 = Some b ->
  nth_error (radius_vectors rows) 0
  = Some (match plane_normal a b with
          | Some n => Some (cross n (direction_nev (st_inc a) (st_azi a))) | None => None end).
Proof.
  intros rows a b A B. unfold radius_vectors. cbv zeta.
  pose proof (normals_nth rows 0 a b A B) as N.
  destruct (normals rows) as [|n0 ns] eqn:E; [discriminate|].
  rewrite nth_error_map.
  assert (C : nth_error (firstn 1 (n0 :: ns) ++ n0 :: ns) 0 = Some (plane_normal a b)) by exact N.
  rewrite (combine_nth_error _ _ _ _ _ _ _ C A). simpl. rewrite get_vec_nev. reflexivity.
Qed.

Lemma curve_radius_fin : forall x d, 0 < x -> d <> 0 -> curve_radius x (Fin d) = Fin (x * 360 / (2 * PI * d)).
Proof.
  intros x d Hx Hd. pose proof PI_RGT_0. unfold curve_radius, pos_div_ext. rewrite ediv_ne by auto.
  unfold ext_mul_pos, ext_div_pos. simpl. f_equal. field. lra.
Qed.
Lemma curve_radius_0 : forall x, 0 < x -> curve_radius x (Fin 0) = PInf.
Proof.
  intros x Hx. unfold curve_radius, pos_div_ext. rewrite ediv_pos0 by lra. reflexivity.
Qed.

Lemma radius_nth : forall s k d, nth_error (cv_dls (survey_curves s)) k = Some d ->
  nth_error (cv_curve_radius (survey_curves s)) k = Some (curve_radius (rate_length (h_unit (sv_header s))) d).
Proof. intros s k d H. cbn [survey_curves cv_dls cv_curve_radius] in *. rewrite nth_error_map, H. reflexivity. Qed.

(** C96: a bent section *)
Lemma curve_of_section : forall h rows deg sx sn unit s k a b p q t n,
  Survey h rows deg sx sn unit = Some s ->
  nth_error (sv_rows s) k = Some a -> nth_error (sv_rows s) (S k) = Some b ->
  nth_error (sv_nev s) k = Some p -> nth_error (sv_nev s) (S k) = Some q ->
  let u := direction_nev (st_inc a) (st_azi a) in
  let v := direction_nev (st_inc b) (st_azi b) in
  let r := (st_md b - st_md a) / t in
  section_arc p u q v (st_md b - st_md a) t n -> st_md a < st_md b ->
  nth_error (cv_normals (survey_curves s)) k = Some (Some (cross u n)) /\
  nth_error (cv_curve_radius (survey_curves s)) (S k) = Some (Fin r) /\
  nth_error (cv_vec_radius (survey_curves s)) (S k) = Some (Some (arc_normal u n t)) /\
  (k = 0%nat -> nth_error (cv_vec_radius (survey_curves s)) 0 = Some (Some n)) /\
  arc_centre q (arc_normal u n t) r = arc_centre p n r.
Proof.
  intros h rows deg sx sn unit s k a b p q t n HS A B P Q u v r SA Hl.
  pose proof (section_angle _ _ _ _ _ _ _ _ SA) as AB.
  pose proof (section_cross _ _ _ _ _ _ _ (direction_unit _ _) SA) as (X & C & S & C1 & C2).
  pose proof SA as (N1 & N2 & Ht & EP & EV).
  pose proof (normal_of_section a b _ _ _ _ _ SA) as NS.
  pose proof (dls_next s k a b t A B AB ltac:(lra)) as D.
  pose proof (rate_length_pos (h_unit (sv_header s))) as HX. set (x := rate_length _) in *.
  pose proof PI_RGT_0.
  split; [|split; [|split; [|split]]].
  - cbn [survey_curves cv_normals]. rewrite (normals_nth _ _ _ _ A B), NS. reflexivity.
  - rewrite (radius_nth _ _ _ D). fold x. rewrite curve_radius_fin; auto.
    + do 2 f_equal. unfold r. field. repeat split; lra.
    + apply Rgt_not_eq. apply Rdiv_lt_0_compat; [|lra]. repeat apply Rmult_lt_0_compat; try lra. apply Rinv_0_lt_compat; lra.
  - cbn [survey_curves cv_vec_radius]. rewrite (radius_vec_next _ _ _ _ A B), NS. fold v. rewrite C2. reflexivity.
  - intro K. subst k. cbn [survey_curves cv_vec_radius]. rewrite (radius_vec_first _ _ _ A B), NS, C1. reflexivity.
  - rewrite EP. fold u r. unfold arc_centre, arc_normal, arc_point. destruct u as [u1 u2 u3], n as [n1 n2 n3], p as [p1 p2 p3]; unf.
    apply V3_eq; simpl; ring.
Qed.

Lemma arc_on_circle : forall p u n r t, is_unit u -> is_unit n -> orthogonal u n ->
  dist (arc_point p u n r t) (arc_centre p n r) = Rabs r.
Proof.
  intros p u n r t U N O. unfold dist.
  replace (vsub (arc_point p u n r t) (arc_centre p n r)) with (vscale r (vsub (vscale (sin t) u) (vscale (cos t) n)))
    by (unfold arc_point, arc_centre; destruct p, u, n; unf; apply V3_eq; simpl; ring).
  rewrite norm_vscale. rewrite (norm_1 (vsub _ _)). ring.
  rewrite dot_vsub_l, !dot_vsub_r, !dot_vscale_l, !dot_vscale_r, (dot_comm n u). unfold is_unit, orthogonal in *.
  rewrite U, N, O. pose proof (sin2_cos2' t). lra.
Qed.

(** a straight section *)
Lemma curve_of_straight : forall h rows deg sx sn unit s k a b,
  Survey h rows deg sx sn unit = Some s ->
  nth_error (sv_rows s) k = Some a -> nth_error (sv_rows s) (S k) = Some b ->
  direction_nev (st_inc a) (st_azi a) = direction_nev (st_inc b) (st_azi b) -> st_md a <> st_md b ->
  nth_error (cv_normals (survey_curves s)) k = Some None /\
  nth_error (cv_curve_radius (survey_curves s)) (S k) = Some PInf /\
  nth_error (cv_vec_radius (survey_curves s)) (S k) = Some None.
Proof.
  intros h rows deg sx sn unit s k a b HS A B E Hl.
  assert (AB : angle_between (dir a) (dir b) 0).
  { split; [pose proof PI_RGT_0; lra|]. rewrite cos_0. unfold dir. rewrite E. symmetry. apply direction_unit. }
  pose proof (dls_next s k a b 0 A B AB Hl) as D.
  assert (NS : plane_normal a b = None).
  { unfold plane_normal. rewrite !vec_nev_of_dir, E, cross_self. apply row_unit_zero. }
  split; [|split].
  - cbn [survey_curves cv_normals]. rewrite (normals_nth _ _ _ _ A B), NS. reflexivity.
  - rewrite (radius_nth _ _ _ D).
    replace (rate_length (h_unit (sv_header s)) * (0 * (180 / PI)) / (st_md b - st_md a)) with 0.
    2:{ unfold Rdiv. rewrite !Rmult_0_l, Rmult_0_r, Rmult_0_l. reflexivity. }
    rewrite curve_radius_0; auto. apply rate_length_pos.
  - cbn [survey_curves cv_vec_radius]. rewrite (radius_vec_next _ _ _ _ A B), NS. reflexivity.
Qed.
Lemma curve_radius_first : forall s, nth_error (cv_curve_radius (survey_curves s)) 0 = Some PInf.
Proof. intro s. rewrite (radius_nth _ _ _ (dls_first s)), curve_radius_0; auto. apply rate_length_pos. Qed.
