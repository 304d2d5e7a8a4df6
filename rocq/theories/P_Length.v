(** Proofs about distances, depths and turns along a well. *)
Require Import Reals ZArith Bool String List Lra Lia Psatz.
Require Import Verif.Base Verif.NumPy Verif.Spec Verif.M_Utils Verif.M_Survey Verif.Spec_Length.
Require Import Verif.P_Trig Verif.P_Utils Verif.P_Utils2 Verif.P_Utils3 Verif.P_Survey Verif.P_Survey2 Verif.P_Survey3 Verif.P_Survey5 Verif.P_Rates Verif.P_Sections5.
Import ListNotations.
Local Open Scope R_scope.

Lemma reversal_iff a b : pair_dogleg a b = PI <-> heading b = vneg (heading a).
Proof.
  unfold pair_dogleg, heading. destruct (dogleg_angle (st_inc a) (st_azi a) (st_inc b) (st_azi b)) as [B E]. split; intros H.
  - rewrite H, cos_PI in E.
    assert (U : is_unit (vneg (direction_nev (st_inc a) (st_azi a)))).
    { pose proof (direction_unit (st_inc a) (st_azi a)) as U. unfold is_unit in *. rewrite <- U. unfold dot, vneg; simpl; ring. }
    symmetry. apply unit_dot_1_eq; [exact U|apply direction_unit|].
    transitivity (- dot (direction_nev (st_inc a) (st_azi a)) (direction_nev (st_inc b) (st_azi b))); [unfold dot, vneg; simpl; ring|lra].
  - rewrite H in E. pose proof (direction_unit (st_inc a) (st_azi a)) as U. unfold is_unit in U.
    assert (C : cos (get_dogleg (st_inc a) (st_azi a) (st_inc b) (st_azi b)) = cos PI).
    { rewrite E, cos_PI. transitivity (- dot (direction_nev (st_inc a) (st_azi a)) (direction_nev (st_inc a) (st_azi a))); [unfold dot, vneg; simpl; ring|rewrite U; reflexivity]. }
    pose proof PI_RGT_0. apply cos_inj; lra.
Qed.
Lemma below_PI a b : heading b <> vneg (heading a) -> pair_dogleg a b < PI.
Proof.
  intros N. destruct (pair_angle a b) as [B _]. destruct (Req_dec (pair_dogleg a b) PI) as [E|E]; [apply reversal_iff in E; contradiction|lra].
Qed.
Lemma straight_iff a b : pair_dogleg a b = 0 <-> heading b = heading a.
Proof. unfold pair_dogleg, heading. rewrite dogleg_0_iff. split; congruence. Qed.

(** a list of positions along which every step is the minimum curvature one *)
Definition path (l : list station) (ps : list V3) : Prop := length ps = length l /\ forall k a b p q,
  nth_error l k = Some a -> nth_error l (S k) = Some b -> nth_error ps k = Some p -> nth_error ps (S k) = Some q -> q = vadd p (step_between a b).
Lemma survey_path : forall h rows deg sx sn unit s, Survey h rows deg sx sn unit = Some s -> path (sv_rows s) (sv_nev s).
Proof.
  intros h rows deg sx sn unit s H. split; [apply (Survey_xyz_len _ _ _ _ _ _ _ H)|]. intros k a b p q A B P Q. eapply Survey_nev_step; eauto.
Qed.
Lemma nth_before {A} (l : list A) i j x : (i <= j)%nat -> nth_error l j = Some x -> exists y, nth_error l i = Some y.
Proof.
  intros L H. destruct (nth_error l i) eqn:E; [eauto|]. apply nth_error_None in E. assert (j < length l)%nat by (apply nth_error_Some; congruence). lia.
Qed.
Lemma nth_other {A B} (l : list A) (m : list B) i x : length m = length l -> nth_error l i = Some x -> exists y, nth_error m i = Some y.
Proof.
  intros L H. assert (i < length l)%nat by (apply nth_error_Some; congruence). destruct (nth_error m i) eqn:E; [eauto|]. apply nth_error_None in E. lia.
Qed.
Lemma md_mono l : not_back l -> forall i d a b, nth_error l i = Some a -> nth_error l (i + d) = Some b -> st_md a <= st_md b.
Proof.
  intros N i d. induction d as [|d IH]; intros a b A B.
  - rewrite Nat.add_0_r in B. assert (a = b) by congruence. subst. lra.
  - replace (i + S d)%nat with (S (i + d)) in B by lia. destruct (nth_before l (i + d) (S (i + d)) b) as [c C]; [lia|exact B|].
    specialize (IH a c A C). specialize (N _ _ _ C B). lra.
Qed.
Lemma path_distance l ps : path l ps -> not_back l -> no_reversal l -> forall i d a b p q,
  nth_error l i = Some a -> nth_error l (i + d) = Some b -> nth_error ps i = Some p -> nth_error ps (i + d) = Some q -> dist q p <= st_md b - st_md a.
Proof.
  intros [L P] N NR i d. induction d as [|d IH]; intros a b p q A B HP HQ.
  - rewrite Nat.add_0_r in B, HQ. assert (a = b) by congruence. assert (p = q) by congruence. subst. unfold dist. rewrite vsub_itself, norm_vzero. lra.
  - replace (i + S d)%nat with (S (i + d)) in B, HQ by lia.
    destruct (nth_before l (i + d) (S (i + d)) b) as [c C]; [lia|exact B|]. destruct (nth_other l ps _ _ L C) as [r R1].
    specialize (IH a c p r A C HP R1). rewrite (P _ _ _ _ _ C B R1 HQ). unfold dist in *. rewrite vsub_further.
    pose proof (norm_triangle (vsub r p) (step_between c b)) as T.
    assert (norm (step_between c b) <= st_md b - st_md c).
    { apply step_le_delta; [specialize (N _ _ _ C B); lra|]. apply below_PI, (NR _ _ _ C B). }
    lra.
Qed.
Lemma length_distance : forall h rows deg sx sn unit s i j a b p q, Survey h rows deg sx sn unit = Some s ->
  not_back (sv_rows s) -> no_reversal (sv_rows s) -> (i <= j)%nat ->
  nth_error (sv_rows s) i = Some a -> nth_error (sv_rows s) j = Some b -> nth_error (sv_nev s) i = Some p -> nth_error (sv_nev s) j = Some q ->
  dist q p <= st_md b - st_md a.
Proof.
  intros h rows deg sx sn unit s i j a b p q H N NR IJ A B P Q. replace j with (i + (j - i))%nat in * by lia.
  eapply (path_distance (sv_rows s) (sv_nev s)); eauto using survey_path.
Qed.
Lemma path_straight l ps : path l ps -> forall i d a p, (forall k c, (i <= k <= i + d)%nat -> nth_error l k = Some c -> heading c = heading a) ->
  nth_error l i = Some a -> nth_error ps i = Some p -> forall b q, nth_error l (i + d) = Some b -> nth_error ps (i + d) = Some q ->
  q = vadd p (vscale (st_md b - st_md a) (heading a)).
Proof.
  intros [L P] i d a p. induction d as [|d IH]; intros S1 A HP b q B HQ.
  - rewrite Nat.add_0_r in B, HQ. assert (a = b) by congruence. assert (p = q) by congruence. subst. destruct q. unfold vadd, vscale; simpl. f_equal; ring.
  - replace (i + S d)%nat with (S (i + d)) in B, HQ by lia.
    destruct (nth_before l (i + d) (S (i + d)) b) as [c C]; [lia|exact B|]. destruct (nth_other l ps _ _ L C) as [r R1].
    rewrite (P _ _ _ _ _ C B R1 HQ).
    assert (HC : heading c = heading a) by (apply (S1 (i + d)%nat); [lia|exact C]).
    assert (HB : heading b = heading a) by (apply (S1 (S (i + d))); [lia|exact B]).
    rewrite (step_straight' c b) by (apply straight_iff; congruence). change (dir c) with (heading c). rewrite HC.
    rewrite (IH ltac:(intros k x K; apply S1; lia) A HP c r C R1). destruct p, (heading a). unfold vadd, vscale; simpl. f_equal; ring.
Qed.
Lemma forward_back l : forward l -> not_back l.
Proof. intros F k a b A B. specialize (F k a b A B). lra. Qed.
Lemma path_tight l ps : path l ps -> forward l -> no_reversal l -> forall i d a b p q,
  nth_error l i = Some a -> nth_error l (i + d) = Some b -> nth_error ps i = Some p -> nth_error ps (i + d) = Some q ->
  st_md b - st_md a <= dist q p -> forall k c, (i <= k <= i + d)%nat -> nth_error l k = Some c -> heading c = heading a.
Proof.
  intros HP N NR i d. pose proof HP as [L P]. induction d as [|d IH]; intros a b p q A B P1 Q1 D k c K C.
  - assert (k = i) by lia. subst. congruence.
  - replace (i + S d)%nat with (S (i + d)) in * by lia.
    destruct (nth_before l (i + d) (S (i + d)) b) as [e E]; [lia|exact B|]. destruct (nth_other l ps _ _ L E) as [r R1].
    pose proof (path_distance l ps HP (forward_back _ N) NR i d a e p r A E P1 R1) as T1.
    rewrite (P _ _ _ _ _ E B R1 Q1) in D. unfold dist in *. rewrite vsub_further in D.
    pose proof (norm_triangle (vsub r p) (step_between e b)) as T.
    destruct (step_norm e b (N _ _ _ E B) (below_PI _ _ (NR _ _ _ E B))) as [S1 S2].
    assert (Z : pair_dogleg e b = 0) by (apply S2; lra). apply straight_iff in Z.
    assert (IH' : forall k c, (i <= k <= i + d)%nat -> nth_error l k = Some c -> heading c = heading a) by (intros; eapply IH; eauto; lra).
    destruct (Nat.eq_dec k (S (i + d))) as [-> |]; [|apply (IH' k); [lia|exact C]].
    assert (c = b) by congruence. subst. rewrite Z. apply (IH' (i + d)%nat); [lia|exact E].
Qed.
Lemma length_straight : forall h rows deg sx sn unit s i j a b p q, Survey h rows deg sx sn unit = Some s ->
  forward (sv_rows s) -> no_reversal (sv_rows s) -> (i <= j)%nat ->
  nth_error (sv_rows s) i = Some a -> nth_error (sv_rows s) j = Some b -> nth_error (sv_nev s) i = Some p -> nth_error (sv_nev s) j = Some q ->
  (dist q p = st_md b - st_md a <-> forall k c, (i <= k <= j)%nat -> nth_error (sv_rows s) k = Some c -> heading c = heading a).
Proof.
  intros h rows deg sx sn unit s i j a b p q H N NR IJ A B P Q. replace j with (i + (j - i))%nat in * by lia. split.
  - intros D k c K C. eapply (path_tight (sv_rows s) (sv_nev s)); eauto using survey_path; lra.
  - intros S1. rewrite (path_straight (sv_rows s) (sv_nev s) (survey_path _ _ _ _ _ _ _ H) i (j - i) a p S1 A P b q B Q).
    unfold dist. rewrite vsub_further, vsub_itself.
    replace (vadd vzero (vscale (st_md b - st_md a) (heading a))) with (vscale (st_md b - st_md a) (heading a))
      by (unfold vadd, vscale, vzero; simpl; f_equal; ring).
    pose proof (md_mono _ (forward_back _ N) i (j - i) a b A B). rewrite norm_vscale, Rabs_right by lra.
    unfold heading. rewrite (norm_1 _ (direction_unit _ _)). ring.
Qed.

(** ** vertical depth *)
Lemma rf_pos t : 0 <= t < PI -> 0 < get_rf t.
Proof.
  intros T. unfold get_rf. destruct (Req_EM_T t 0); [lra|]. apply Rmult_lt_0_compat; [apply Rdiv_lt_0_compat; lra|]. apply tan_gt_0; lra.
Qed.
Lemma step_down a b : st_md a < st_md b -> heading b <> vneg (heading a) ->
  vz (step_between a b) = (st_md b - st_md a) * get_rf (pair_dogleg a b) / 2 * (cos (st_inc a) + cos (st_inc b)) /\
  0 < (st_md b - st_md a) * get_rf (pair_dogleg a b) / 2.
Proof.
  intros M N. apply below_PI in N. destruct (pair_angle a b) as [B _]. assert (0 < get_rf (pair_dogleg a b)) by (apply rf_pos; lra).
  split; [rewrite step_between_disp; reflexivity|]. apply Rmult_lt_0_compat; [apply Rmult_lt_0_compat|]; lra.
Qed.
Lemma path_deeper l ps : path l ps -> forward l -> no_reversal l -> forall i d a b p q,
  nth_error l i = Some a -> nth_error l (i + S d) = Some b -> nth_error ps i = Some p -> nth_error ps (i + S d) = Some q ->
  ((forall k c, (i <= k <= i + S d)%nat -> nth_error l k = Some c -> 0 < cos (st_inc c)) -> vz p < vz q) /\
  ((forall k c, (i <= k <= i + S d)%nat -> nth_error l k = Some c -> cos (st_inc c) < 0) -> vz q < vz p) /\
  ((forall k c, (i <= k <= i + S d)%nat -> nth_error l k = Some c -> cos (st_inc c) = 0) -> vz q = vz p).
Proof.
  intros [L P] N NR i d. induction d as [|d IH]; intros a b p q A B P1 Q1.
  - replace (i + 1)%nat with (S i) in * by lia. rewrite (P _ _ _ _ _ A B P1 Q1). cbn [vadd vz].
    destruct (step_down a b (N _ _ _ A B) (NR _ _ _ A B)) as [E K]. rewrite E. set (w := _ / 2) in *.
    repeat split; intros F; pose proof (F i a ltac:(lia) A) as FA; pose proof (F (S i) b ltac:(lia) B) as FB; nra.
  - replace (i + S (S d))%nat with (S (i + S d)) in * by lia.
    destruct (nth_before l (i + S d) (S (i + S d)) b) as [e E]; [lia|exact B|]. destruct (nth_other l ps _ _ L E) as [r R1].
    destruct (IH a e p r A E P1 R1) as (I1 & I2 & I3). rewrite (P _ _ _ _ _ E B R1 Q1). cbn [vadd vz].
    destruct (step_down e b (N _ _ _ E B) (NR _ _ _ E B)) as [Z K]. rewrite Z. set (w := _ / 2) in *.
    repeat split; intros F; pose proof (F (i + S d)%nat e ltac:(lia) E) as FA; pose proof (F (S (i + S d)) b ltac:(lia) B) as FB.
    + assert (vz p < vz r) by (apply I1; intros k c Hk; apply F; lia). nra.
    + assert (vz r < vz p) by (apply I2; intros k c Hk; apply F; lia). nra.
    + assert (vz r = vz p) by (apply I3; intros k c Hk; apply F; lia). nra.
Qed.
Lemma length_deeper : forall h rows deg sx sn unit s i j a b p q, Survey h rows deg sx sn unit = Some s ->
  forward (sv_rows s) -> no_reversal (sv_rows s) -> (i < j)%nat ->
  nth_error (sv_rows s) i = Some a -> nth_error (sv_rows s) j = Some b -> nth_error (sv_nev s) i = Some p -> nth_error (sv_nev s) j = Some q ->
  ((forall k c, (i <= k <= j)%nat -> nth_error (sv_rows s) k = Some c -> 0 <= st_inc c < PI / 2) -> vz p < vz q) /\
  ((forall k c, (i <= k <= j)%nat -> nth_error (sv_rows s) k = Some c -> PI / 2 < st_inc c <= PI) -> vz q < vz p) /\
  ((forall k c, (i <= k <= j)%nat -> nth_error (sv_rows s) k = Some c -> st_inc c = PI / 2) -> vz q = vz p).
Proof.
  intros h rows deg sx sn unit s i j a b p q H N NR IJ A B P Q. replace j with (i + S (j - S i))%nat in * by lia.
  destruct (path_deeper _ _ (survey_path _ _ _ _ _ _ _ H) N NR i _ a b p q A B P Q) as (I1 & I2 & I3). pose proof PI_RGT_0.
  repeat split; intros F.
  - apply I1. intros k c K C. specialize (F k c K C). apply cos_gt_0; lra.
  - apply I2. intros k c K C. specialize (F k c K C). apply cos_lt_0; lra.
  - apply I3. intros k c K C. rewrite (F k c K C). apply cos_PI2.
Qed.

(** ** turns *)
Lemma angles_add u v w a b c : is_unit u -> is_unit v -> is_unit w -> angle_between u v a -> angle_between v w b -> angle_between u w c -> c <= a + b.
Proof.
  intros U V W [A CA] [B CB] [C CC]. destruct (Rle_lt_dec PI (a + b)) as [G|G]; [lra|].
  destruct (Rle_lt_dec c (a + b)) as [L|L]; [exact L|exfalso].
  assert (K : cos c < cos (a + b)) by (apply cos_decreasing_1; lra).
  rewrite cos_plus, CA, CB, CC in K.
  assert (SA : 0 <= sin a) by (apply sin_ge_0; lra). assert (SB : 0 <= sin b) by (apply sin_ge_0; lra).
  pose proof (sin2_cos2 a) as QA. pose proof (sin2_cos2 b) as QB. unfold Rsqr in QA, QB. rewrite CA in QA. rewrite CB in QB.
  (* the parts of u and w across v *)
  pose proof (cauchy_sqr (vsub u (vscale (dot u v) v)) (vsub w (vscale (dot v w) v))) as S1.
  assert (E1 : dot (vsub u (vscale (dot u v) v)) (vsub w (vscale (dot v w) v)) = dot u w - dot u v * dot v w).
  { unfold is_unit in *. transitivity (dot u w - dot v w * dot u v - dot u v * dot v w + dot u v * dot v w * dot v v); [unfold dot, vsub, vscale; simpl; ring|rewrite V; ring]. }
  assert (E2 : dot (vsub u (vscale (dot u v) v)) (vsub u (vscale (dot u v) v)) = sin a * sin a).
  { unfold is_unit in *. transitivity (dot u u - 2 * dot u v * dot u v + dot u v * dot u v * dot v v); [unfold dot, vsub, vscale; simpl; ring|rewrite U, V; lra]. }
  assert (E3 : dot (vsub w (vscale (dot v w) v)) (vsub w (vscale (dot v w) v)) = sin b * sin b).
  { unfold is_unit in *. transitivity (dot w w - 2 * dot v w * dot v w + dot v w * dot v w * dot v v); [unfold dot, vsub, vscale; simpl; ring|rewrite W, V; lra]. }
  rewrite E1, E2, E3 in S1. clear E1 E2 E3. set (x := dot u w - dot u v * dot v w) in *. set (y := sin a * sin b).
  assert (Y : 0 <= y) by (unfold y; apply Rmult_le_pos; lra). assert (X : x < - y) by (unfold x, y; lra). assert (x * x <= y * y) by (unfold y; lra). nra.
Qed.
Lemma nth_skip {A} : forall i (l : list A) j, nth_error (skipn i l) j = nth_error l (i + j).
Proof. induction i as [|i IH]; intros [|x l] j; simpl; auto. destruct j; reflexivity. Qed.
Lemma sum_next l : forall i d x, nth_error l (S (i + d)) = Some x -> sum_between i (i + S d) l = sum_between i (i + d) l + x.
Proof.
  intros i d x H. unfold sum_between. replace (i + S d - i)%nat with (S d) by lia. replace (i + d - i)%nat with d by lia.
  assert (K : nth_error (skipn (S i) l) d = Some x) by (rewrite nth_skip; replace (S i + d)%nat with (S (i + d)) by lia; exact H).
  revert K. generalize (skipn (S i) l). clear. induction d as [|d IH]; intros [|y m] H; simpl in H; try discriminate.
  - injection H as ->. simpl. ring.
  - cbn [firstn fold_right]. specialize (IH m H). cbn [firstn fold_right] in IH. rewrite IH. ring.
Qed.
Lemma length_turn : forall h rows deg sx sn unit s i j a b t, Survey h rows deg sx sn unit = Some s -> (i <= j)%nat ->
  nth_error (sv_rows s) i = Some a -> nth_error (sv_rows s) j = Some b -> angle_between (heading a) (heading b) t -> t <= sum_between i j (sv_dogleg s).
Proof.
  intros h rows deg sx sn unit s i j a b t H IJ A B T. destruct (Survey_intervals _ _ _ _ _ _ _ H) as (_ & _ & _ & _ & _ & K). pose proof (proj2 (Survey_xyz_len _ _ _ _ _ _ _ H)) as LN.
  replace j with (i + (j - i))%nat in * by lia. clear IJ. revert b t B T. induction (j - i)%nat as [|d IH]; intros b t B [T1 T2].
  - rewrite Nat.add_0_r in B. assert (a = b) by congruence. subst. unfold sum_between. rewrite Nat.add_0_r, Nat.sub_diag. simpl.
    unfold heading in T2. rewrite direction_unit, <- cos_0 in T2. pose proof PI_RGT_0. apply cos_inj in T2; lra.
  - replace (i + S d)%nat with (S (i + d)) in B by lia. destruct (nth_before (sv_rows s) (i + d) (S (i + d)) b) as [c C]; [lia|exact B|].
    destruct (nth_other _ _ _ _ LN C) as [p P]. destruct (nth_other _ _ _ _ LN B) as [q Q]. destruct (K _ _ _ _ _ C B P Q) as (_ & _ & dl & D & AB). rewrite (sum_next _ _ _ _ D).
    specialize (IH c _ C (dogleg_angle _ _ _ _)).
    pose proof (angles_add (heading a) (heading c) (heading b) _ dl t (direction_unit _ _) (direction_unit _ _) (direction_unit _ _) (dogleg_angle _ _ _ _) AB (conj T1 T2)). lra.
Qed.

(** ** units *)
Lemma steps_stretch k a b : pair_delta (mkSt (k * st_md a) (st_inc a) (st_azi a)) (mkSt (k * st_md b) (st_inc b) (st_azi b)) = vscale k (pair_delta a b).
Proof.
  unfold pair_delta, pair_dogleg, min_curve_step_rf. cbn [st_md st_inc st_azi vx vy vz]. unfold vscale; simpl. f_equal; unfold Rdiv; ring.
Qed.
Definition stretch (k : R) (a : station) : station := mkSt (k * st_md a) (st_inc a) (st_azi a).
Lemma pairwise_map {A B C} (f : B -> B -> C) (g : A -> B) : forall l, pairwise f (map g l) = pairwise (fun a b => f (g a) (g b)) l.
Proof. induction l as [|a [|b l] IH]; try reflexivity. cbn [map pairwise] in *. rewrite IH. reflexivity. Qed.
Lemma map_pairwise {A B C} (f : A -> A -> B) (g : B -> C) : forall l, map g (pairwise f l) = pairwise (fun a b => g (f a b)) l.
Proof. induction l as [|a [|b l] IH]; try reflexivity. cbn [map pairwise] in *. rewrite IH. reflexivity. Qed.
Lemma pairwise_ext {A B} (f g : A -> A -> B) : (forall a b, f a b = g a b) -> forall l, pairwise f l = pairwise g l.
Proof. intros E. induction l as [|a [|b l] IH]; try reflexivity. cbn [pairwise] in *. rewrite IH, E. reflexivity. Qed.
Lemma cumsum_stretch k : forall l acc, vcumsum_from (vscale k acc) (map (vscale k) l) = map (vscale k) (vcumsum_from acc l).
Proof.
  induction l as [|d l IH]; intros acc; [reflexivity|]. cbn [map vcumsum_from].
  replace (vadd (vscale k acc) (vscale k d)) with (vscale k (vadd acc d)) by (unfold vadd, vscale; simpl; f_equal; ring). rewrite IH. reflexivity.
Qed.
Lemma MinCurve_stretch k svy sx u mc u' : (u' = "meters" \/ u' = "feet")%string -> MinCurve svy sx u = Some mc ->
  exists mc', MinCurve (map (stretch k) svy) (vscale k sx) u' = Some mc' /\ mc_dogleg mc' = mc_dogleg mc /\
  mc_poss mc' = map (vscale k) (mc_poss mc).
Proof.
  intros U' H. unfold MinCurve in *. destruct (unit_coeff u) as [c|]; [|discriminate]. rewrite map_length.
  destruct (length svy <=? 1)%nat; [discriminate|]. injection H as <-.
  assert (E : exists c', unit_coeff u' = Some c') by (destruct U' as [-> | ->]; unfold unit_coeff; simpl; eauto). destruct E as [c' ->].
  eexists. split; [reflexivity|]. cbn [mc_dogleg mc_poss]. split.
  - f_equal. rewrite pairwise_map. reflexivity.
  - rewrite pairwise_map. rewrite (pairwise_ext _ (fun a b => vscale k (pair_delta a b))) by (intros; apply steps_stretch).
    rewrite <- (map_pairwise pair_delta (vscale k)). unfold vcumsum.
    assert (CS : vcumsum_from vzero (vzero :: map (vscale k) (pairwise pair_delta svy)) = map (vscale k) (vcumsum_from vzero (vzero :: pairwise pair_delta svy))).
    { rewrite <- cumsum_stretch. cbn [map]. assert (Z : vscale k vzero = vzero) by (unfold vscale, vzero; simpl; f_equal; ring). rewrite !Z. reflexivity. }
    rewrite CS. change (map (fun p => vadd p (vscale k sx)) (map (vscale k) (vcumsum_from vzero (vzero :: pairwise pair_delta svy))) =
      map (vscale k) (map (fun p => vadd p sx) (vcumsum_from vzero (vzero :: pairwise pair_delta svy)))).
    rewrite !map_map. apply map_ext. intros q. unfold vadd, vscale; simpl. f_equal; ring.
Qed.
Lemma length_units : forall k h rows deg sx sn u s u', (u' = "meters" \/ u' = "feet")%string -> Survey h rows deg sx sn u = Some s ->
  exists s', Survey (with_unit u' h) (map (stretch_row k) rows) deg (vscale k sx) (vscale k sn) u' = Some s' /\
    sv_nev s' = map (vscale k) (sv_nev s) /\ sv_xyz s' = map (vscale k) (sv_xyz s) /\ sv_pos_nev s' = map (vscale k) (sv_pos_nev s) /\
    sv_dogleg s' = sv_dogleg s /\ sv_azi_true s' = sv_azi_true s /\ sv_azi_mag s' = sv_azi_mag s /\
    map st_inc (sv_rows s') = map st_inc (sv_rows s) /\ map st_azi (sv_rows s') = map st_azi (sv_rows s) /\
    map st_md (sv_rows s') = map (Rmult k) (map st_md (sv_rows s)).
Proof.
  intros k h rows deg sx sn u s u' U' H. unfold Survey in *. destruct (negb _); [discriminate|].
  cbn [with_unit h_unit h_ref h_convergence h_declination h_gsf]. rewrite String.eqb_refl. cbn [negb].
  match type of H with context [MinCurve ?l sx u] => set (sts := l) in * end.
  destruct (MinCurve sts sx u) as [mc|] eqn:M; [|discriminate]. injection H as <-.
  match goal with |- context [MinCurve ?l (vscale k sx) u'] => assert (E : l = map (stretch k) sts) end.
  { unfold sts. rewrite !map_map. apply map_ext. intros [[md inc] azi]. reflexivity. }
  rewrite E. destruct (MinCurve_stretch k sts sx u mc u' U' M) as (mc' & M' & D & P). rewrite M'.
  eexists. split; [reflexivity|]. cbn [sv_nev sv_xyz sv_pos_nev sv_dogleg sv_azi_true sv_azi_mag sv_rows]. rewrite D, P, !map_map.
  repeat match goal with |- _ /\ _ => split end; try reflexivity; try (apply map_ext).
  - intros p. unfold get_nev, vadd, vsub, vscale; simpl. f_equal; ring.
  - intros p. unfold get_nev, vadd, vsub, vscale, vzero; simpl. f_equal; ring.
  - intros [[md inc] azi]. reflexivity.
  - intros [[md inc] azi]. reflexivity.
Qed.
(** the other coordinates *)
Lemma length_xyz : forall h rows deg sx sn unit s i j p q x y, Survey h rows deg sx sn unit = Some s ->
  nth_error (sv_nev s) i = Some p -> nth_error (sv_nev s) j = Some q -> nth_error (sv_xyz s) i = Some x -> nth_error (sv_xyz s) j = Some y ->
  dist y x = dist q p.
Proof.
  intros h rows deg sx sn unit s i j p q x y H P Q X Y. destruct (Survey_intervals _ _ _ _ _ _ _ H) as (_ & _ & _ & _ & K & _).
  apply K in P, Q. rewrite X in P. rewrite Y in Q. injection P as ->. injection Q as ->. unfold dist, norm. f_equal.
  unfold dot, vsub; simpl. ring.
Qed.
(** a well that builds from vertical *)
Definition build_rows : list row := [(0, 0, 0); (100, 1/2, 0); (200, 1, 0)].
Definition grid_header : header := mkHeader RefGrid 0 0 1 None "meters".
Lemma build_survey : exists s, Survey grid_header build_rows false vzero vzero "meters" = Some s /\ sv_rows s = [mkSt 0 0 0; mkSt 100 (1/2) 0; mkSt 200 1 0].
Proof. eexists. split; reflexivity. Qed.
Lemma build_ok : forward [mkSt 0 0 0; mkSt 100 (1/2) 0; mkSt 200 1 0] /\ no_reversal [mkSt 0 0 0; mkSt 100 (1/2) 0; mkSt 200 1 0].
Proof.
  pose proof PI2_3_2 as P. unfold PI2 in P.
  assert (0 < cos 0 /\ 0 < cos (1/2) /\ 0 < cos 1) as (C0 & C1 & C2) by (repeat split; apply cos_gt_0; lra).
  split; intros [|[|[|k]]] a b A B; cbn in A, B; try discriminate A; try discriminate B; injection A as <-; injection B as <-; cbn [st_md]; try lra;
  intros E; apply (f_equal vz) in E; revert E; cbn [heading direction_nev vneg vz st_inc st_azi]; intros E; lra.
  all: fail.
Qed.
