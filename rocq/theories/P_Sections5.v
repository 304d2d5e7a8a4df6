(** Tortuosity indices: values, sign, straight wells, scale. *)
Require Import Reals ZArith Bool String List Lra Lia Psatz.
Require Import Verif.Base Verif.NumPy Verif.Spec Verif.Spec_Lists Verif.Spec_Rates Verif.M_Utils Verif.M_Survey Verif.M_Connector Verif.M_Rates Verif.M_Sections Verif.Spec_Sections.
Require Import Verif.P_Trig Verif.P_Utils Verif.P_Utils2 Verif.P_Survey Verif.P_Survey2 Verif.P_Survey3 Verif.P_Survey5 Verif.P_Rates Verif.P_Rates2 Verif.P_Splice3
  Verif.P_Sections Verif.P_Sections2 Verif.P_Sections4.
Import ListNotations.
Open Scope R_scope.

Lemma close_ext_iff : forall r a x y, close_ext r a x y = true <-> near_ext r a x y.
Proof.
  intros r a [x| | |] [y| | |]; simpl; try (split; [discriminate|tauto]); try (split; [exact (fun _ => I)|exact (fun _ => eq_refl)]).
  apply is_close_iff.
Qed.
Lemma ti_starts_iff : forall s rtol dt k n1 n2 d1 d2, (S (S k) < length (sv_rows s))%nat ->
  nth_error (cv_normals (survey_curves s)) k = Some n1 -> nth_error (cv_normals (survey_curves s)) (S k) = Some n2 ->
  nth_error (cv_dls (survey_curves s)) (S k) = Some d1 -> nth_error (cv_dls (survey_curves s)) (S (S k)) = Some d2 ->
  (In (S k) (ti_starts s rtol dt) <->
   ~ (same_plane rtol rtol n1 n2 /\ (forall t, dt = Some t -> near_ext t rtol d1 d2))).
Proof.
  intros s rtol dt k n1 n2 d1 d2 K N1 N2 D1 D2. unfold ti_starts.
  set (l := pairwise _ _).
  assert (E : nth_error l k = Some (ti_continuous rtol dt (n1, d1) (n2, d2))).
  { unfold l. apply pairwise_nth; unfold section_data; apply combine_nth_error; auto; rewrite tl_nth'; auto. }
  assert (I1 : In (S k) (0%nat :: breaks 0 l) <-> nth_error l k = Some false).
  { split.
    - intros [H|H]; [discriminate|]. apply breaks_spec in H. destruct H as (i & H1 & H2). replace k with i by lia. auto.
    - intro H. right. apply breaks_spec. exists k. auto. }
  assert (B : ti_continuous rtol dt (n1, d1) (n2, d2) = true <-> same_plane rtol rtol n1 n2 /\ (forall t, dt = Some t -> near_ext t rtol d1 d2)).
  { unfold ti_continuous. cbn [fst snd]. rewrite andb_true_iff, close_rows_iff. destruct dt as [t|].
    - rewrite close_ext_iff. split; [intros [H1 H2]; split; auto; intros u U; injection U as <-; auto|intros [H1 H2]; split; auto].
    - split; [intros [H1 _]; split; auto; intros t T; discriminate|tauto]. }
  rewrite I1, E, <- B. destruct (ti_continuous rtol dt (n1, d1) (n2, d2)); split; intro H; try congruence.
Qed.

(** ** values *)
Lemma ti_values : forall h rows deg sx sn unit s rtol dt kwargs coeff kappa,
  Survey h rows deg sx sn unit = Some s -> strictly_increasing (map st_md (sv_rows s)) ->
  kwarg kwargs "coeff" (3048 / 10000) = coeff -> kwarg kwargs "kapa" (10 ^ 7) = kappa -> 0 < coeff ->
  (forall k i, (k < length (sv_rows s))%nat -> last_before (ti_starts s rtol dt) k i -> chord s i k <> 0) ->
  exists l, tortuosity_index s rtol dt kwargs = Some l /\ length l = length (sv_rows s) /\ nth_error l 0 = Some (Fin 0) /\
    forall k, (1 <= k < length (sv_rows s))%nat ->
      let n := INR (number_before (ti_starts s rtol dt) k) in
      exists v, summed (ti_starts s rtol dt) (fun i j => along s i j / chord s i j - 1) k v /\
        nth_error l k = Some (Fin (n / (n + 1) * (kappa * coeff / along s 0 k) * v)).
Proof.
  intros h rows deg sx sn unit s rtol dt kwargs coeff kappa HS INC C K C0 CH. unfold tortuosity_index. rewrite C, K.
  apply (indices_values _ _ _ _ _ _ s _ _ (fun i j => along s i j / chord s i j - 1) (fun k => kappa * coeff / along s 0 k) rtol dt coeff HS INC).
  - intros k i Hk LB. specialize (CH k i ltac:(lia) LB). rewrite ediv_ne.
    + cbn [eadd]. f_equal. field. split; [auto|lra].
    + intro Z. apply CH. apply (Rmult_eq_reg_r (/ coeff)); [|apply Rinv_neq_0_compat; lra]. unfold Rdiv in Z. lra.
  - intros k Hk. assert (0 < along s 0 k).
    { unfold along, depth_at. assert (st_md (nth 0 (sv_rows s) (mkSt 0 0 0)) < st_md (nth k (sv_rows s) (mkSt 0 0 0))); [|lra].
      apply (incr_lt (map st_md (sv_rows s)) 0 k); auto; try lia; rewrite nth_error_map; rewrite (nth_error_nth' _ (mkSt 0 0 0)) by lia; reflexivity. }
    rewrite ediv_ne; [f_equal; field; lra|]. apply Rgt_not_eq. apply Rdiv_lt_0_compat; lra.
Qed.
Lemma mti_values : forall h rows deg sx sn unit s rtol dt kwargs coeff kappa,
  Survey h rows deg sx sn unit = Some s -> strictly_increasing (map st_md (sv_rows s)) ->
  kwarg kwargs "coeff" 1 = coeff -> kwarg kwargs "kapa" 1 = kappa -> 0 < coeff ->
  (forall k i, (k < length (sv_rows s))%nat -> last_before (ti_starts s rtol dt) k i -> chord s i k <> 0) ->
  exists l, modified_tortuosity_index s rtol dt kwargs = Some l /\ length l = length (sv_rows s) /\ nth_error l 0 = Some (Fin 0) /\
    forall k, (1 <= k < length (sv_rows s))%nat ->
      let n := INR (number_before (ti_starts s rtol dt) k) in
      exists v, summed (ti_starts s rtol dt) (fun i j => / chord s i j - / along s i j) k v /\
        nth_error l k = Some (Fin (n / (n + 1) * (kappa * along s 0 k) * v)).
Proof.
  intros h rows deg sx sn unit s rtol dt kwargs coeff kappa HS INC C K C0 CH. unfold modified_tortuosity_index. rewrite C, K.
  assert (AP : forall i k, (i < k < length (sv_rows s))%nat -> 0 < along s i k).
  { intros i k IK. unfold along, depth_at. assert (st_md (nth i (sv_rows s) (mkSt 0 0 0)) < st_md (nth k (sv_rows s) (mkSt 0 0 0))); [|lra].
    apply (incr_lt (map st_md (sv_rows s)) i k); auto; try lia; rewrite nth_error_map; rewrite (nth_error_nth' _ (mkSt 0 0 0)) by lia; reflexivity. }
  destruct (indices_values _ _ _ _ _ _ s (fun lc lx => ediv_ext (eadd (ediv lc lx) (Fin (-1))) lc) (fun x => Fin (kappa * x))
    (fun i j => coeff * (/ chord s i j - / along s i j)) (fun k => kappa * along s 0 k / coeff) rtol dt coeff HS INC) as (l & E & LL & Z & V).
  - intros k i Hk LB. pose proof (CH k i ltac:(lia) LB) as CH'. destruct LB as (_ & LB & _). pose proof (AP i k ltac:(lia)). rewrite ediv_ne.
    + cbn [eadd ediv_ext]. rewrite ediv_ne; [f_equal; field; repeat split; auto; lra|]. apply Rgt_not_eq. apply Rdiv_lt_0_compat; lra.
    + intro Q. apply CH'. apply (Rmult_eq_reg_r (/ coeff)); [|apply Rinv_neq_0_compat; lra]. unfold Rdiv in Q. lra.
  - intros k Hk. f_equal. field. lra.
  - exists l. split; auto. split; auto. split; auto. intros k Hk. cbv zeta. destruct (V k Hk) as (v & SV & NV). cbv zeta in NV.
    exists (v / coeff). split.
    + clear - SV C0. induction SV as [|i k v LB SV IH]; [unfold Rdiv; rewrite Rmult_0_l; constructor|].
      assert (F : forall y, (v + coeff * y) / coeff = v / coeff + y) by (intro y; field; lra). rewrite F.
      apply (summed_next _ (fun i j => / chord s i j - / along s i j)); auto.
    + rewrite NV. do 2 f_equal. field. split; [lra|]. pose proof (pos_INR (number_before (ti_starts s rtol dt) k)). lra.
Qed.

(** ** chord and arc *)
Lemma step_norm : forall a b, st_md a < st_md b -> pair_dogleg a b < PI ->
  norm (step_between a b) <= st_md b - st_md a /\ (norm (step_between a b) = st_md b - st_md a -> pair_dogleg a b = 0).
Proof.
  intros a b L D. split; [apply step_le_delta; auto; lra|]. intro E.
  destruct (pair_angle a b) as [[T0 _] _]. destruct (Req_dec (pair_dogleg a b) 0) as [Z|NZ]; auto. exfalso.
  unfold step_between in E. unfold pair_dogleg in *. rewrite step_chord in E by lra.
  set (t := get_dogleg _ _ _ _) in *. assert (sin (t / 2) < t / 2) by (apply sin_lt_x; lra).
  assert (sin (t / 2) / (t / 2) < 1). { apply (Rmult_lt_reg_r (t / 2)); [lra|]. unfold Rdiv at 1. rewrite Rmult_assoc, Rinv_l by lra. lra. }
  nra.
Qed.
Lemma vsub_itself : forall p, vsub p p = vzero.
Proof. vring. Qed.
Lemma vsub_further : forall p q d, vsub (vadd q d) p = vadd (vsub q p) d.
Proof. vring. Qed.
Section Chord.
Variables (h : header) (rows : list row) (deg : bool) (sx sn : V3) (unit : string) (s : survey).
Hypothesis HS : Survey h rows deg sx sn unit = Some s.
Hypothesis INC : strictly_increasing (map st_md (sv_rows s)).
Hypothesis DOG : forall k a b, nth_error (sv_rows s) k = Some a -> nth_error (sv_rows s) (S k) = Some b -> pair_dogleg a b < PI.

Lemma depth_incr : forall i j, (i < j < length (sv_rows s))%nat -> depth_at s i < depth_at s j.
Proof.
  intros i j K. unfold depth_at. apply (incr_lt (map st_md (sv_rows s)) i j); auto; try lia; rewrite nth_error_map;
      rewrite (nth_error_nth' _ (mkSt 0 0 0)) by lia; reflexivity.
Qed.
Lemma nev_chord : forall i d, (i + d < length (sv_rows s))%nat ->
  norm (vsub (nev_at s (i + d)) (nev_at s i)) <= along s i (i + d) /\
  (norm (vsub (nev_at s (i + d)) (nev_at s i)) = along s i (i + d) ->
   forall m, (i <= m < i + d)%nat -> pair_dogleg (row_at s m) (row_at s (S m)) = 0).
Proof.
  destruct (Survey_stations _ _ _ _ _ _ _ HS) as (_ & L0 & _ & _ & _ & _ & _ & LN & _).
  intros i. induction d as [|d IH]; intro L.
  - rewrite Nat.add_0_r. unfold along. rewrite Rminus_diag_eq by auto.
    replace (vsub (nev_at s i) (nev_at s i)) with vzero by (symmetry; apply vsub_itself). rewrite norm_vzero. split; [lra|]. intros; lia.
  - destruct (IH ltac:(lia)) as [I1 I2]. replace (i + S d)%nat with (S (i + d)) by lia.
    assert (A : nth_error (sv_rows s) (i + d) = Some (row_at s (i + d))) by (apply nth_error_nth'; lia).
    assert (B : nth_error (sv_rows s) (S (i + d)) = Some (row_at s (S (i + d)))) by (apply nth_error_nth'; lia).
    assert (P : nth_error (sv_nev s) (i + d) = Some (nev_at s (i + d))) by (apply nth_error_nth'; lia).
    assert (Q : nth_error (sv_nev s) (S (i + d)) = Some (nev_at s (S (i + d)))) by (apply nth_error_nth'; lia).
    pose proof (Survey_nev_step _ _ _ _ _ _ _ _ _ _ _ _ HS A B P Q) as E.
    pose proof (depth_incr (i + d) (S (i + d)) ltac:(lia)) as MD. unfold depth_at in MD. fold st0 in MD.
    change (nth (i + d) (sv_rows s) st0) with (row_at s (i + d)) in MD. change (nth (S (i + d)) (sv_rows s) st0) with (row_at s (S (i + d))) in MD.
    destruct (step_norm _ _ MD (DOG _ _ _ A B)) as [N1 N2].
    assert (V : vsub (nev_at s (S (i + d))) (nev_at s i) = vadd (vsub (nev_at s (i + d)) (nev_at s i)) (step_between (row_at s (i + d)) (row_at s (S (i + d))))).
    { rewrite E. apply vsub_further. }
    rewrite V. pose proof (norm_triangle (vsub (nev_at s (i + d)) (nev_at s i)) (step_between (row_at s (i + d)) (row_at s (S (i + d))))) as T.
    assert (AL : along s i (S (i + d)) = along s i (i + d) + (st_md (row_at s (S (i + d))) - st_md (row_at s (i + d)))).
    { unfold along, depth_at, row_at, st0. ring. }
    rewrite AL. split; [lra|]. intros Z m M. destruct (Nat.eq_dec m (i + d)) as [->|]; [apply N2; lra|apply I2; [lra|lia]].
Qed.

Lemma chord_nev : forall i k, (i < length (sv_rows s))%nat -> (k < length (sv_rows s))%nat ->
  (0 <= h_gsf h <= 1 -> chord s i k <= norm (vsub (nev_at s k) (nev_at s i))) /\
  (h_gsf h = 1 -> chord s i k = norm (vsub (nev_at s k) (nev_at s i))).
Proof.
  intros i k Hi Hk. destruct (Survey_stations _ _ _ _ _ _ _ HS) as (_ & L0 & _ & _ & _ & _ & _ & LN & LP & _).
  assert (P : forall m, (m < length (sv_rows s))%nat -> nth_error (sv_nev s) m = Some (nev_at s m)) by (intros m M; apply nth_error_nth'; lia).
  assert (Q : forall m, (m < length (sv_rows s))%nat -> nth_error (sv_pos_nev s) m = Some (nth m (sv_pos_nev s) vzero)) by (intros m M; apply nth_error_nth'; lia).
  destruct (Survey_pos_nev _ _ _ _ _ _ _ _ _ _ HS (P i Hi) (Q i Hi)) as (X1 & Y1 & Z1).
  destruct (Survey_pos_nev _ _ _ _ _ _ _ _ _ _ HS (P k Hk) (Q k Hk)) as (X2 & Y2 & Z2).
  set (p := nev_at s i) in *. set (q := nev_at s k) in *. unfold chord.
  assert (E : vsub (nth k (sv_pos_nev s) vzero) (nth i (sv_pos_nev s) vzero) = mkV (h_gsf h * (vx q - vx p)) (h_gsf h * (vy q - vy p)) (vz q - vz p)).
  { unfold vsub. rewrite X1, X2, Y1, Y2, Z1, Z2. f_equal; ring. }
  rewrite E. split.
  - intro G. unfold norm. apply sqrt_le_1_alt. unfold dot, vsub; cbn [vx vy vz].
    assert (G2 : h_gsf h * h_gsf h <= 1) by nra.
    assert (forall d, h_gsf h * d * (h_gsf h * d) <= d * d). { intro d. replace (h_gsf h * d * (h_gsf h * d)) with (h_gsf h * h_gsf h * (d * d)) by ring. pose proof (Rle_0_sqr d) as R. unfold Rsqr in R. nra. }
    pose proof (H (vx q - vx p)). pose proof (H (vy q - vy p)). lra.
  - intro G. rewrite G. f_equal. unfold vsub. f_equal; ring.
Qed.
End Chord.

Lemma summed_nonneg : forall starts b k v, summed starts b k v -> (forall i j, (i < j <= k)%nat -> 0 <= b i j) -> 0 <= v.
Proof.
  intros starts b k v H. induction H as [|i k v LB H IH]; intro B; [lra|].
  assert (0 <= v) by (apply IH; intros; apply B; destruct LB as (_ & LB & _); lia).
  assert (0 <= b i k) by (apply B; destruct LB as (_ & LB & _); lia). lra.
Qed.
Lemma summed_zero : forall starts b k v (P : nat -> Prop), summed starts b k v -> (forall i j, (i < j <= k)%nat -> 0 <= b i j) ->
  (forall i j, (i < j <= k)%nat -> (b i j = 0 <-> forall m, (i <= m < j)%nat -> P m)) ->
  (v = 0 <-> forall m, (m < k)%nat -> P m).
Proof.
  intros starts b k v P H. induction H as [|i k v LB H IH]; intros B Z.
  - split; auto. intros _ m M. lia.
  - assert (IK : (i < k)%nat) by apply LB.
    assert (V : 0 <= v) by (apply (summed_nonneg _ _ _ _ H); intros; apply B; lia).
    pose proof (B i k ltac:(lia)) as Bk.
    assert (IH' : v = 0 <-> forall m, (m < i)%nat -> P m) by (apply IH; intros; [apply B; lia|apply Z; lia]).
    pose proof (Z i k ltac:(lia)) as Zk. split.
    + intros S m M. destruct (Nat.lt_ge_cases m i); [apply IH'; [lra|auto]|apply Zk; [lra|lia]].
    + intro A. assert (v = 0) by (apply IH'; intros; apply A; lia). assert (b i k = 0) by (apply Zk; intros; apply A; lia). lra.
Qed.
