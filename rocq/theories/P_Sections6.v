(** Tortuosity: sign and straight wells; keywords; directional difficulty index. *)
Require Import Reals ZArith Bool String List Lra Lia Psatz.
Require Import Verif.Base Verif.NumPy Verif.Spec Verif.Spec_Lists Verif.Spec_Rates Verif.M_Utils Verif.M_Survey Verif.M_Connector Verif.M_Rates Verif.M_Sections Verif.Spec_Sections.
Require Import Verif.P_Trig Verif.P_Utils Verif.P_Utils2 Verif.P_Survey Verif.P_Survey2 Verif.P_Survey3 Verif.P_Survey5 Verif.P_Rates Verif.P_Rates2 Verif.P_Splice3
  Verif.P_Sections Verif.P_Sections2 Verif.P_Sections4 Verif.P_Sections5.
Import ListNotations.
Open Scope R_scope.

Lemma heading_same_iff : forall a b, pair_dogleg a b = 0 <-> heading b = heading a.
Proof.
  intros a b. destruct (pair_angle a b) as [T C]. change (dir a) with (heading a) in C. change (dir b) with (heading b) in C.
  assert (UA : is_unit (heading a)) by apply direction_unit. assert (UB : is_unit (heading b)) by apply direction_unit.
  split; intro H.
  - rewrite H, cos_0 in C. symmetry. apply unit_dot_1_eq; auto.
  - rewrite H, UA in C. pose proof PI_RGT_0. apply cos_inj_0_PI; try lra. rewrite cos_0. auto.
Qed.

Lemma vzero_plus : forall v, vadd vzero v = v.
Proof. vring. Qed.
Lemma chord_facts : forall h rows deg sx sn unit s i k,
  Survey h rows deg sx sn unit = Some s -> strictly_increasing (map st_md (sv_rows s)) ->
  (forall m a b t, nth_error (sv_rows s) m = Some a -> nth_error (sv_rows s) (S m) = Some b ->
     angle_between (heading a) (heading b) t -> t < PI) ->
  (i < k < length (sv_rows s))%nat ->
  0 < along s i k /\
  (0 <= h_gsf h <= 1 -> chord s i k <= along s i k) /\
  (h_gsf h = 1 -> (chord s i k = along s i k <->
     forall m, (i <= m < k)%nat -> heading (row_at s (S m)) = heading (row_at s m))).
Proof.
  intros h rows deg sx sn unit s i k HS INC TURN IK.
  assert (DOG : forall k a b, nth_error (sv_rows s) k = Some a -> nth_error (sv_rows s) (S k) = Some b -> pair_dogleg a b < PI).
  { intros m a b A B. apply (TURN m a b); auto. apply pair_angle. }
  pose proof (depth_incr s INC i k IK) as MD.
  destruct (chord_nev _ _ _ _ _ _ _ HS i k ltac:(lia) ltac:(lia)) as [C1 C2].
  destruct (nev_chord _ _ _ _ _ _ _ HS INC DOG i (k - i)%nat ltac:(lia)) as [N1 N2].
  replace (i + (k - i))%nat with k in * by lia.
  split; [unfold along; lra|]. split; [intro G; specialize (C1 G); lra|]. intro G. rewrite (C2 G). split.
  - intros E m M. apply heading_same_iff. apply N2; auto.
  - intro SAME. destruct (Survey_stations _ _ _ _ _ _ _ HS) as (_ & L0 & _ & _ & _ & _ & _ & LN & _).
    assert (ST : straight_between (sv_rows s) i k).
    { intros m a b M A B. rewrite <- (row_at_nth _ _ _ A), <- (row_at_nth _ _ _ B). auto. }
    assert (A : nth_error (sv_rows s) i = Some (row_at s i)) by (apply nth_error_nth'; lia).
    assert (B : nth_error (sv_rows s) (i + (k - i)) = Some (row_at s k)) by (replace (i + (k - i))%nat with k by lia; apply nth_error_nth'; lia).
    assert (P : nth_error (sv_nev s) i = Some (nev_at s i)) by (apply nth_error_nth'; lia).
    assert (Q : nth_error (sv_nev s) (i + (k - i)) = Some (nev_at s k)) by (replace (i + (k - i))%nat with k by lia; apply nth_error_nth'; lia).
    destruct (straight_run _ _ _ _ _ _ _ HS i k ST ltac:(lia) (k - i)%nat _ _ _ _ ltac:(lia) A B P Q) as [_ E].
    rewrite E. rewrite vsub_further, vsub_self, vzero_plus, norm_vscale, (norm_1 (heading (row_at s i)) (direction_unit _ _)), Rmult_1_r.
    change (st_md (row_at s k)) with (depth_at s k). change (st_md (row_at s i)) with (depth_at s i). unfold along. apply Rabs_right. apply Rle_ge. apply Rlt_le. apply Rlt_Rminus. exact MD.
Qed.

Lemma number_pos : forall starts k, (1 <= k)%nat -> hd_error starts = Some 0%nat -> 0 < INR (number_before starts k).
Proof.
  intros [|z l] k K H; [discriminate|]. injection H as ->. unfold number_before. simpl. assert (Q : Nat.ltb 0 k = true) by (apply Nat.ltb_lt; lia). rewrite Q.
  apply lt_0_INR. simpl. lia.
Qed.

Lemma ti_sign : forall h rows deg sx sn unit s rtol dt kwargs coeff kappa,
  Survey h rows deg sx sn unit = Some s -> strictly_increasing (map st_md (sv_rows s)) ->
  (forall m a b t, nth_error (sv_rows s) m = Some a -> nth_error (sv_rows s) (S m) = Some b ->
     angle_between (heading a) (heading b) t -> t < PI) ->
  kwarg kwargs "coeff" (3048 / 10000) = coeff -> kwarg kwargs "kapa" (10 ^ 7) = kappa -> 0 < coeff -> 0 < kappa ->
  (forall k i, (k < length (sv_rows s))%nat -> last_before (ti_starts s rtol dt) k i -> chord s i k <> 0) ->
  0 <= h_gsf h <= 1 ->
  exists l, tortuosity_index s rtol dt kwargs = Some l /\
    forall k, (k < length (sv_rows s))%nat -> exists y, nth_error l k = Some (Fin y) /\ 0 <= y /\
      (h_gsf h = 1 -> (y = 0 <-> forall m a b, (m < k)%nat -> nth_error (sv_rows s) m = Some a -> nth_error (sv_rows s) (S m) = Some b -> heading b = heading a)).
Proof.
  intros h rows deg sx sn unit s rtol dt kwargs coeff kappa HS INC TURN C K C0 K0 CH G.
  destruct (ti_values _ _ _ _ _ _ _ _ _ _ _ _ HS INC C K C0 CH) as (l & E & LL & Z & V).
  exists l. split; auto. intros k Hk. destruct k as [|k].
  { exists 0. split; auto. split; [lra|]. intro. split; auto. intros _ m a b M. lia. }
  destruct (V (S k) ltac:(lia)) as (v & SV & NV). cbv zeta in NV.
  pose proof (number_pos (ti_starts s rtol dt) (S k) ltac:(lia) eq_refl) as NP. set (n := INR _) in *.
  assert (F0 : 0 < n / (n + 1) * (kappa * coeff / along s 0 (S k))).
  { destruct (chord_facts _ _ _ _ _ _ _ 0 (S k) HS INC TURN ltac:(lia)) as (A0 & _).
    apply Rmult_lt_0_compat; apply Rdiv_lt_0_compat; nra. }
  assert (CP : forall i j, last_before (ti_starts s rtol dt) j i -> (j <= S k)%nat -> 0 < chord s i j).
  { intros i j LB J. pose proof (CH j i ltac:(lia) LB). pose proof (norm_ge0 (vsub (nth j (sv_pos_nev s) vzero) (nth i (sv_pos_nev s) vzero))) as N. unfold chord in *. lra. }
  set (b := fun i j => if Req_EM_T (chord s i j) 0 then (along s i j - chord s i j) else along s i j / chord s i j - 1).
  assert (SV' : summed (ti_starts s rtol dt) b (S k) v).
  { assert (X : forall j w, summed (ti_starts s rtol dt) (fun i j => along s i j / chord s i j - 1) j w -> (j <= S k)%nat -> summed (ti_starts s rtol dt) b j w).
    { intros j w H. induction H as [|i j w LB H IH]; intro J; [constructor|].
      replace (along s i j / chord s i j - 1) with (b i j). { apply summed_next; auto. apply IH. destruct LB as (_ & LB & _). lia. }
      unfold b. pose proof (CP i j LB J). destruct (Req_EM_T (chord s i j) 0); [lra|reflexivity]. }
    apply X; auto. }
  assert (BF : forall i j, (i < j <= S k)%nat -> 0 <= b i j /\ (h_gsf h = 1 -> (b i j = 0 <-> forall m, (i <= m < j)%nat -> heading (row_at s (S m)) = heading (row_at s m)))).
  { intros i j IJ. destruct (chord_facts _ _ _ _ _ _ _ i j HS INC TURN ltac:(lia)) as (A0 & A1 & A2). specialize (A1 G).
    pose proof (norm_ge0 (vsub (nth j (sv_pos_nev s) vzero) (nth i (sv_pos_nev s) vzero))) as NN. fold (chord s i j) in NN.
    assert (BE : 0 <= b i j /\ (b i j = 0 <-> chord s i j = along s i j)).
    { unfold b. destruct (Req_EM_T (chord s i j) 0) as [Q|Q]; [lra|]. assert (0 < chord s i j) by lra.
      assert (EQ : along s i j / chord s i j - 1 = (along s i j - chord s i j) * / chord s i j) by (field; lra). rewrite EQ.
      pose proof (Rinv_0_lt_compat _ H). split; [apply Rmult_le_pos; lra|]. split; intro X.
      - apply Rmult_integral in X. destruct X; lra.
      - rewrite X. ring. }
    destruct BE as [B1 B2]. split; auto. intro G1. rewrite B2. apply A2; auto. }
  exists (n / (n + 1) * (kappa * coeff / along s 0 (S k)) * v). split; auto. split.
  - apply Rmult_le_pos; [lra|]. apply (summed_nonneg _ _ _ _ SV'). intros. apply BF; auto.
  - intro G1. pose proof (summed_zero _ _ _ _ (fun m => heading (row_at s (S m)) = heading (row_at s m)) SV' (fun i j H => proj1 (BF i j H)) (fun i j H => proj2 (BF i j H) G1)) as SZ.
    split.
    + intros Y m a b0 M A B. apply Rmult_integral in Y. destruct Y as [Y|Y]; [lra|]. rewrite <- (row_at_nth _ _ _ A), <- (row_at_nth _ _ _ B). apply SZ; auto.
    + intro H. assert (v = 0); [|subst; ring]. apply SZ. intros m M. apply (H m); auto; apply nth_error_nth'; lia.
Qed.

Lemma mti_sign : forall h rows deg sx sn unit s rtol dt kwargs coeff kappa,
  Survey h rows deg sx sn unit = Some s -> strictly_increasing (map st_md (sv_rows s)) ->
  (forall m a b t, nth_error (sv_rows s) m = Some a -> nth_error (sv_rows s) (S m) = Some b ->
     angle_between (heading a) (heading b) t -> t < PI) ->
  kwarg kwargs "coeff" 1 = coeff -> kwarg kwargs "kapa" 1 = kappa -> 0 < coeff -> 0 < kappa ->
  (forall k i, (k < length (sv_rows s))%nat -> last_before (ti_starts s rtol dt) k i -> chord s i k <> 0) ->
  0 <= h_gsf h <= 1 ->
  exists l, modified_tortuosity_index s rtol dt kwargs = Some l /\
    forall k, (k < length (sv_rows s))%nat -> exists y, nth_error l k = Some (Fin y) /\ 0 <= y /\
      (h_gsf h = 1 -> (y = 0 <-> forall m a b, (m < k)%nat -> nth_error (sv_rows s) m = Some a -> nth_error (sv_rows s) (S m) = Some b -> heading b = heading a)).
Proof.
  intros h rows deg sx sn unit s rtol dt kwargs coeff kappa HS INC TURN C K C0 K0 CH G.
  destruct (mti_values _ _ _ _ _ _ _ _ _ _ _ _ HS INC C K C0 CH) as (l & E & LL & Z & V).
  exists l. split; auto. intros k Hk. destruct k as [|k].
  { exists 0. split; auto. split; [lra|]. intro. split; auto. intros _ m a b M. lia. }
  destruct (V (S k) ltac:(lia)) as (v & SV & NV). cbv zeta in NV.
  pose proof (number_pos (ti_starts s rtol dt) (S k) ltac:(lia) eq_refl) as NP. set (n := INR _) in *.
  assert (F0 : 0 < n / (n + 1) * (kappa * along s 0 (S k))).
  { destruct (chord_facts _ _ _ _ _ _ _ 0 (S k) HS INC TURN ltac:(lia)) as (A0 & _).
    apply Rmult_lt_0_compat; [apply Rdiv_lt_0_compat; lra|nra]. }
  assert (CP : forall i j, last_before (ti_starts s rtol dt) j i -> (j <= S k)%nat -> 0 < chord s i j).
  { intros i j LB J. pose proof (CH j i ltac:(lia) LB). pose proof (norm_ge0 (vsub (nth j (sv_pos_nev s) vzero) (nth i (sv_pos_nev s) vzero))) as N. unfold chord in *. lra. }
  set (b := fun i j => if Req_EM_T (chord s i j) 0 then (along s i j - chord s i j) else / chord s i j - / along s i j).
  assert (SV' : summed (ti_starts s rtol dt) b (S k) v).
  { assert (X : forall j w, summed (ti_starts s rtol dt) (fun i j => / chord s i j - / along s i j) j w -> (j <= S k)%nat -> summed (ti_starts s rtol dt) b j w).
    { intros j w H. induction H as [|i j w LB H IH]; intro J; [constructor|].
      replace (/ chord s i j - / along s i j) with (b i j). { apply summed_next; auto. apply IH. destruct LB as (_ & LB & _). lia. }
      unfold b. pose proof (CP i j LB J). destruct (Req_EM_T (chord s i j) 0); [lra|reflexivity]. }
    apply X; auto. }
  assert (BF : forall i j, (i < j <= S k)%nat -> 0 <= b i j /\ (h_gsf h = 1 -> (b i j = 0 <-> forall m, (i <= m < j)%nat -> heading (row_at s (S m)) = heading (row_at s m)))).
  { intros i j IJ. destruct (chord_facts _ _ _ _ _ _ _ i j HS INC TURN ltac:(lia)) as (A0 & A1 & A2). specialize (A1 G).
    pose proof (norm_ge0 (vsub (nth j (sv_pos_nev s) vzero) (nth i (sv_pos_nev s) vzero))) as NN. fold (chord s i j) in NN.
    assert (BE : 0 <= b i j /\ (b i j = 0 <-> chord s i j = along s i j)).
    { unfold b. destruct (Req_EM_T (chord s i j) 0) as [Q|Q]; [lra|]. assert (0 < chord s i j) by lra.
      assert (EQ : / chord s i j - / along s i j = (along s i j - chord s i j) * / (chord s i j * along s i j)) by (field; lra). rewrite EQ.
      assert (0 < / (chord s i j * along s i j)) by (apply Rinv_0_lt_compat; nra). split; [apply Rmult_le_pos; lra|]. split; intro X.
      - apply Rmult_integral in X. destruct X; lra.
      - rewrite X. ring. }
    destruct BE as [B1 B2]. split; auto. intro G1. rewrite B2. apply A2; auto. }
  exists (n / (n + 1) * (kappa * along s 0 (S k)) * v). split; auto. split.
  - apply Rmult_le_pos; [lra|]. apply (summed_nonneg _ _ _ _ SV'). intros. apply BF; auto.
  - intro G1. pose proof (summed_zero _ _ _ _ (fun m => heading (row_at s (S m)) = heading (row_at s m)) SV' (fun i j H => proj1 (BF i j H)) (fun i j H => proj2 (BF i j H) G1)) as SZ.
    split.
    + intros Y m a b0 M A B. apply Rmult_integral in Y. destruct Y as [Y|Y]; [lra|]. rewrite <- (row_at_nth _ _ _ A), <- (row_at_nth _ _ _ B). apply SZ; auto.
    + intro H. assert (v = 0); [|subst; ring]. apply SZ. intros m M. apply (H m); auto; apply nth_error_nth'; lia.
Qed.

(** ** the unit of length *)
Lemma mti_coeff : forall h rows deg sx sn unit s rtol dt kw1 kw2,
  Survey h rows deg sx sn unit = Some s -> strictly_increasing (map st_md (sv_rows s)) ->
  0 < kwarg kw1 "coeff" 1 -> 0 < kwarg kw2 "coeff" 1 -> kwarg kw1 "kapa" 1 = kwarg kw2 "kapa" 1 ->
  (forall k i, (k < length (sv_rows s))%nat -> last_before (ti_starts s rtol dt) k i -> chord s i k <> 0) ->
  modified_tortuosity_index s rtol dt kw1 = modified_tortuosity_index s rtol dt kw2.
Proof.
  intros h rows deg sx sn unit s rtol dt kw1 kw2 HS INC C1 C2 K CH.
  destruct (mti_values _ _ _ _ _ _ _ rtol dt kw1 _ _ HS INC eq_refl eq_refl C1 CH) as (l1 & E1 & L1 & Z1 & V1).
  destruct (mti_values _ _ _ _ _ _ _ rtol dt kw2 _ _ HS INC eq_refl eq_refl C2 CH) as (l2 & E2 & L2 & Z2 & V2).
  rewrite E1, E2. f_equal. apply nth_error_ext. intro k. destruct k as [|k]; [congruence|].
  destruct (Nat.lt_ge_cases (S k) (length (sv_rows s))) as [C|C].
  - destruct (V1 (S k) ltac:(lia)) as (v1 & S1 & N1). destruct (V2 (S k) ltac:(lia)) as (v2 & S2 & N2). cbv zeta in N1, N2.
    rewrite N1, N2, K, (summed_unique _ _ _ _ _ S1 S2). reflexivity.
  - transitivity (@None ext); [|symmetry]; apply nth_error_None; lia.
Qed.
Lemma ti_coeff : forall h rows deg sx sn unit s rtol dt kw1 kw2 l1 l2,
  Survey h rows deg sx sn unit = Some s -> strictly_increasing (map st_md (sv_rows s)) ->
  0 < kwarg kw1 "coeff" (3048 / 10000) -> 0 < kwarg kw2 "coeff" (3048 / 10000) -> kwarg kw1 "kapa" (10 ^ 7) = kwarg kw2 "kapa" (10 ^ 7) ->
  (forall k i, (k < length (sv_rows s))%nat -> last_before (ti_starts s rtol dt) k i -> chord s i k <> 0) ->
  tortuosity_index s rtol dt kw1 = Some l1 -> tortuosity_index s rtol dt kw2 = Some l2 ->
  forall k, (k < length (sv_rows s))%nat -> exists x y, nth_error l1 k = Some (Fin x) /\ nth_error l2 k = Some (Fin y) /\
    x * kwarg kw2 "coeff" (3048 / 10000) = y * kwarg kw1 "coeff" (3048 / 10000).
Proof.
  intros h rows deg sx sn unit s rtol dt kw1 kw2 l1' l2' HS INC C1 C2 K CH T1 T2 k Hk.
  destruct (ti_values _ _ _ _ _ _ _ rtol dt kw1 _ _ HS INC eq_refl eq_refl C1 CH) as (l1 & E1 & L1 & Z1 & V1).
  destruct (ti_values _ _ _ _ _ _ _ rtol dt kw2 _ _ HS INC eq_refl eq_refl C2 CH) as (l2 & E2 & L2 & Z2 & V2).
  rewrite E1 in T1. rewrite E2 in T2. injection T1 as <-. injection T2 as <-.
  destruct k as [|k]; [exists 0, 0; split; auto; split; auto; ring|].
  destruct (V1 (S k) ltac:(lia)) as (v1 & S1 & N1). destruct (V2 (S k) ltac:(lia)) as (v2 & S2 & N2). cbv zeta in N1, N2.
  rewrite N1, N2. do 2 eexists. split; [reflexivity|]. split; [reflexivity|]. rewrite K, (summed_unique _ _ _ _ _ S1 S2). unfold Rdiv. ring.
Qed.

(** ** keywords *)
Lemma kwarg_other : forall kw name v x d, name <> x -> kwarg ((name, v) :: kw) x d = kwarg kw x d.
Proof.
  intros kw name v x d H. unfold kwarg. simpl. destruct (String.eqb name x) eqn:E; auto. apply String.eqb_eq in E. contradiction.
Qed.
Lemma ti_kappa_ignored : forall s rtol dt name v kw, name <> "coeff"%string -> name <> "kapa"%string ->
  tortuosity_index s rtol dt ((name, v) :: kw) = tortuosity_index s rtol dt kw /\
  modified_tortuosity_index s rtol dt ((name, v) :: kw) = modified_tortuosity_index s rtol dt kw.
Proof.
  intros s rtol dt name v kw N1 N2. unfold tortuosity_index, modified_tortuosity_index. rewrite !kwarg_other by auto. auto.
Qed.
Lemma ti_method_dls_tol : forall s rtol dt kw, survey_tortuosity_index s rtol dt kw = tortuosity_index s rtol None kw.
Proof. reflexivity. Qed.

(** ** directional difficulty index *)
Lemma rcumsum_nth : forall l acc k x, nth_error (rcumsum acc l) k = Some x -> x = acc + fold_right Rplus 0 (firstn (S k) l).
Proof.
  induction l as [|a l IH]; intros acc k x H; [destruct k; discriminate|]. destruct k as [|k].
  - injection H as <-. simpl. ring.
  - simpl in H. apply IH in H. rewrite H. change (firstn (S (S k)) (a :: l)) with (a :: firstn (S k) l). simpl. ring.
Qed.
Lemma rcumsum_length : forall l acc, length (rcumsum acc l) = length l.
Proof. induction l as [|a l IH]; intro acc; simpl; auto. Qed.
Lemma log10_spec : forall x, 0 < x -> Rpower 10 (ln x / ln 10) = x.
Proof.
  intros x Hx. unfold Rpower. assert (ln 10 <> 0). { apply Rgt_not_eq. rewrite <- ln_1. apply ln_increasing; lra. }
  replace (ln x / ln 10 * ln 10) with (ln x) by (field; auto). apply exp_ln; auto.
Qed.
Lemma ddi_values : forall h rows deg sx sn unit s, Survey h rows deg sx sn unit = Some s ->
  length (directional_difficulty_index s) = length (sv_rows s) /\
  forall k a p v, nth_error (sv_rows s) k = Some a -> nth_error (sv_nev s) k = Some p ->
    nth_error (directional_difficulty_index s) k = Some v ->
    let ft := 3048 / 10000 in
    let turned := fold_right Rplus 0 (map degrees (firstn (S k) (sv_dogleg s))) in
    let x := (st_md a / ft) * (sqrt (vx p ^ 2 + vy p ^ 2) / ft) * turned / (vz p / ft) in
    (vz p <> 0 -> 0 < x -> Rpower 10 v = x) /\ ((vz p <> 0 -> x <= 0) -> v = 0).
Proof.
  intros h rows deg sx sn unit s HS. destruct (Survey_stations _ _ _ _ _ _ _ HS) as (_ & L0 & _ & _ & LD & _ & _ & LN & _).
  split.
  { unfold directional_difficulty_index. rewrite map_length, !combine_length, rcumsum_length, map_length. unfold mds_of. rewrite map_length. lia. }
  intros k a p v A P V. cbv zeta. unfold directional_difficulty_index in V. rewrite nth_error_map in V.
  assert (KL : (k < length (sv_rows s))%nat) by (apply nth_error_Some; congruence).
  destruct (nth_error (rcumsum 0 (map degrees (sv_dogleg s))) k) as [d|] eqn:D.
  2:{ apply nth_error_None in D. rewrite rcumsum_length, map_length in D. lia. }
  rewrite (combine_nth_error _ _ _ _ k (st_md a, p) d) in V; auto.
  2:{ apply combine_nth_error; auto. unfold mds_of. rewrite nth_error_map, A. reflexivity. }
  cbn [option_map] in V. injection V as V. apply rcumsum_nth in D. rewrite Rplus_0_l, firstn_map in D. rewrite <- D.
  unfold meters_to_ft in V. set (x := st_md a / (3048 / 10000) * (sqrt (vx p ^ 2 + vy p ^ 2) / (3048 / 10000)) * d) in *.
  change (log10_or_zero (ediv x (vz p / (3048 / 10000))) = v) in V. clearbody x.
  destruct (Req_dec (vz p) 0) as [Z|NZ].
  - split; [intro; contradiction|]. intros _. rewrite <- V, Z. replace (0 / (3048 / 10000)) with 0 by (field; lra). unfold ediv. destruct (Req_EM_T 0 0); [|lra].
    destruct (Rlt_dec 0 x); [reflexivity|]. destruct (Rlt_dec x 0); reflexivity.
  - assert (vz p / (3048 / 10000) <> 0). { intro Q. apply NZ. apply (Rmult_eq_reg_r (/ (3048 / 10000))); [|apply Rinv_neq_0_compat; lra]. unfold Rdiv in *. lra. }
    rewrite ediv_ne in V by auto. split.
    + intros _ Q. rewrite <- V. unfold log10_or_zero. destruct (Rlt_dec 0 (x / (vz p / (3048 / 10000)))); [|contradiction]. apply log10_spec; auto.
    + intro Q. specialize (Q NZ). rewrite <- V. unfold log10_or_zero. destruct (Rlt_dec 0 (x / (vz p / (3048 / 10000)))); [lra|reflexivity].
Qed.
