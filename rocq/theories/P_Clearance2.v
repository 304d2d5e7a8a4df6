(** Sidetrack covariance below the kick-off point; closest points; sigmas. *)
Require Import Reals ZArith Bool String List Lra Lia Psatz.
Require Import Verif.Base Verif.NumPy Verif.P_Trig Verif.Spec Verif.Spec_Lists Verif.M_Utils Verif.P_Utils Verif.P_Utils2.
Require Import Verif.M_Survey Verif.P_Survey Verif.P_Survey2 Verif.P_Survey5.
Require Import Verif.M_Error Verif.Spec_Error Verif.P_Error Verif.P_Error2 Verif.M_Clearance Verif.P_Clearance Verif.Spec_Clearance.
Import ListNotations.
Open Scope R_scope.

Lemma nth_error_skipn : forall A (l : list A) i j, nth_error (skipn i l) j = nth_error l (i + j).
Proof. induction l; destruct i; simpl; intros; auto. destruct j; auto. Qed.
Lemma rabs_lt_iff : forall x t, rabs_lt x t = true <-> Rabs x < t.
Proof. intros. unfold rabs_lt. destruct (Rlt_dec _ _); split; intro; auto; discriminate || lra. Qed.
Lemma rabs_gt_iff : forall x t, rabs_gt x t = true <-> t < Rabs x.
Proof. intros. unfold rabs_gt. destruct (Rlt_dec _ _); split; intro; auto; discriminate || lra. Qed.
Lemma depth_only_iff : forall e, depth_only e = true <-> depth_only_source e.
Proof.
  intro e. unfold depth_only, depth_only_source. rewrite andb_true_iff, forallb_forall, existsb_exists. unfold tol.
  split; intros [A B]; split.
  - intros x I. specialize (A x I). rewrite andb_true_iff, !rabs_lt_iff in A. auto.
  - destruct B as (x & I & B). rewrite rabs_gt_iff in B. eauto.
  - intros x I. rewrite andb_true_iff, !rabs_lt_iff. auto.
  - destruct B as (x & I & B). exists x. rewrite rabs_gt_iff. auto.
Qed.

Lemma fold_entry : forall ki j (P : M3 -> Prop), P mzero -> (forall a b, P a -> P b -> P (madd a b)) ->
  forall errs acc n, length acc = n ->
  (forall v l, In v errs -> source_below ki v = Some l -> length l = n /\ (forall c, nth_error l j = Some c -> P c)) ->
  (forall c, nth_error acc j = Some c -> P c) ->
  let r := fold_left (fun acc v => match source_below ki v with Some c => map2 madd acc c | None => acc end) errs acc in
  length r = n /\ forall c, nth_error r j = Some c -> P c.
Proof.
  intros ki j P P0 PA. induction errs as [|v errs IH]; intros acc n L H HA; cbn [fold_left]. auto.
  apply IH; auto.
  - destruct (source_below ki v) eqn:E; auto. destruct (H v l) as [Q _]; simpl; auto. rewrite map2_length; congruence.
  - intros v' l I E. apply (H v'); simpl; auto.
  - destruct (source_below ki v) eqn:E; auto. destruct (H v l) as [Q Q']; simpl; auto.
    intros c. rewrite map2_nth. destruct (nth_error acc j), (nth_error l j); intro X; try discriminate.
    injection X; intro; subst c. apply PA; auto.
Qed.
Lemma zero_first_m_length : forall l, length (zero_first_m l) = length l.
Proof. destruct l; auto. Qed.
Lemma zero_first_m_nth : forall l k, nth_error (zero_first_m l) (S k) = nth_error l (S k).
Proof. destruct l; auto. Qed.

Section Below.
  Variables (rev4 : bool) (sv : list station) (ki : nat).
  Hypothesis H0 : (0 < length sv)%nat.
  Notation gen v := (from_generate (drdp rev4 sv) (length sv) (Some v)).

  Lemma gen_facts : forall v, gen v ->
    length (er_e_NEV v) = length sv /\ length (er_e_NEV_star v) = length sv /\ length (er_cov_NEV v) = length sv /\
    ((In (er_propagation v) ["systematic"; "global"; "within_pad"]%string /\
      er_cov_NEV v = map cov_from_vec (sigma_systematic (er_e_NEV v) (er_e_NEV_star v))) \/
     (er_propagation v = "random"%string /\ er_cov_NEV v = cov_random (er_e_NEV v) (er_e_NEV_star v))).
  Proof.
    intros v (code & ed & p & given & G & L). symmetry in G.
    destruct (generate_cases _ _ _ _ _ _ G) as (P & _ & E & K).
    assert (LL : length (er_e_NEV v) = length sv /\ length (er_e_NEV_star v) = length sv).
    { destruct given as [[a b]|].
      - injection E; intros -> ->. auto.
      - destruct (e_NEV_length rev4 sv ed H0 L). injection E; intros -> ->. auto. }
    destruct LL as [L1 L2]. split; auto. split; auto. split.
    - rewrite (cov_length _ _ _ _ _ _ G); lia.
    - rewrite P. destruct K as [K|K]; auto.
  Qed.
  Lemma source_cases : forall v, gen v ->
    (In (er_propagation v) ["systematic"; "global"; "within_pad"]%string /\
     let sigma := sigma_systematic (er_e_NEV v) (er_e_NEV_star v) in
     source_below ki v = Some (map (fun x => outer x x)
       (if depth_only (er_e_DIA v) then zero_first (skipn ki sigma)
        else map (fun x => vsub x (nth ki sigma vzero)) (skipn ki sigma)))) \/
    (er_propagation v = "random"%string /\
     source_below ki v = Some (if depth_only (er_e_DIA v) then zero_first_m (skipn ki (er_cov_NEV v))
        else map (fun m => msub m (nth ki (er_cov_NEV v) mzero)) (skipn ki (er_cov_NEV v)))).
  Proof.
    intros v G. destruct (gen_facts v G) as (_ & _ & _ & [[I _]|[P _]]).
    - left. split; auto. unfold source_below. simpl in I. destruct I as [E|[E|[E|[]]]]; rewrite <- E; reflexivity.
    - right. split; auto. unfold source_below. rewrite P. simpl. destruct (depth_only _); reflexivity.
  Qed.
  Lemma source_length : forall v l, gen v -> source_below ki v = Some l -> length l = (length sv - ki)%nat.
  Proof.
    intros v l G E. destruct (gen_facts v G) as (L1 & L2 & L3 & _).
    assert (LS : length (sigma_systematic (er_e_NEV v) (er_e_NEV_star v)) = length sv) by (rewrite sigma_length; congruence).
    destruct (source_cases v G) as [[_ S]|[_ S]]; cbv zeta in S; rewrite S in E; injection E; intro; subst l.
    - rewrite map_length. destruct (depth_only _); rewrite ?zero_first_length, ?map_length, skipn_length; lia.
    - destruct (depth_only _); rewrite ?zero_first_m_length, ?map_length, skipn_length; lia.
  Qed.
  Lemma source_kop : forall v l c, gen v -> source_below ki v = Some l -> nth_error l 0 = Some c -> c = mzero.
  Proof.
    intros v l c G E N. destruct (source_cases v G) as [[_ S]|[_ S]]; cbv zeta in S; rewrite S in E; injection E; intro; subst l; clear E S.
    - rewrite nth_error_map in N. destruct (depth_only _).
      + destruct (skipn _ _); simpl in N; [discriminate|]. injection N; intro; subst c. vring.
      + rewrite nth_error_map, nth_error_skipn, Nat.add_0_r in N.
        destruct (nth_error _ ki) eqn:Q; [|discriminate]. rewrite (nth_error_nth _ _ _ Q) in N. simpl in N.
        injection N; intro; subst c. rewrite vsub_self. vring.
    - destruct (depth_only _).
      + destruct (skipn _ _); simpl in N; [discriminate|]. injection N; auto.
      + rewrite nth_error_map, nth_error_skipn, Nat.add_0_r in N.
        destruct (nth_error _ ki) eqn:Q; [|discriminate]. rewrite (nth_error_nth _ _ _ Q) in N. simpl in N.
        injection N; intro; subst c. vring.
  Qed.
  Lemma source_sym : forall v l j c, gen v -> source_below ki v = Some l -> nth_error l j = Some c -> symmetric c.
  Proof.
    intros v l j c G E N. destruct (from_generate_ok rev4 sv v H0 G) as (_ & _ & SP).
    destruct (gen_facts v G) as (_ & _ & LC & _).
    destruct (source_cases v G) as [[_ S]|[_ S]]; cbv zeta in S; rewrite S in E; injection E; intro; subst l; clear E S.
    - rewrite nth_error_map in N. destruct (nth_error _ j); [|discriminate]. injection N; intro; subst c. apply sym_outer.
    - destruct (depth_only _).
      + destruct j. destruct (skipn _ _); simpl in N; [discriminate|injection N; intro; subst c; reflexivity].
        rewrite zero_first_m_nth, nth_error_skipn in N. apply SP in N. tauto.
      + rewrite nth_error_map, nth_error_skipn in N. destruct (nth_error _ (ki + j)) as [m|] eqn:Q; [|discriminate].
        injection N; intro; subst c. assert (ki + j < length (er_cov_NEV v))%nat by (apply nth_error_Some; congruence).
        destruct (nth_error_some_lt _ (er_cov_NEV v) ki ltac:(lia)) as [m0 Q0].
        rewrite (nth_error_nth _ _ _ Q0). apply SP in Q. apply SP in Q0. destruct Q as [Q _], Q0 as [Q0 _].
        unfold symmetric in *. transitivity (msub (mtrans m) (mtrans m0)). vring. congruence.
  Qed.

  (** the random source's difference of covariances *)
  Lemma random_diff : forall v j m m0 a a0, gen v -> er_propagation v = "random"%string ->
    nth_error (er_cov_NEV v) (ki + j) = Some m -> nth_error (er_cov_NEV v) ki = Some m0 ->
    nth_error (er_e_NEV_star v) (ki + j) = Some a -> nth_error (er_e_NEV_star v) ki = Some a0 ->
    msub m m0 = madd (msub (outer a a) (outer a0 a0))
      (msum (map (fun x => outer x x) (slice ki j (er_e_NEV v)))).
  Proof.
    intros v j m m0 a a0 G P Hm Hm0 Ha Ha0. destruct (gen_facts v G) as (L1 & L2 & _ & [[I _]|[_ C]]).
    { rewrite P in I. simpl in I. intuition discriminate. }
    rewrite C in Hm, Hm0. rewrite (random_nth _ _ _ a) in Hm by congruence. rewrite (random_nth _ _ _ a0) in Hm0 by congruence.
    injection Hm; injection Hm0; intros; subst m m0. clear Hm Hm0.
    assert (F : firstn (ki + j) (er_e_NEV v) = firstn ki (er_e_NEV v) ++ slice ki j (er_e_NEV v)).
    { unfold slice. clear. revert ki. induction (er_e_NEV v); intros [|k]; simpl; auto. rewrite firstn_nil. auto. f_equal. auto. }
    rewrite F, map_app, msum_app. set (x := msum _). set (y := msum _). clearbody x y. vring.
  Qed.
  Lemma sigma_diff : forall v j, gen v -> (ki + j < length sv)%nat ->
    nth_error (er_e_NEV v) 0 = Some vzero ->
    exists a a0, nth_error (er_e_NEV_star v) (ki + j) = Some a /\ nth_error (er_e_NEV_star v) ki = Some a0 /\
    vsub (nth (ki + j) (sigma_systematic (er_e_NEV v) (er_e_NEV_star v)) vzero)
         (nth ki (sigma_systematic (er_e_NEV v) (er_e_NEV_star v)) vzero)
    = vadd (vsub a a0) (vsum (slice ki j (er_e_NEV v))).
  Proof.
    intros v j G Hj Hz. destruct (gen_facts v G) as (L1 & L2 & _).
    destruct (nth_error_some_lt _ (er_e_NEV_star v) (ki + j) ltac:(lia)) as [a Ha].
    destruct (nth_error_some_lt _ (er_e_NEV_star v) ki ltac:(lia)) as [a0 Ha0].
    exists a, a0. split; auto. split; auto.
    assert (LL : length (er_e_NEV v) = length (er_e_NEV_star v)) by congruence.
    rewrite (nth_error_nth _ _ vzero (sigma_nth _ _ _ a LL Ha)).
    rewrite (nth_error_nth _ _ vzero (sigma_nth _ _ _ a0 LL Ha0)).
    assert (Z : vsum (firstn 1 (er_e_NEV v)) = vsum (firstn 0 (er_e_NEV v))).
    { destruct (er_e_NEV v); auto. simpl in Hz. injection Hz; intro; subst. simpl. unfold vsum; simpl. vring. }
    assert (M : forall k, match k with O => vsum (firstn 1 (er_e_NEV v)) | S _ => vsum (firstn k (er_e_NEV v)) end = vsum (firstn k (er_e_NEV v))).
    { intros [|k]; auto. }
    rewrite !M.
    assert (F : firstn (ki + j) (er_e_NEV v) = firstn ki (er_e_NEV v) ++ slice ki j (er_e_NEV v)).
    { unfold slice. clear. revert ki. induction (er_e_NEV v); intros [|k]; simpl; auto. rewrite firstn_nil. auto. f_equal. auto. }
    rewrite F, vsum_app. set (x := vsum _). set (y := vsum _). clearbody x y. vring.
  Qed.
End Below.

(** the vectors of a source without depth errors under the revision-4 matrix are
    parallel at each station *)
Lemma star_parallel : forall sv e k s, strictly_increasing (map st_md sv) -> length e = length sv ->
  (forall x, In x e -> vx x = 0) -> nth_error sv k = Some s -> (S k < length sv)%nat ->
  exists c x, 0 <= c <= 1 /\ nth_error (e_NEV (drdp true sv) e) k = Some x /\
    nth_error (e_NEV_star (drdp true sv) e) k = Some (vscale c x).
Proof.
  intros sv e k s Hinc HL HX Hs HN.
  assert (k < length sv)%nat by (apply nth_error_Some; congruence).
  assert (LD : length (drdp true sv) = length sv) by (apply drdp_length; lia).
  destruct k as [|k].
  { exists 0, vzero. split; [lra|]. unfold e_NEV, e_NEV_star.
    destruct (drdp true sv); [simpl in *; lia|]. destruct e; [simpl in *; lia|]. split; [reflexivity|]. simpl.
    f_equal. vring. }
  unfold e_NEV, e_NEV_star. rewrite !zero_first_nth, !map2_nth, (drdp_nth _ _ _ s) by auto.
  destruct (nth_error_some_lt _ e (S k) ltac:(lia)) as [x Hx]. rewrite Hx.
  destruct (nth_error_some_lt _ sv k ltac:(lia)) as [p Hp].
  destruct (nth_error_some_lt _ sv (S (S k)) ltac:(lia)) as [n Hn].
  unfold before. rewrite Hp, Hn.
  assert (M1 : st_md p < st_md s).
  { eapply (increasing_nth_lt (map st_md sv) k (S k)); auto; rewrite nth_error_map; [rewrite Hp|rewrite Hs]; auto. }
  assert (M2 : st_md s < st_md n).
  { eapply (increasing_nth_lt (map st_md sv) (S k) (S (S k))); auto; rewrite nth_error_map; [rewrite Hs|rewrite Hn]; auto. }
  assert (X0 : vx x = 0) by (apply HX; eapply nth_error_In; eauto).
  set (h1 := half_dmd p s). set (h2 := half_dmd s n).
  assert (0 < h1) by (unfold h1, half_dmd; lra). assert (0 < h2) by (unfold h2, half_dmd; lra).
  exists (h1 / (h1 + h2)). eexists. split; [|split; [reflexivity|]].
  { split. unfold Rdiv. apply Rmult_le_pos; [lra|left; apply Rinv_0_lt_compat; lra].
    apply (Rmult_le_reg_r (h1 + h2)); [lra|]. unfold Rdiv. rewrite Rmult_assoc, Rinv_l; lra. }
  f_equal. unfold row_spec, e_NEV_star_row, e_NEV_row, dbl. cbn [d_depth d_inc d_az d_depth1 d_inc1 d_az1].
  rewrite X0. unfold drdp_inc_at, drdp_az_at. fold h1 h2. unf. f_equal; field; lra.
Qed.

Lemma msum_outer_psd : forall l, psd (msum (map (fun x : V3 => outer x x) l)).
Proof.
  intro l. apply psd_msum. intros m I. apply in_map_iff in I. destruct I as (x & <- & _).
  split; [apply psd_outer|apply sym_outer].
Qed.

(** ** C30 *)
Lemma below_kop_zero : forall rev4 sv ki errs, (ki < length sv)%nat ->
  Forall (fun v => from_generate (drdp rev4 sv) (length sv) (Some v)) errs ->
  length (cov_below_kop (length sv) ki errs) = (length sv - ki)%nat /\
  nth_error (cov_below_kop (length sv) ki errs) 0 = Some mzero /\
  forall j c, nth_error (cov_below_kop (length sv) ki errs) j = Some c -> symmetric c.
Proof.
  intros rev4 sv ki errs Hk G. rewrite Forall_forall in G.
  assert (H0 : (0 < length sv)%nat) by lia.
  pose proof (fold_entry ki 0 (fun c => c = mzero) eq_refl ltac:(cbv beta; intros; subst; apply madd_0_r) errs (repeat mzero (length sv - ki)) _ (repeat_length _ _)) as F.
  cbv zeta in F. unfold cov_below_kop. destruct F as [L Z].
  - intros v l I E. split; [eapply source_length; eauto|]. intros. eapply source_kop; eauto.
  - intros c N. apply nth_error_In, repeat_spec in N. auto.
  - split; auto. split.
    + destruct (nth_error_some_lt _ _ 0%nat ltac:(rewrite L; lia)) as [c Hc]. rewrite Hc. f_equal. auto.
    + intros j. 
      pose proof (fold_entry ki j symmetric sym_mzero sym_madd errs (repeat mzero (length sv - ki)) _ (repeat_length _ _)) as F.
      cbv zeta in F. destruct F as [_ F]; auto.
      * intros v l I E. split; [eapply source_length; eauto|]. intros. eapply source_sym; eauto.
      * intros c N. apply nth_error_In, repeat_spec in N. subst. reflexivity.
Qed.
Lemma below_kop_psd : forall rev4 sv ki errs, (ki < length sv)%nat -> strictly_increasing (map st_md sv) ->
  Forall (fun v => exists code e p, Some v = generate_error (drdp rev4 sv) code e p None /\ length e = length sv) errs ->
  Forall (fun v => er_propagation v <> "random"%string \/ depth_only_source (er_e_DIA v) \/
                   rev4 = true /\ forall x, In x (er_e_DIA v) -> vx x = 0) errs ->
  forall j c, nth_error (cov_below_kop (length sv) ki errs) j = Some c -> psd c.
Proof.
  intros rev4 sv ki errs Hk Hinc G S j. rewrite Forall_forall in G, S.
  assert (H0 : (0 < length sv)%nat) by lia.
  assert (GG : forall v, In v errs -> from_generate (drdp rev4 sv) (length sv) (Some v)).
  { intros v I. destruct (G v I) as (code & e & p & A & B). exists code, e, p, None. auto. }
  pose proof (fold_entry ki j psd psd_mzero psd_madd errs (repeat mzero (length sv - ki)) _ (repeat_length _ _)) as F.
  cbv zeta in F. destruct F as [_ F]; auto.
  2: { intros c N. apply nth_error_In, repeat_spec in N. subst. apply psd_mzero. }
  intros v l I E. split; [eapply source_length; eauto|]. intros c N.
  destruct (gen_facts rev4 sv H0 v (GG v I)) as (L1 & L2 & LC & _).
  destruct (source_cases rev4 sv ki H0 v (GG v I)) as [[_ Q]|[P Q]]; cbv zeta in Q; rewrite Q in E; injection E; intro; subst l; clear E.
  { rewrite nth_error_map in N. destruct (nth_error _ j); [|discriminate]. injection N; intro; subst c. apply psd_outer. }
  destruct (from_generate_ok rev4 sv v H0 (GG v I)) as (_ & _ & SP).
  destruct (depth_only (er_e_DIA v)) eqn:D.
  { destruct j. destruct (skipn _ _); simpl in N; [discriminate|injection N; intro; subst c; apply psd_mzero].
    rewrite zero_first_m_nth, nth_error_skipn in N. apply SP in N. tauto. }
  destruct (S v I) as [S1|[S1|[-> S1]]]; [contradiction|apply depth_only_iff in S1; congruence|].
  rewrite nth_error_map, nth_error_skipn in N. destruct (nth_error (er_cov_NEV v) (ki + j)) as [m|] eqn:Em; [|discriminate].
  assert (ki + j < length sv)%nat by (rewrite <- LC; apply nth_error_Some; congruence).
  destruct (nth_error_some_lt _ (er_cov_NEV v) ki ltac:(lia)) as [m0 Em0]. rewrite (nth_error_nth _ _ _ Em0) in N.
  injection N; intro; subst c.
  destruct (nth_error_some_lt _ (er_e_NEV_star v) (ki + j) ltac:(lia)) as [a Ea].
  destruct (nth_error_some_lt _ (er_e_NEV_star v) ki ltac:(lia)) as [a0 Ea0].
  destruct j as [|j].
  { rewrite Nat.add_0_r in *. rewrite Em in Em0. injection Em0; intro; subst m0. intro w.
    replace (qform (msub m m) w) with 0 by vring. lra. }
  rewrite (random_diff true sv ki H0 v (Datatypes.S j) m m0 a a0 (GG v I) P Em Em0 Ea Ea0).
  destruct (G v I) as (code & e & p & A & B). symmetry in A.
  assert (DI : er_e_DIA v = e).
  { unfold generate_error in A. destruct (String.eqb p "systematic"), (String.eqb p "global"), (String.eqb p "within_pad"), (String.eqb p "random");
    simpl in A; try discriminate; injection A; intro; subst v; reflexivity. }
  rewrite DI in S1.
  destruct (generate_cases _ _ _ _ _ _ A) as (_ & _ & X & _). injection X; intros X2 X1.
  destruct (nth_error_some_lt _ sv ki Hk) as [s Hs].
  destruct (star_parallel sv e ki s Hinc B S1 Hs ltac:(lia)) as (k & x & Kb & Hx & Hx').
  rewrite X2, Hx' in Ea0. injection Ea0; intro; subst a0.
  assert (SL : slice ki (Datatypes.S j) (er_e_NEV v) = x :: slice (Datatypes.S ki) j (er_e_NEV v)).
  { rewrite X1. unfold slice. clear - Hx. revert ki Hx. induction (M_Error.e_NEV _ _); intros [|k] H; simpl in H; try discriminate.
    injection H; intro; subst. reflexivity. simpl. destruct l; [destruct k; discriminate|]. apply IHl in H. exact H. }
  rewrite SL. cbn [map]. unfold msum. cbn [fold_right]. fold (msum (map (fun x => outer x x) (slice (Datatypes.S ki) j (er_e_NEV v)))).
  pose proof (msum_outer_psd (slice (Datatypes.S ki) j (er_e_NEV v))) as PS. set (y := msum _) in *. clearbody y.
  intro w. specialize (PS w). rewrite !qform_madd, qform_outer.
  assert (E1 : qform (msub (outer a a) (outer (vscale k x) (vscale k x))) w = dot a w * dot a w - k * k * (dot x w * dot x w)) by vring.
  rewrite E1. assert (k * k <= 1) by nra. nra.
Qed.
(** one systematic source *)
Lemma below_kop_systematic : forall rev4 sv ki v j, (ki + j < length sv)%nat ->
  (exists code e p, Some v = generate_error (drdp rev4 sv) code e p None /\ length e = length sv) ->
  er_propagation v <> "random"%string -> ~ depth_only_source (er_e_DIA v) ->
  exists a a0, nth_error (er_e_NEV_star v) (ki + j) = Some a /\ nth_error (er_e_NEV_star v) ki = Some a0 /\
    let since := vadd (vsub a a0) (vsum (slice ki j (er_e_NEV v))) in
    nth_error (cov_below_kop (length sv) ki [v]) j = Some (outer since since).
Proof.
  intros rev4 sv ki v j Hj (code & e & p & A & B) NR ND.
  assert (H0 : (0 < length sv)%nat) by lia.
  assert (G : from_generate (drdp rev4 sv) (length sv) (Some v)) by (exists code, e, p, None; auto).
  assert (Z : nth_error (er_e_NEV v) 0 = Some vzero).
  { symmetry in A. destruct (generate_cases _ _ _ _ _ _ A) as (_ & _ & X & _). injection X; intros _ X1. rewrite X1.
    unfold M_Error.e_NEV. pose proof (drdp_length rev4 sv H0). destruct (drdp rev4 sv); [simpl in *; lia|]. destruct e; [simpl in *; lia|]. reflexivity. }
  destruct (sigma_diff rev4 sv ki H0 v j G Hj Z) as (a & a0 & Ha & Ha0 & E).
  exists a, a0. split; auto. split; auto. intro since. fold since in E.
  destruct (gen_facts rev4 sv H0 v G) as (L1 & L2 & _).
  assert (LS : length (sigma_systematic (er_e_NEV v) (er_e_NEV_star v)) = length sv) by (rewrite sigma_length; congruence).
  destruct (source_cases rev4 sv ki H0 v G) as [[_ S]|[P _]]; [|contradiction]. cbv zeta in S.
  assert (D : depth_only (er_e_DIA v) = false) by (destruct (depth_only (er_e_DIA v)) eqn:D; auto; apply depth_only_iff in D; tauto).
  rewrite D in S. unfold cov_below_kop. cbn [fold_left]. rewrite S.
  rewrite map2_nth, !nth_error_map, nth_error_skipn.
  destruct (nth_error_some_lt _ (sigma_systematic (er_e_NEV v) (er_e_NEV_star v)) (ki + j) ltac:(lia)) as [x Hx].
  rewrite (nth_error_nth _ _ vzero Hx) in E. rewrite Hx. simpl option_map. rewrite E.
  destruct (nth_error_some_lt _ (repeat mzero (length sv - ki)) j ltac:(rewrite repeat_length; lia)) as [y Hy].
  rewrite Hy. apply nth_error_In, repeat_spec in Hy. subst y. f_equal. clearbody since. vring.
Qed.
(** kick-off index *)
Lemma kop_index_spec : forall mds d, strictly_increasing mds ->
  let ki := kop_index mds (Some d) in
  (ki <= length mds)%nat /\
  (forall k m, nth_error mds k = Some m -> (k < ki)%nat -> m < d) /\
  (forall k m, nth_error mds k = Some m -> (ki <= k)%nat -> d <= m).
Proof.
  intros mds d Hi ki. unfold ki, kop_index. split. apply ss_left_le. split.
  - intros k m N L. eapply ss_left_below; eauto.
  - intros k m N L.
    assert (k < length mds)%nat by (apply nth_error_Some; congruence).
    destruct (nth_error_some_lt _ mds (searchsorted_left mds d) ltac:(lia)) as [m0 N0].
    pose proof (ss_left_at _ _ _ N0). destruct (Nat.eq_dec (searchsorted_left mds d) k) as [E|E].
    + rewrite E in N0. congruence.
    + pose proof (increasing_nth_lt mds (searchsorted_left mds d) k m0 m Hi ltac:(lia) N0 N). lra.
Qed.
