(** Separation rule, pedal radii, bearings, mesh separation factor. *)
Require Import Reals ZArith Bool String List Lra Lia Psatz.
Require Import Verif.Base Verif.NumPy Verif.P_Trig Verif.Spec Verif.M_Utils Verif.P_Utils Verif.P_Utils2.
Require Import Verif.M_Survey Verif.M_Error Verif.P_Error Verif.M_Clearance.
Import ListNotations.
Open Scope R_scope.

Lemma sinj : forall A (a b : A), Some a = Some b -> a = b.
Proof. intros A a b H. injection H. auto. Qed.
Lemma unit_or_zero_scale : forall v d, d <> 0 -> unit_or_zero v d = vscale (/ d) v.
Proof. intros v d H. unfold unit_or_zero. destruct (Req_EM_T d 0); [tauto|]. destruct v; unf. f_equal; field; auto. Qed.
Lemma delta_along : forall inc azi p q, p <> q ->
  let d := delta_vectors inc azi p q in
  dl_distance d = dist p q /\ 0 < dl_distance d /\
  points_along (vsub q p) (dl_ref_nev d) /\ dl_off_nev d = vneg (dl_ref_nev d).
Proof.
  intros inc azi p q N d. unfold d, delta_vectors. cbn [dl_distance dl_ref_nev dl_off_nev].
  assert (D : norm (vsub q p) = dist p q).
  { unfold dist. rewrite <- (norm_vneg (vsub p q)). f_equal. vring. }
  assert (P : 0 < norm (vsub q p)).
  { apply norm_pos. intro Z. apply N. destruct p, q; unfold vsub, vzero in Z; simpl in Z. injection Z; intros. f_equal; lra. }
  split; auto. split; auto. rewrite !unit_or_zero_scale by lra.
  split.
  - split.
    + unfold is_unit. rewrite dot_vscale_l, dot_vscale_r. pose proof (norm_sqr (vsub q p)) as S. rewrite <- S. field. lra.
    + exists (norm (vsub q p)). split; auto. rewrite vscale_vscale, Rinv_r by lra. rewrite vscale_1. auto.
  - destruct p, q; unf. f_equal; field; lra.
Qed.
Lemma delta_same : forall inc azi p,
  let d := delta_vectors inc azi p p in
  dl_distance d = 0 /\ dl_ref_nev d = vzero /\ dl_off_nev d = vzero.
Proof.
  intros inc azi p d. unfold d, delta_vectors. cbn [dl_distance dl_ref_nev dl_off_nev].
  rewrite vsub_self, norm_vzero. unfold unit_or_zero. destruct (Req_EM_T 0 0) as [_|N]; [auto|elim N; auto].
Qed.

(** ** C29 *)
Lemma pcr_some : forall d c, 0 <= qform c d -> pcr d c = Some (sqrt (qform c d)).
Proof. intros. unfold pcr, nsqrt. destruct (Rlt_dec _ _); [lra|auto]. Qed.
Lemma qform_trace : forall c u,
  trace c * dot u u - qform c u
  = qform c (cross (mkV 1 0 0) u) + qform c (cross (mkV 0 1 0) u) + qform c (cross (mkV 0 0 1) u).
Proof. vring. Qed.
Lemma pedal_spec : forall inc azi p q cov, p <> q -> psd cov ->
  exists u s, points_along (vsub q p) u /\
    pcr (dl_ref_nev (delta_vectors inc azi p q)) cov = Some s /\
    0 <= s /\ s * s = qform cov u /\ s <= sqrt (trace cov) /\
    pcr (dl_off_nev (delta_vectors inc azi p q)) cov = Some s.
Proof.
  intros inc azi p q cov N P. destruct (delta_along inc azi p q N) as (_ & _ & A & O).
  exists (dl_ref_nev (delta_vectors inc azi p q)), (sqrt (qform cov (dl_ref_nev (delta_vectors inc azi p q)))).
  split; auto. split. apply pcr_some. apply P. split. apply sqrt_pos.
  split. apply sqrt_sqrt. apply P.
  split.
  - apply sqrt_le_1_alt. pose proof (qform_trace cov (dl_ref_nev (delta_vectors inc azi p q))) as T.
    destruct A as [U _]. unfold is_unit in U. rewrite U in T.
    pose proof (P (cross (mkV 1 0 0) (dl_ref_nev (delta_vectors inc azi p q)))).
    pose proof (P (cross (mkV 0 1 0) (dl_ref_nev (delta_vectors inc azi p q)))).
    pose proof (P (cross (mkV 0 0 1) (dl_ref_nev (delta_vectors inc azi p q)))). lra.
  - rewrite O. unfold pcr. rewrite qform_vneg. apply pcr_some. apply P.
Qed.
Lemma pedal_coincide : forall inc azi p cov,
  pcr (dl_ref_nev (delta_vectors inc azi p p)) cov = Some 0 /\
  pcr (dl_off_nev (delta_vectors inc azi p p)) cov = Some 0.
Proof.
  intros. destruct (delta_same inc azi p) as (_ & A & B). rewrite A, B.
  assert (Q : qform cov vzero = 0) by vring. rewrite pcr_some; rewrite Q; [|lra]. rewrite sqrt_0. auto.
Qed.
Lemma pedal_additive : forall d a b s t, psd a -> psd b -> pcr d a = Some s -> pcr d b = Some t ->
  exists r, pcr d (madd a b) = Some r /\ 0 <= r /\ r * r = s * s + t * t.
Proof.
  intros d a b s t A B Ha Hb. rewrite pcr_some in Ha, Hb by auto. injection Ha; injection Hb; intros; subst s t.
  exists (sqrt (qform (madd a b) d)). split. apply pcr_some. apply psd_madd; auto.
  split. apply sqrt_pos. rewrite !sqrt_sqrt; auto. apply qform_madd. apply psd_madd; auto.
Qed.
Lemma pedal_nan : forall d c, pcr d c = None <-> qform c d < 0.
Proof. intros. unfold pcr, nsqrt. destruct (Rlt_dec _ _); split; intro; auto; try discriminate; lra. Qed.
Lemma delta_swap : forall inc azi inc' azi' p q,
  dl_distance (delta_vectors inc azi p q) = dl_distance (delta_vectors inc' azi' q p) /\
  dl_ref_nev (delta_vectors inc azi p q) = dl_off_nev (delta_vectors inc' azi' q p) /\
  dl_off_nev (delta_vectors inc azi p q) = dl_ref_nev (delta_vectors inc' azi' q p).
Proof.
  intros. unfold delta_vectors. cbn [dl_distance dl_ref_nev dl_off_nev].
  assert (E : norm (vsub q p) = norm (vsub p q)) by (rewrite <- (norm_vneg (vsub p q)); f_equal; vring).
  rewrite E. auto.
Qed.
Lemma swap_roles : forall k spa Sm Rr Ro inc azi inc' azi' p q rc oc r,
  iscwsa_rule k spa Sm Rr Ro inc azi p q rc oc = Some r ->
  exists r', iscwsa_rule k spa Sm Ro Rr inc' azi' q p oc rc = Some r' /\
    ru_distance r' = ru_distance r /\ ru_sigmaS r' = ru_sigmaS r /\
    ru_ref_pcr r' = ru_off_pcr r /\ ru_off_pcr r' = ru_ref_pcr r /\
    ru_masd r' = ru_masd r /\ ru_eou_separation r' = ru_eou_separation r /\ ru_sf r' = ru_sf r.
Proof.
  intros k spa Sm Rr Ro inc azi inc' azi' p q rc oc r H. unfold iscwsa_rule in *.
  destruct (delta_swap inc azi inc' azi' p q) as (E1 & E2 & E3). rewrite E1, E2, E3 in H.
  destruct (pcr (dl_off_nev (delta_vectors inc' azi' q p)) rc) as [a|]; [|discriminate].
  destruct (pcr (dl_ref_nev (delta_vectors inc' azi' q p)) oc) as [b|]; [|discriminate].
  apply sinj in H; subst r. eexists. split; [reflexivity|].
  cbn [ru_distance ru_ref_pcr ru_off_pcr ru_sigmaS ru_masd ru_eou_separation ru_sf].
  rewrite (Rplus_comm (b ^ 2) (a ^ 2)), (Rplus_comm Ro Rr). repeat split; auto.
Qed.

(** ** C28 *)
Lemma rule_fields : forall k spa Sm Rr Ro inc azi p q rc oc r,
  iscwsa_rule k spa Sm Rr Ro inc azi p q rc oc = Some r ->
  ru_distance r = dist p q /\
  0 <= ru_ref_pcr r /\ 0 <= ru_off_pcr r /\
  ru_eou_boundary r = k * sqrt (ru_ref_pcr r ^ 2 + ru_off_pcr r ^ 2 + spa ^ 2) /\
  ru_masd r = Rr + Ro + Sm + ru_eou_boundary r /\
  ru_wellbore_separation r = dist p q - (Rr + Ro + Sm) /\
  ru_eou_separation r = dist p q - ru_masd r /\
  ru_sf r = ediv (dist p q - (Rr + Ro + Sm)) (ru_eou_boundary r).
Proof.
  intros k spa Sm Rr Ro inc azi p q rc oc r H. unfold iscwsa_rule in H.
  destruct (pcr _ rc) as [a|] eqn:Ea; [|discriminate]. destruct (pcr _ oc) as [b|] eqn:Eb; [|discriminate].
  apply sinj in H; subst r.
  cbn [ru_distance ru_ref_pcr ru_off_pcr ru_eou_boundary ru_masd ru_wellbore_separation ru_eou_separation ru_sf].
  assert (D : dl_distance (delta_vectors inc azi p q) = dist p q).
  { unfold delta_vectors, dist. cbn [dl_distance]. rewrite <- (norm_vneg (vsub p q)). f_equal. vring. }
  rewrite D.
  assert (Pa : 0 <= a) by (unfold pcr, nsqrt in Ea; destruct (Rlt_dec _ _); [discriminate|injection Ea; intro; subst a; apply sqrt_pos]).
  assert (Pb : 0 <= b) by (unfold pcr, nsqrt in Eb; destruct (Rlt_dec _ _); [discriminate|injection Eb; intro; subst b; apply sqrt_pos]).
  assert (S : sqrt (a ^ 2 + b ^ 2) ^ 2 = a ^ 2 + b ^ 2).
  { rewrite <- Rsqr_pow2. apply Rsqr_sqrt. nra. }
  rewrite S. repeat split; auto; try ring. f_equal. ring.
Qed.
Lemma rule_decisions : forall k spa Sm Rr Ro inc azi p q rc oc r,
  iscwsa_rule k spa Sm Rr Ro inc azi p q rc oc = Some r -> 0 < ru_eou_boundary r ->
  exists sf, ru_sf r = Fin sf /\
    (1 <= sf <-> ru_masd r <= dist p q) /\ (0 <= sf <-> Rr + Ro + Sm <= dist p q) /\
    sf = 1 + ru_eou_separation r / ru_eou_boundary r /\
    (1 <= sf <-> 0 <= ru_eou_separation r).
Proof.
  intros k spa Sm Rr Ro inc azi p q rc oc r H B.
  destruct (rule_fields _ _ _ _ _ _ _ _ _ _ _ _ H) as (_ & _ & _ & _ & M & W & E & S).
  rewrite S. unfold ediv. destruct (Req_EM_T (ru_eou_boundary r) 0); [lra|].
  eexists. split; [reflexivity|]. rewrite E, M. set (b := ru_eou_boundary r) in *. set (h := Rr + Ro + Sm).
  assert (Q : (dist p q - h) / b * b = dist p q - h) by (field; lra).
  split; [|split; [|split]].
  - split; intro; nra.
  - split; intro K. nra. destruct (Rle_dec 0 ((dist p q - h) / b)); auto. nra.
  - field. lra.
  - split; intro; nra.
Qed.
Lemma rule_no_uncertainty : forall k spa Sm Rr Ro inc azi p q rc oc r, 0 < k ->
  iscwsa_rule k spa Sm Rr Ro inc azi p q rc oc = Some r ->
  0 <= ru_eou_boundary r /\
  (ru_eou_boundary r = 0 <-> spa = 0 /\ ru_ref_pcr r = 0 /\ ru_off_pcr r = 0) /\
  (ru_eou_boundary r = 0 -> ru_sf r = (if Rlt_dec (Rr + Ro + Sm) (dist p q) then PInf
                                      else if Rlt_dec (dist p q) (Rr + Ro + Sm) then NInf else NaN)).
Proof.
  intros k spa Sm Rr Ro inc azi p q rc oc r Hk H.
  destruct (rule_fields _ _ _ _ _ _ _ _ _ _ _ _ H) as (_ & A & B & E & _ & _ & _ & S).
  assert (0 <= ru_ref_pcr r ^ 2) by nra. assert (0 <= ru_off_pcr r ^ 2) by nra. assert (0 <= spa ^ 2) by nra.
  split; [|split].
  - rewrite E. apply Rmult_le_pos; [lra|apply sqrt_pos].
  - rewrite E. split.
    + intro K. apply Rmult_integral in K. destruct K as [K|K]; [lra|].
      apply sqrt_eq_0 in K; [|lra]. repeat split; nra.
    + intros (-> & -> & ->). replace (0 ^ 2 + 0 ^ 2 + 0 ^ 2) with 0 by ring. rewrite sqrt_0. ring.
  - intro Z. rewrite S, Z. unfold ediv. destruct (Req_EM_T 0 0) as [_|N]; [|elim N; auto].
    destruct (Rlt_dec 0 (dist p q - (Rr + Ro + Sm))), (Rlt_dec (Rr + Ro + Sm) (dist p q)); try lra; auto.
    destruct (Rlt_dec (dist p q - (Rr + Ro + Sm)) 0), (Rlt_dec (dist p q) (Rr + Ro + Sm)); try lra; auto.
Qed.
Lemma div_mono : forall w w' b b', 0 < b <= b' -> w' <= w -> 0 <= w' -> w' / b' <= w / b.
Proof.
  intros w w' b b' Hb Hw H0. assert (Q : w / b * b = w) by (field; lra). assert (Q' : w' / b' * b' = w') by (field; lra).
  assert (0 <= w' / b') by (unfold Rdiv; apply Rmult_le_pos; [lra|left; apply Rinv_0_lt_compat; lra]).
  destruct (Rle_dec (w' / b') (w / b)); auto. nra.
Qed.
Lemma div_mono_neg : forall w b b', 0 < b <= b' -> w <= 0 -> w / b <= w / b'.
Proof.
  intros w b b' Hb Hw. pose proof (div_mono (- w) (- w) b b' Hb (Rle_refl _) ltac:(lra)).
  unfold Rdiv in *. rewrite !Ropp_mult_distr_l_reverse in H. lra.
Qed.
Lemma pcr_mono : forall d a b s t, psd (msub b a) -> pcr d a = Some s -> pcr d b = Some t -> s <= t.
Proof.
  intros d a b s t P A B. unfold pcr, nsqrt in *. destruct (Rlt_dec (qform a d) 0); [discriminate|].
  destruct (Rlt_dec (qform b d) 0); [discriminate|]. injection A; injection B; intros; subst. apply sqrt_le_1_alt.
  pose proof (P d). rewrite qform_msub in H. lra.
Qed.
Lemma eou_mono : forall k spa Sm Rr Ro k' spa' Sm' Rr' Ro' inc azi p q rc oc rc' oc' r r',
  0 < k <= k' -> Rabs spa <= Rabs spa' -> psd (msub rc' rc) -> psd (msub oc' oc) ->
  iscwsa_rule k spa Sm Rr Ro inc azi p q rc oc = Some r ->
  iscwsa_rule k' spa' Sm' Rr' Ro' inc azi p q rc' oc' = Some r' ->
  ru_eou_boundary r <= ru_eou_boundary r'.
Proof.
  intros k spa Sm Rr Ro k' spa' Sm' Rr' Ro' inc azi p q rc oc rc' oc' r r' Hk Hs Pr Po H H'.
  destruct (rule_fields _ _ _ _ _ _ _ _ _ _ _ _ H) as (_ & A & B & E & _).
  destruct (rule_fields _ _ _ _ _ _ _ _ _ _ _ _ H') as (_ & A' & B' & E' & _).
  assert (ru_ref_pcr r <= ru_ref_pcr r' /\ ru_off_pcr r <= ru_off_pcr r') as [L1 L2].
  { unfold iscwsa_rule in H, H'.
    destruct (pcr _ rc) as [a|] eqn:Ea; [|discriminate]. destruct (pcr _ oc) as [b|] eqn:Eb; [|discriminate].
    destruct (pcr _ rc') as [a'|] eqn:Ea'; [|discriminate]. destruct (pcr _ oc') as [b'|] eqn:Eb'; [|discriminate].
    apply sinj in H; apply sinj in H'; subst r r'. cbn [ru_ref_pcr ru_off_pcr].
    split; [exact (pcr_mono _ _ _ _ _ Pr Ea Ea')|exact (pcr_mono _ _ _ _ _ Po Eb Eb')]. }
  rewrite E, E'. apply Rmult_le_compat; try lra. apply sqrt_pos. apply sqrt_le_1_alt.
  assert (spa ^ 2 <= spa' ^ 2).
  { rewrite <- !Rsqr_pow2. apply Rsqr_le_abs_1. auto. }
  assert (ru_ref_pcr r ^ 2 <= ru_ref_pcr r' ^ 2) by (apply pow_incr; lra).
  assert (ru_off_pcr r ^ 2 <= ru_off_pcr r' ^ 2) by (apply pow_incr; lra). lra.
Qed.
(** more uncertainty, bigger holes or margin: not separated better, as long as
    the wells do not touch *)
Lemma rule_mono : forall k spa Sm Rr Ro k' spa' Sm' Rr' Ro' inc azi p q rc oc rc' oc' r r' sf sf',
  0 < k <= k' -> Rabs spa <= Rabs spa' -> Sm <= Sm' -> Rr <= Rr' -> Ro <= Ro' ->
  psd (msub rc' rc) -> psd (msub oc' oc) ->
  iscwsa_rule k spa Sm Rr Ro inc azi p q rc oc = Some r ->
  iscwsa_rule k' spa' Sm' Rr' Ro' inc azi p q rc' oc' = Some r' ->
  ru_sf r = Fin sf -> ru_sf r' = Fin sf' ->
  (Rr' + Ro' + Sm' <= dist p q -> sf' <= sf) /\
  (dist p q <= Rr + Ro + Sm -> Rr' = Rr -> Ro' = Ro -> Sm' = Sm -> sf <= sf').
Proof.
  intros k spa Sm Rr Ro k' spa' Sm' Rr' Ro' inc azi p q rc oc rc' oc' r r' sf sf' Hk Hs H1 H2 H3 Pr Po H H' F F'.
  pose proof (eou_mono _ _ _ _ _ _ _ _ _ _ _ _ _ _ _ _ _ _ _ _ Hk Hs Pr Po H H') as EM.
  destruct Hk as [Hk1 Hk2]. destruct (rule_no_uncertainty _ _ _ _ _ _ _ _ _ _ _ _ Hk1 H) as (P0 & _).
  destruct (rule_fields _ _ _ _ _ _ _ _ _ _ _ _ H) as (_ & _ & _ & _ & _ & _ & _ & S).
  destruct (rule_fields _ _ _ _ _ _ _ _ _ _ _ _ H') as (_ & _ & _ & _ & _ & _ & _ & S').
  rewrite F in S. rewrite F' in S'. unfold ediv in S, S'.
  destruct (Req_EM_T (ru_eou_boundary r) 0).
  { destruct (Rlt_dec _ _); [discriminate|]. destruct (Rlt_dec _ _); discriminate. }
  destruct (Req_EM_T (ru_eou_boundary r') 0).
  { destruct (Rlt_dec _ _); [discriminate|]. destruct (Rlt_dec _ _); discriminate. }
  injection S; injection S'; intros; subst sf sf'. split.
  - intro L. apply div_mono; lra.
  - intros L -> -> ->. apply div_mono_neg; lra.
Qed.
(** moving the offset point away along the same line *)
Lemma rule_distance : forall k spa Sm Rr Ro inc azi p q t rc oc r r' sf sf',
  0 < k -> 1 <= t -> p <> q ->
  iscwsa_rule k spa Sm Rr Ro inc azi p q rc oc = Some r ->
  iscwsa_rule k spa Sm Rr Ro inc azi p (vadd p (vscale t (vsub q p))) rc oc = Some r' ->
  ru_sf r = Fin sf -> ru_sf r' = Fin sf' -> sf <= sf'.
Proof.
  intros k spa Sm Rr Ro inc azi p q t rc oc r r' sf sf' Hk Ht N H H' F F'.
  set (q' := vadd p (vscale t (vsub q p))) in *.
  assert (D : norm (vsub q' p) = t * norm (vsub q p)).
  { unfold q'. rewrite vsub_vadd_l, norm_vscale, Rabs_right; lra. }
  assert (P : 0 < norm (vsub q p)).
  { apply norm_pos. intro Z. apply N. destruct p, q; unfold vsub, vzero in Z; simpl in Z. injection Z; intros. f_equal; lra. }
  assert (E1 : dl_ref_nev (delta_vectors inc azi p q') = dl_ref_nev (delta_vectors inc azi p q)).
  { unfold delta_vectors. cbn [dl_ref_nev]. rewrite D, !unit_or_zero_scale by nra. unfold q'. rewrite vsub_vadd_l.
    rewrite vscale_vscale. f_equal. field. split; lra. }
  assert (E2 : dl_off_nev (delta_vectors inc azi p q') = dl_off_nev (delta_vectors inc azi p q)).
  { unfold delta_vectors. cbn [dl_off_nev]. rewrite D, !unit_or_zero_scale by nra. unfold q'.
    replace (vsub p (vadd p (vscale t (vsub q p)))) with (vscale t (vsub p q)) by vring.
    rewrite vscale_vscale. f_equal. field. split; lra. }
  assert (EB : ru_eou_boundary r' = ru_eou_boundary r).
  { unfold iscwsa_rule in H, H'. rewrite E1, E2 in H'.
    destruct (pcr _ rc) as [a|]; [|discriminate]. destruct (pcr _ oc) as [b|]; [|discriminate].
    apply sinj in H; apply sinj in H'; subst r r'. cbn [ru_eou_boundary]. reflexivity. }
  destruct (rule_no_uncertainty _ _ _ _ _ _ _ _ _ _ _ _ Hk H) as (P0 & _).
  destruct (rule_fields _ _ _ _ _ _ _ _ _ _ _ _ H) as (_ & _ & _ & _ & _ & _ & _ & S).
  destruct (rule_fields _ _ _ _ _ _ _ _ _ _ _ _ H') as (_ & _ & _ & _ & _ & _ & _ & S').
  rewrite F in S. rewrite F', EB in S'. unfold ediv in S, S'.
  destruct (Req_EM_T (ru_eou_boundary r) 0).
  { destruct (Rlt_dec _ _); [discriminate|]. destruct (Rlt_dec _ _); discriminate. }
  injection S; injection S'; intros; subst sf sf'.
  assert (DD : dist p q <= dist p q').
  { assert (X : forall x y, dist x y = norm (vsub y x)).
    { intros x y. unfold dist. rewrite <- (norm_vneg (vsub x y)). f_equal. vring. }
    rewrite !X, D. nra. }
  unfold Rdiv. apply Rmult_le_compat_r; [left; apply Rinv_0_lt_compat; lra|lra].
Qed.

(** ** C62: interpolated covariances *)
Lemma interpolated_cov : forall a b m, 0 <= m <= 1 ->
  (psd a -> psd b -> psd (interpolate_cov a b m)) /\
  (symmetric a -> symmetric b -> symmetric (interpolate_cov a b m)) /\
  interpolate_cov a b 0 = a /\ interpolate_cov a b 1 = b /\
  trace (interpolate_cov a b m) = (1 - m) * trace a + m * trace b /\
  (psd (msub b a) -> forall m', m <= m' -> psd (msub (interpolate_cov a b m') (interpolate_cov a b m))).
Proof.
  intros a b m Hm.
  assert (E : forall v k, qform (interpolate_cov a b k) v = (1 - k) * qform a v + k * qform b v).
  { intros. unfold interpolate_cov. rewrite qform_madd, qform_mscale, qform_msub. ring. }
  split; [|split; [|split; [|split; [|split]]]].
  - intros A B v. rewrite E. specialize (A v). specialize (B v). nra.
  - intros A B. unfold symmetric, interpolate_cov in *.
    transitivity (madd (mtrans a) (mscale m (msub (mtrans b) (mtrans a)))). vring. rewrite A, B. auto.
  - unfold interpolate_cov. vring.
  - unfold interpolate_cov. vring.
  - unfold interpolate_cov. vring.
  - intros P m' L v. rewrite qform_msub, !E. specialize (P v). rewrite qform_msub in P. nra.
Qed.

(** ** C61: the objective between stations leaves out the margin *)
Lemma sf_between : forall k spa Sm Rr Ro inc azi p q rc oc r, psd rc -> psd oc ->
  tol <= dist p q -> 0 < ru_eou_boundary r ->
  iscwsa_rule k spa Sm Rr Ro inc azi p q rc oc = Some r ->
  exists sf v, ru_sf r = Fin sf /\ sf_min_between k spa Rr Ro (vsub q p) rc oc = Some v /\
    v = sf + Sm / ru_eou_boundary r.
Proof.
  intros k spa Sm Rr Ro inc azi p q rc oc r Pr Po HD HB H.
  assert (TP : 0 < tol) by (unfold tol; apply Rinv_0_lt_compat; apply pow_lt; lra).
  assert (D : norm (vsub q p) = dist p q) by (unfold dist; rewrite <- (norm_vneg (vsub p q)); f_equal; vring).
  destruct (rule_decisions _ _ _ _ _ _ _ _ _ _ _ _ H HB) as (sf & F & _).
  destruct (rule_fields _ _ _ _ _ _ _ _ _ _ _ _ H) as (_ & _ & _ & E & _ & _ & _ & S).
  unfold sf_min_between. rewrite D. destruct (Rlt_dec (dist p q) tol); [lra|].
  exists sf. eexists. split; auto. split; [reflexivity|].
  rewrite !Rmax_right by auto.
  assert (SQ : forall x, 0 <= x -> sqrt x ^ 2 = x) by (intros; rewrite <- Rsqr_pow2; apply Rsqr_sqrt; auto).
  rewrite !SQ; auto.
  2: { apply Rplus_le_le_0_compat; apply pow2_ge_0. }
  assert (EB : k * sqrt (qform rc (vscale (/ dist p q) (vsub q p)) + qform oc (vscale (/ dist p q) (vsub q p)) + spa ^ 2) = ru_eou_boundary r).
  { unfold iscwsa_rule in H.
    assert (R1 : dl_ref_nev (delta_vectors inc azi p q) = vscale (/ dist p q) (vsub q p)).
    { unfold delta_vectors. cbn [dl_ref_nev]. rewrite D, unit_or_zero_scale; auto. lra. }
    assert (R2 : dl_off_nev (delta_vectors inc azi p q) = vneg (vscale (/ dist p q) (vsub q p))).
    { unfold delta_vectors. cbn [dl_off_nev]. rewrite D, unit_or_zero_scale by lra. vring. }
    rewrite R1, R2 in H. rewrite pcr_some in H by auto. unfold pcr in H at 1. rewrite qform_vneg in H. fold (pcr (vscale (/ dist p q) (vsub q p)) oc) in H.
    rewrite pcr_some in H by auto. apply sinj in H; subst r. cbn [ru_eou_boundary]. do 2 f_equal.
    rewrite !SQ; auto. apply Rplus_le_le_0_compat; apply pow2_ge_0. }
  rewrite EB. rewrite F in S. unfold ediv in S. destruct (Req_EM_T (ru_eou_boundary r) 0); [lra|].
  injection S; intro; subst sf. field. lra.
Qed.

(** ** C64: bearings *)
Lemma rint_near : forall x, Rabs (IZR (rint x) - x) <= 1/2.
Proof.
  intro x. unfold rint. pose proof (rfloor_spec x) as F.
  destruct (Rlt_dec _ _). { apply Rabs_le. lra. }
  destruct (Rlt_dec _ _). { rewrite plus_IZR. apply Rabs_le. lra. }
  destruct (Z.even _). apply Rabs_le; lra. rewrite plus_IZR. apply Rabs_le; lra.
Qed.
Lemma around6_near : forall x, Rabs (around6 x - x) <= 1 / 2 / 10 ^ 6.
Proof.
  intro x. unfold around6. pose proof (rint_near (x * 10 ^ 6)) as N.
  replace (IZR (rint (x * 10 ^ 6)) / 10 ^ 6 - x) with ((IZR (rint (x * 10 ^ 6)) - x * 10 ^ 6) * / 10 ^ 6) by (field; lra).
  rewrite Rabs_mult. rewrite (Rabs_right (/ 10 ^ 6)) by lra. unfold Rdiv. apply Rmult_le_compat_r; lra.
Qed.
