(** extend_to_tvd with a target inclination: exact answers reach the depth. *)
Require Import Reals ZArith Bool String List Lra Lia Psatz.
Require Import Verif.Base Verif.NumPy Verif.Spec Verif.Spec_Rates Verif.M_Utils Verif.M_Connector Verif.M_Extend Verif.Spec_Extend.
Require Import Verif.P_Trig Verif.P_Utils Verif.P_Utils2 Verif.P_Survey Verif.P_Connector Verif.P_Connector3 Verif.P_Connector4 Verif.P_MaxCurve Verif.P_Rates3 Verif.P_Rates4 Verif.P_Weights3 Verif.P_Extend Verif.P_Extend2 Verif.P_Extend3 Verif.P_Extend4 Verif.P_Extend5.
Import ListNotations.
Open Scope R_scope.

Definition turn_to (dls L inc tau : R) : R := nearest_within (upper dls (Some L)) (tau - inc).

Lemma least_answer : forall mini ti dls L n p u m inc azi, finds_least mini -> 0 < dls -> 0 <= L -> 0 <= ti <= 180 ->
  starts n p u m -> bears u inc azi ->
  let x := answer mini ti dls (Some L) n in let s := turn_to dls L inc (radians ti) in
  fst x = Rabs s /\ folded inc (signed x) (inc + s).
Proof.
  intros mini ti dls L n p u m inc azi [FB FL] DL HL HT ST B x s.
  assert (UP : 0 <= upper dls (Some L)). { apply upper_ge0; auto. intros L' E. injection E as <-. auto. }
  destruct (work_starts n p u m ST) as (_ & WV & _).
  assert (BW : bears (node_vec (work n)) inc azi) by (rewrite WV; auto).
  pose proof (radians_range ti HT) as TR. pose proof B as (_ & HI & _).
  destruct (nearest_facts (upper dls (Some L)) (radians ti - inc) UP) as (NB & _). fold s in NB.
  change (nearest_within (upper dls (Some L)) (radians ti - inc)) with s in NB.
  destruct (signed_side s (upper dls (Some L)) NB) as (x1 & IN1 & S1 & A1).
  destruct (fold_exists (inc + s)) as (i1 & F1).
  destruct (nearest_best inc (radians ti) (upper dls (Some L)) s i1 HI TR UP NB F1) as (J & _).
  change (0 <= inc + s <= PI) in J.
  assert (B1 : best_in ((0, upper dls (Some L)), (- PI, PI)) (drop_misfit (dls_radius dls) ti (work n)) x1).
  { apply (best_is_nearest _ _ _ inc azi _ _ BW HT UP). split; auto. rewrite S1. split; auto. }
  assert (LB : forall z, best_in ((0, upper dls (Some L)), (- PI, PI)) (drop_misfit (dls_radius dls) ti (work n)) z -> Rabs s <= fst z).
  { intros z BZ. apply (best_is_nearest _ _ _ inc azi _ _ BW HT UP) in BZ. destruct BZ as [[[Z0 _] _] [Z1 Z2]]. cbn [fst] in Z0.
    pose proof (fold_near inc (signed z) _ HI Z1 Z2) as F. rewrite signed_le in F by auto.
    change (nearest_within (upper dls (Some L)) (radians ti - inc)) with s in F. replace (inc + s - inc) with s in F by ring. auto. }
  destruct (FL (drop_misfit (dls_radius dls) ti (work n)) (upper dls (Some L) / 2, PI) ((0, upper dls (Some L)), (- PI, PI))) as [X1 X2].
  { exists x1. split; auto. intros z BZ. rewrite A1. auto. }
  fold (answer mini ti dls (Some L) n) in X1, X2. fold x in X1, X2.
  split.
  - specialize (X2 x1 B1). rewrite A1 in X2. pose proof (LB x X1). lra.
  - apply (best_is_nearest _ _ _ inc azi _ _ BW HT UP) in X1. apply X1.
Qed.

(** the depth gained on the arc *)
Lemma arc_depth : forall p inc azi r x s, 0 <= inc < PI / 2 -> 0 <= inc + s < PI / 2 -> fst x = Rabs s -> folded inc (signed x) (inc + s) ->
  vz (arc_point p (direction_nev inc azi) (toolface_dir inc azi (drop_side (snd x))) r (fst x))
  = vz p + r * Rabs (sin (inc + s) - sin inc).
Proof.
  intros p inc azi r x s HI HJ FX [F1 F2]. pose proof PI_RGT_0 as HP.
  set (t := fst x) in *. assert (T : 0 <= t < PI / 2).
  { split; [rewrite FX; apply Rabs_pos|]. rewrite FX. apply Rabs_def1; lra. }
  assert (MS : forall a b, 0 <= a <= b -> b < PI / 2 -> sin a <= sin b).
  { intros a b A Bb. destruct (Req_dec a b) as [->|N]; [lra|]. left. apply sin_increasing_1; lra. }
  unfold signed in F2. fold t in F2. destruct (drop_side_cases (snd x)) as [E|E]; rewrite E in *.
  - destruct (Req_EM_T 0 0); [|lra].
    assert (inc + s = inc + t \/ (t <> 0 /\ s = - t)) as [Q|[N Q]].
    { unfold Rabs in FX. destruct (Rcase_abs s); [|left; lra]. right. lra. }
    + rewrite Q. rewrite (Rabs_right (sin (inc + t) - sin inc)) by (pose proof (MS inc (inc + t)); lra).
      unfold arc_point, toolface_dir, high_side, right_side, direction_nev. rewrite sin_plus, sin_0, cos_0. unf. simpl. ring.
    + exfalso. rewrite Q in F1, F2. assert (inc + - t = inc + t) by (apply cos_inj_0_PI; auto; lra). lra.
  - destruct (Req_EM_T PI 0); [lra|].
    assert (s = - t \/ (t <> 0 /\ s = t)) as [Q|[N Q]].
    { unfold Rabs in FX. destruct (Rcase_abs s); [left; lra|]. destruct (Req_dec t 0); [left|right]; lra. }
    + rewrite Q in *. rewrite (Rabs_left1 (sin (inc + - t) - sin inc)) by (pose proof (MS (inc + - t) inc); lra).
      unfold arc_point, toolface_dir, high_side, right_side, direction_nev. rewrite sin_plus, sin_neg, cos_neg, sin_PI, cos_PI. unf. simpl. ring.
    + rewrite Q in *. assert (inc = 0).
      { rewrite !cos_plus, sin_neg, cos_neg in F2. assert (sin inc * sin t = 0) by lra.
        destruct (Rmult_integral _ _ H) as [Z|Z].
        - destruct (Rlt_dec 0 inc); [|lra]. assert (0 < sin inc) by (apply sin_gt_0; lra). lra.
        - assert (0 < sin t) by (apply sin_gt_0; lra). lra. }
      subst inc. rewrite Rplus_0_l, sin_0, Rminus_0_r. rewrite (Rabs_right (sin t)) by (left; apply sin_gt_0; lra).
      unfold arc_point, toolface_dir, high_side, right_side, direction_nev. rewrite sin_PI, cos_PI, sin_0, cos_0. unf. simpl. ring.
Qed.

(** vertical depth of the last node *)
Definition depth_after (dls z inc tau L : R) : R :=
  let r := dls_radius dls in let s := turn_to dls L inc tau in
  z + r * Rabs (sin (inc + s) - sin inc) + (if Rlt_dec (1 / 100000) (L - Rabs s * r) then (L - Rabs s * r) * cos (inc + s) else 0).

Lemma turn_between : forall dls L inc tau, 0 < dls -> 0 <= L -> 0 <= inc < PI / 2 -> 0 <= tau < PI / 2 ->
  0 <= inc + turn_to dls L inc tau < PI / 2 /\ Rabs (turn_to dls L inc tau) * dls_radius dls <= L /\
  (dls_radius dls * Rabs (tau - inc) <= L -> turn_to dls L inc tau = tau - inc) /\
  Rabs (turn_to dls L inc tau) <= Rabs (tau - inc) /\
  (L < dls_radius dls * Rabs (tau - inc) -> Rabs (turn_to dls L inc tau) * dls_radius dls = L).
Proof.
  intros dls L inc tau DL HL HI HT. pose proof (dls_radius_pos dls DL) as RP. pose proof PI_RGT_0 as HP. unfold turn_to.
  assert (UP : 0 <= upper dls (Some L)). { apply upper_ge0; auto. intros L' E. injection E as <-. auto. }
  destruct (nearest_facts (upper dls (Some L)) (tau - inc) UP) as (N1 & N2 & N3 & N4).
  set (D := upper dls (Some L)) in *.
  assert (DB : D * dls_radius dls <= L).
  { destruct (upper_bounds dls (Some L) D DL (Rle_refl _)) as [_ Q]. specialize (Q L eq_refl). lra. }
  assert (TB : Rabs (tau - inc) <= PI) by (apply Rabs_le; lra).
  assert (DE : D < Rabs (tau - inc) -> D * dls_radius dls = L).
  { intro G. unfold D, upper, Rmin in *. destruct (Rle_dec (2 * PI) (L / dls_radius dls)); [lra|]. field. lra. }
  assert (DC : dls_radius dls * Rabs (tau - inc) <= L -> Rabs (tau - inc) <= D).
  { intro G. unfold D, upper. apply Rmin_glb; [lra|]. apply Rmult_le_reg_l with (dls_radius dls); auto.
    replace (dls_radius dls * (L / dls_radius dls)) with L by (field; lra). auto. }
  assert (CS : (Rabs (tau - inc) <= D /\ nearest_within D (tau - inc) = tau - inc) \/
               (D < Rabs (tau - inc) /\ ((D < tau - inc /\ nearest_within D (tau - inc) = D) \/ (tau - inc < - D /\ nearest_within D (tau - inc) = - D)))).
  { destruct (Rle_dec (Rabs (tau - inc)) D) as [G|G]; [left; auto|]. right. split; [lra|].
    destruct (Rlt_dec D (tau - inc)) as [P|P]; [left; auto|]. right.
    assert (Q : tau - inc < - D) by (unfold Rabs in G; destruct (Rcase_abs (tau - inc)); lra). auto. }
  split; [|split; [|split; [|split]]].
  - destruct CS as [[_ ->]|[_ [[P ->]|[P ->]]]]; lra.
  - eapply Rle_trans; [|apply DB]. apply Rmult_le_compat_r; lra.
  - intro G. auto.
  - destruct CS as [[_ ->]|[G [[P ->]|[P ->]]]]; [lra| |]; rewrite ?Rabs_Ropp, Rabs_right by lra; lra.
  - intro G. destruct CS as [[Q _]|[Q [[P ->]|[P ->]]]].
    + assert (dls_radius dls * Rabs (tau - inc) <= D * dls_radius dls) by nra. lra.
    + rewrite Rabs_right by lra. auto.
    + rewrite Rabs_Ropp, Rabs_right by lra. auto.
Qed.

Lemma run_drop : forall mini ti dls L n p u m inc azi, finds_least mini -> 0 < dls -> 0 <= L -> 0 <= ti < 90 ->
  starts n p u m -> bears u inc azi -> 0 <= inc < PI / 2 ->
  let r := dls_radius dls in let s := turn_to dls L inc (radians ti) in
  exists p2 v node2, circular_arc p u (r * Rabs s) (Rabs s) p2 v /\ cos (inc + s) = vz v /\ is_unit v /\
    describes node2 p2 v (m + r * Rabs s) /\ vz p2 = vz p + r * Rabs (sin (inc + s) - sin inc) /\
    ((drop_off mini ti dls (Some L) n (1 / 100000) = DropNodes [node2] /\ L - Rabs s * r <= 1 / 100000) \/
     (exists node3, 1 / 100000 < L - Rabs s * r /\ drop_off mini ti dls (Some L) n (1 / 100000) = DropNodes [node2; node3] /\
        describes node3 (vadd p2 (vscale (L - Rabs s * r) v)) v (m + L))).
Proof.
  intros mini ti dls L n p u m inc azi FL DL HL HT ST B HI r s. pose proof PI_RGT_0 as HP.
  assert (HT' : 0 <= ti <= 180) by lra.
  assert (HTR : 0 <= radians ti < PI / 2).
  { split; [apply (radians_range ti HT')|]. unfold radians. nra. }
  assert (UP : 0 <= upper dls (Some L)). { apply upper_ge0; auto. intros L' E. injection E as <-. auto. }
  assert (TLP : 0 <= 1 / 100000) by lra.
  destruct (least_answer mini ti dls L n p u m inc azi FL DL HL HT' ST B) as [X1 X2]. cbv zeta in X1, X2. fold s in X1, X2.
  destruct (drop_off_value mini ti dls (Some L) n (1 / 100000) p u m inc azi) as (k & DK & C); auto; try lra.
  set (x := answer mini ti dls (Some L) n) in *. fold r in DK, C.
  destruct (turn_between dls L inc (radians ti) DL HL HI HTR) as (TB & TR & _). fold s in TB, TR. fold r in TR.
  pose proof B as (EU & _). rewrite X1 in *.
  exists (arc_point p u (toolface_dir inc azi (drop_side (snd x))) r (Rabs s)), (direction_nev (inc + signed x) azi), k.
  split.
  { rewrite EU. destruct (toolface_spec inc azi (drop_side (snd x))) as [T1 T2].
    exists (toolface_dir inc azi (drop_side (snd x))), r. do 4 (split; auto).
    unfold signed. rewrite X1. destruct (drop_side_cases (snd x)) as [-> | ->].
    - destruct (Req_EM_T 0 0); [|lra]. symmetry. apply toolface_up.
    - destruct (Req_EM_T PI 0); [lra|]. rewrite toolface_down. f_equal; ring. }
  split; [apply X2|]. split; [apply direction_unit|]. split; [rewrite (Rmult_comm r); auto|].
  split; [rewrite EU, <- X1; apply arc_depth; auto|].
  destruct C as [(E & C)|(L' & k3 & Q & G & E & D3)].
  - left. split; auto.
  - right. injection Q as <-. exists k3. auto.
Qed.

Lemma drop_misfit_after : forall mini ti dls L target n p u m inc azi, finds_least mini -> 0 < dls -> 0 <= L -> 0 <= ti < 90 ->
  starts (Some n) p u m -> bears u inc azi -> 0 <= inc < PI / 2 ->
  extend_drop_misfit mini ti target dls n L = Some (Rabs (depth_after dls (vz p) inc (radians ti) L - target)).
Proof.
  intros mini ti dls L target n p u m inc azi FL DL HL HT ST B HI.
  destruct (run_drop mini ti dls L (Some n) p u m inc azi FL DL HL HT ST B HI) as (p2 & v & k & _ & CV & _ & (P2 & _) & Z & C).
  unfold extend_drop_misfit, depth_after. set (s := turn_to dls L inc (radians ti)) in *.
  destruct C as [(-> & G)|(k3 & G & -> & (P3 & _))]; unfold last_tvd; cbn [map last].
  - rewrite P2. cbn [option_map]. do 3 f_equal. destruct (Rlt_dec _ _); [lra|]. lra.
  - rewrite P3. cbn [option_map]. do 3 f_equal. destruct (Rlt_dec _ _); [|lra]. unf. cbn [vz]. rewrite Z, CV. ring.
Qed.
