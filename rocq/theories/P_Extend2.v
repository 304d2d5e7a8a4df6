(** drop_off: nodes, attainable inclinations, best answers. *)
Require Import Reals ZArith Bool String List Lra Lia Psatz.
Require Import Verif.Base Verif.NumPy Verif.Spec Verif.Spec_Rates Verif.M_Utils Verif.M_Connector Verif.M_Extend Verif.Spec_Extend.
Require Import Verif.P_Trig Verif.P_Utils Verif.P_Utils2 Verif.P_Connector Verif.P_Rates3 Verif.P_Rates4 Verif.P_Extend.
Import ListNotations.
Open Scope R_scope.

Lemma signed_abs : forall x, 0 <= fst x -> signed x = fst x \/ signed x = - fst x.
Proof. intros x _. unfold signed. destruct (Req_EM_T (drop_side (snd x)) 0); auto. Qed.

Lemma upper_bounds : forall dls d t, 0 < dls -> t <= upper dls d ->
  t <= 2 * PI /\ forall L, d = Some L -> dls_radius dls * t <= L.
Proof.
  intros dls d t DL H. unfold upper in H. pose proof (dls_radius_pos dls DL) as RP. split.
  - eapply Rle_trans; [apply H|apply Rmin_l].
  - intros L ->. assert (Q : t <= L / dls_radius dls) by (eapply Rle_trans; [apply H|apply Rmin_r]).
    apply (Rmult_le_compat_l (dls_radius dls)) in Q; [|lra]. replace (dls_radius dls * (L / dls_radius dls)) with L in Q by (field; lra). auto.
Qed.
Lemma upper_ge0 : forall dls d, 0 < dls -> (forall L, d = Some L -> 0 <= L) <-> 0 <= upper dls d.
Proof.
  intros dls d DL. unfold upper. pose proof (dls_radius_pos dls DL) as RP. pose proof PI_RGT_0 as HP. split.
  - intro H. apply Rmin_glb; [lra|]. destruct d as [L|]; [|lra]. specialize (H L eq_refl).
    unfold Rdiv. apply Rmult_le_pos; auto. left. apply Rinv_0_lt_compat; auto.
  - intros H L ->. pose proof (Rmin_r (2 * PI) (L / dls_radius dls)) as M.
    assert (Q : 0 <= L / dls_radius dls) by lra. apply (Rmult_le_compat_l (dls_radius dls)) in Q; [|lra].
    replace (dls_radius dls * (L / dls_radius dls)) with L in Q by (field; lra). lra.
Qed.

Lemma drop_success : forall mini ti dls d n tol p u m inc azi, starts n p u m -> bears u inc azi -> 0 <= tol ->
  (dls = 0 -> drop_off mini ti dls d n tol = DropNotFinite) /\
  (0 < dls -> ((exists l, drop_off mini ti dls d n tol = DropNodes l) <-> (forall L, d = Some L -> 0 <= L)) /\
              ((exists l, drop_off mini ti dls d n tol = DropNodes l) \/ drop_off mini ti dls d n tol = DropValueError)).
Proof.
  intros mini ti dls d n tol p u m inc azi ST B TL. split.
  - intros ->. unfold drop_off, radius_from_dls_scalar. destruct (Req_EM_T 0 0); [auto|lra].
  - intros DL. pose proof (upper_ge0 dls d DL) as UG.
    destruct (Rle_dec 0 (upper dls d)) as [U|U].
    + destruct (drop_off_value mini ti dls d n tol p u m inc azi) as (k & _ & [(E & _)|(L & k3 & _ & _ & E & _)]); auto; try lra.
      * split; [|left; eauto]. split; [intros _; apply UG; auto|eauto].
      * split; [|left; eauto]. split; [intros _; apply UG; auto|eauto].
    + assert (E : drop_off mini ti dls d n tol = DropValueError).
      { unfold drop_off. rewrite (dls_radius_value dls) by lra. change (Rmin (2 * PI) _) with (upper dls d).
        destruct (Rlt_dec (upper dls d) 0); [auto|lra]. }
      rewrite E. split; [|auto]. split; [intros [l Q]; discriminate|]. intro H. apply UG in H. lra.
Qed.

Lemma drop_nodes : forall mini ti dls d n tol l p u m inc azi, keeps_bounds mini -> 0 < dls -> 0 <= tol ->
  starts n p u m -> bears u inc azi -> drop_off mini ti dls d n tol = DropNodes l ->
  let r := dls_radius dls in
  exists t v p2 node2, 0 <= t <= 2 * PI /\ (v = direction_nev (inc + t) azi \/ v = direction_nev (inc - t) azi) /\
    circular_arc p u (r * t) t p2 v /\ describes node2 p2 v (m + r * t) /\
    (forall L, d = Some L -> r * t <= L) /\
    ((l = [node2] /\ forall L, d = Some L -> L - r * t <= tol) \/
     (exists L node3, d = Some L /\ tol < L - r * t /\ l = [node2; node3] /\
        describes node3 (vadd p2 (vscale (L - r * t) v)) v (m + L))).
Proof.
  intros mini ti dls d n tol l p u m inc azi KB DL TL ST B H r.
  assert (UP : 0 <= upper dls d).
  { apply upper_ge0; auto. destruct (drop_success mini ti dls d n tol p u m inc azi ST B TL) as [_ Q].
    apply (proj1 (Q DL)). eauto. }
  destruct (drop_off_value mini ti dls d n tol p u m inc azi) as (k & DK & C); auto; try lra.
  set (x := answer mini ti dls d n) in *. fold r in DK, C.
  assert (IN : inside ((0, upper dls d), (- PI, PI)) x).
  { unfold x, answer. apply KB; cbn [fst snd]; [auto|]. pose proof PI_RGT_0; lra. }
  destruct IN as [I1 I2]. cbn [fst snd] in I1, I2.
  destruct (upper_bounds dls d (fst x) DL (proj2 I1)) as [U1 U2]. fold r in U2.
  exists (fst x), (direction_nev (inc + signed x) azi), (arc_point p u (toolface_dir inc azi (drop_side (snd x))) r (fst x)), k.
  rewrite (Rmult_comm r (fst x)).
  split; [lra|]. split; [destruct (signed_abs x) as [-> | ->]; [lra|left; auto|right; f_equal; ring]|].
  split.
  { destruct B as (-> & _). destruct (toolface_spec inc azi (drop_side (snd x))) as [T1 T2].
    exists (toolface_dir inc azi (drop_side (snd x))), r. do 2 (split; auto). split; [ring|]. split; auto.
    unfold signed. pose proof PI_RGT_0.
    destruct (drop_side_cases (snd x)) as [-> | ->].
    - destruct (Req_EM_T 0 0); [|lra]. symmetry. apply toolface_up.
    - destruct (Req_EM_T PI 0); [lra|]. rewrite toolface_down. f_equal; ring. }
  split; auto. split; [intros L Q; rewrite Rmult_comm; auto|].
  destruct C as [(E & C)|(L & k3 & D & G & E & D3)].
  - left. split; [congruence|]. auto.
  - right. exists L, k3. repeat (split; auto). congruence.
Qed.

(** ** Inclinations *)
(** the inclination after a signed turn *)
Definition folded (inc s i : R) : Prop := 0 <= i <= PI /\ cos i = cos (inc + s).
Lemma angle_down : forall i a j, angle_between down (direction_nev i a) j <-> 0 <= j <= PI /\ cos j = cos i.
Proof.
  intros. unfold angle_between, down, direction_nev, dot. cbn. rewrite !Rmult_0_l, !Rplus_0_l, Rmult_1_l. tauto.
Qed.
Lemma fold_exists : forall s, exists i, 0 <= i <= PI /\ cos i = cos s.
Proof.
  intros. exists (acos (cos s)). pose proof (COS_bound s) as B. split; [apply acos_bound|]. rewrite cos_acos; auto.
Qed.
Lemma fold_near : forall inc s i, 0 <= inc <= PI -> 0 <= i <= PI -> cos i = cos (inc + s) -> Rabs (i - inc) <= Rabs s.
Proof.
  intros inc s i HI Hi C. pose proof PI_RGT_0 as HP.
  destruct (Rle_dec PI (Rabs s)) as [G|G].
  { apply Rabs_le. destruct HI, Hi. split; lra. }
  assert (SB : - PI < s < PI) by (unfold Rabs in G; destruct (Rcase_abs s); lra).
  destruct (Rlt_dec (inc + s) 0) as [N|N].
  - assert (i = - (inc + s)). { apply cos_inj_0_PI; auto; try lra. rewrite cos_neg. auto. }
    subst i. unfold Rabs. destruct (Rcase_abs s), (Rcase_abs (- (inc + s) - inc)); lra.
  - destruct (Rle_dec (inc + s) PI) as [M|M].
    + assert (i = inc + s) by (apply cos_inj_0_PI; auto; lra). subst i. replace (inc + s - inc) with s by ring. lra.
    + assert (i = 2 * PI - (inc + s)).
      { apply cos_inj_0_PI; auto; try lra. rewrite cos_minus, cos_2PI, sin_2PI. lra. }
      subst i. unfold Rabs. destruct (Rcase_abs s), (Rcase_abs (2 * PI - (inc + s) - inc)); lra.
Qed.

Lemma inc_of_direction : forall i a, let j := fst (get_angles true (direction_nev i a)) in 0 <= j <= PI /\ cos j = cos i.
Proof.
  intros i a j. unfold j. pose proof (direction_unit i a) as U.
  pose proof (get_angles_direction _ (unit_nonzero _ U)) as G. pose proof (get_angles_range true (direction_nev i a)) as RG.
  rewrite vunit_unit in G by auto. destruct (get_angles true (direction_nev i a)) as [i' a'].
  cbn [fst snd] in *. split; [tauto|]. unfold direction_nev in G. injection G. auto.
Qed.
Lemma misfit_value : forall r ti n x inc azi i, bears (node_vec n) inc azi -> folded inc (signed x) i ->
  drop_misfit r ti n x = degrees (Rabs (i - radians ti)).
Proof.
  intros r ti n x inc azi i B [F1 F2]. unfold drop_misfit. rewrite (drop_data_value r n x inc azi B).
  pose proof (inc_of_direction (inc + signed x) azi) as [J1 J2]. set (j := fst _) in *.
  assert (j = i) by (apply cos_inj_0_PI; auto; congruence). rewrite H.
  unfold degrees, radians. pose proof PI_RGT_0.
  replace (180 / PI) with (Rabs (180 / PI)) by (apply Rabs_right; left; apply Rdiv_lt_0_compat; lra).
  rewrite <- Rabs_mult. f_equal. rewrite (Rabs_right (180 / PI)) by (left; apply Rdiv_lt_0_compat; lra). field. lra.
Qed.
Lemma degrees_le : forall a b, degrees a <= degrees b <-> a <= b.
Proof.
  intros. unfold degrees. pose proof PI_RGT_0. assert (0 < 180 / PI) by (apply Rdiv_lt_0_compat; lra).
  split; intro; [apply Rmult_le_reg_r with (180 / PI); auto|apply Rmult_le_compat_r; lra].
Qed.

Lemma signed_side : forall s D, Rabs s <= D -> exists x, inside ((0, D), (- PI, PI)) x /\ signed x = s /\ fst x = Rabs s.
Proof.
  intros s D H. pose proof PI_RGT_0 as HP. pose proof (Rabs_pos s) as AP. destruct (Rle_dec 0 s) as [G|G].
  - exists (s, 0). rewrite Rabs_right in * by lra. unfold inside, signed. cbn [fst snd]. split; [lra|].
    unfold drop_side. destruct (Rle_dec (- PI / 2) 0); [|lra]. destruct (Rle_dec 0 (PI / 2)); [|lra].
    destruct (Req_EM_T 0 0); lra.
  - exists (- s, PI). rewrite Rabs_left in * by lra. unfold inside, signed. cbn [fst snd]. split; [lra|].
    unfold drop_side. destruct (Rle_dec (- PI / 2) PI); [|lra]. destruct (Rle_dec PI (PI / 2)); [lra|].
    destruct (Req_EM_T PI 0); lra.
Qed.
Lemma signed_le : forall x, 0 <= fst x -> Rabs (signed x) = fst x.
Proof.
  intros x H. destruct (signed_abs x H) as [-> | ->]; rewrite ?Rabs_Ropp; apply Rabs_right; lra.
Qed.

Lemma nearest_facts : forall D s, 0 <= D -> Rabs (nearest_within D s) <= D /\
  (Rabs s <= D -> nearest_within D s = s) /\
  (D < s -> nearest_within D s = D) /\ (s < - D -> nearest_within D s = - D).
Proof.
  intros D s H. unfold nearest_within, Rmax, Rmin, Rabs.
  repeat split; intros; destruct (Rle_dec D s); destruct (Rle_dec (- D) _); try destruct (Rcase_abs _); lra.
Qed.
(** the best turn is the one to the nearest inclination, and every best answer
    ends there *)
Lemma nearest_best : forall inc tau D s i, 0 <= inc <= PI -> 0 <= tau <= PI -> 0 <= D -> Rabs s <= D -> folded inc s i ->
  let j := inc + nearest_within D (tau - inc) in
  0 <= j <= PI /\ Rabs (j - tau) <= Rabs (i - tau) /\ (Rabs (i - tau) <= Rabs (j - tau) -> i = j).
Proof.
  intros inc tau D s i HI HT HD HS [F1 F2] j.
  pose proof (fold_near inc s i HI F1 F2) as N.
  destruct (nearest_facts D (tau - inc) HD) as (_ & A & B & C). unfold j.
  destruct (Rle_dec (Rabs (tau - inc)) D) as [G|G].
  - rewrite A by auto. replace (inc + (tau - inc)) with tau by ring.
    rewrite (Rminus_diag_eq tau tau eq_refl), Rabs_R0. split; auto. split; [apply Rabs_pos|].
    intro Q. pose proof (Rabs_pos (i - tau)). assert (Z : Rabs (i - tau) = 0) by lra.
    destruct (Req_dec (i - tau) 0); [lra|]. apply Rabs_no_R0 in Z; tauto.
  - destruct (Rlt_dec D (tau - inc)) as [P|P].
    + rewrite B by auto. split; [lra|]. assert (i - inc <= D) by (pose proof (Rle_abs (i - inc)); lra).
      rewrite (Rabs_left (inc + D - tau)), (Rabs_left (i - tau)) by lra. split; intros; lra.
    + assert (tau - inc < - D). { unfold Rabs in G. destruct (Rcase_abs (tau - inc)); lra. }
      rewrite C by auto. split; [lra|]. assert (- D <= i - inc) by (pose proof (Rle_abs (- (i - inc))); rewrite Rabs_Ropp in *; lra).
      rewrite (Rabs_right (inc + - D - tau)), (Rabs_right (i - tau)) by lra. split; intros; lra.
Qed.

Lemma radians_range : forall ti, 0 <= ti <= 180 -> 0 <= radians ti <= PI.
Proof.
  intros ti HT. pose proof PI_RGT_0. unfold radians. split; [apply Rmult_le_pos; [lra|]; apply Rlt_le, Rdiv_lt_0_compat; lra|].
  replace PI with (180 * (PI / 180)) at 2 by field. apply Rmult_le_compat_r; [apply Rlt_le, Rdiv_lt_0_compat; lra|lra].
Qed.
Lemma best_is_nearest : forall r ti n inc azi D x, bears (node_vec n) inc azi -> 0 <= ti <= 180 -> 0 <= D ->
  let j := inc + nearest_within D (radians ti - inc) in
  best_in ((0, D), (- PI, PI)) (drop_misfit r ti n) x <-> inside ((0, D), (- PI, PI)) x /\ folded inc (signed x) j.
Proof.
  intros r ti n inc azi D x B HT HD j. pose proof PI_RGT_0 as HP. pose proof B as (_ & HI & _).
  pose proof (radians_range ti HT) as TR.
  destruct (nearest_facts D (radians ti - inc) HD) as (NB & _).
  destruct (signed_side (nearest_within D (radians ti - inc)) D NB) as (x1 & IN1 & S1 & _).
  destruct (fold_exists (inc + nearest_within D (radians ti - inc))) as (i1 & F1 & F1').
  assert (J1 : i1 = j /\ 0 <= j <= PI).
  { destruct (nearest_best inc (radians ti) D _ i1 HI TR HD NB) as (J & _); [split; auto|]. fold j in J. split; auto.
    apply cos_inj_0_PI; auto. }
  destruct J1 as [-> JB]. clear F1 F1'.
  assert (FJ : folded inc (signed x1) j) by (split; auto; rewrite S1; reflexivity).
  split.
  - intros [IN BE]. split; auto. specialize (BE x1 IN1).
    destruct (fold_exists (inc + signed x)) as (i & Fi & Fi').
    rewrite (misfit_value r ti n x inc azi i B (conj Fi Fi')), (misfit_value r ti n x1 inc azi j B FJ) in BE. apply (proj1 (degrees_le _ _)) in BE.
    destruct (nearest_best inc (radians ti) D (signed x) i HI TR HD) as (_ & _ & Q).
    + destruct IN as [[I0 I1] _]. cbn [fst snd] in *. rewrite signed_le; auto.
    + split; auto.
    + assert (i = j) by (apply Q; exact BE). subst i. split; auto.
  - intros [IN F]. split; auto. intros y IY.
    destruct (fold_exists (inc + signed y)) as (i & Fi & Fi').
    rewrite (misfit_value r ti n x inc azi j B F), (misfit_value r ti n y inc azi i B (conj Fi Fi')). apply (proj2 (degrees_le _ _)).
    destruct (nearest_best inc (radians ti) D (signed y) i HI TR HD) as (_ & Q & _); auto.
    + destruct IY as [[I0 I1] _]. cbn [fst snd] in *. rewrite signed_le; auto.
    + split; auto.
Qed.

Lemma drop_best : forall mini ti dls d n tol l p u m inc azi, finds_best mini -> 0 < dls -> 0 <= tol -> 0 <= ti <= 180 ->
  starts n p u m -> bears u inc azi -> drop_off mini ti dls d n tol = DropNodes l ->
  let D := Rmin (2 * PI) (match d with None => 2 * PI | Some L => L / dls_radius dls end) in
  forall k q v m', In k l -> describes k q v m' -> angle_between down v (inc + nearest_within D (radians ti - inc)).
Proof.
  intros mini ti dls d n tol l p u m inc azi FB DL TL HT ST B H D k q v m' IK DK.
  assert (UP : 0 <= upper dls d).
  { apply upper_ge0; auto. destruct (drop_success mini ti dls d n tol p u m inc azi ST B TL) as [_ Q].
    apply (proj1 (Q DL)). eauto. }
  destruct (drop_off_value mini ti dls d n tol p u m inc azi) as (k2 & DK2 & C); auto; try lra.
  set (x := answer mini ti dls d n) in *.
  destruct (work_starts n p u m ST) as (_ & WV & _).
  assert (BW : bears (node_vec (work n)) inc azi) by (rewrite WV; auto).
  assert (BE : best_in ((0, upper dls d), (- PI, PI)) (drop_misfit (dls_radius dls) ti (work n)) x).
  { unfold x, answer. apply FB. destruct (nearest_facts (upper dls d) (radians ti - inc) UP) as (NB & _).
    destruct (signed_side (nearest_within (upper dls d) (radians ti - inc)) (upper dls d) NB) as (x1 & IN1 & S1 & _).
    exists x1. apply (best_is_nearest _ _ _ inc azi _ _ BW HT UP). split; auto. rewrite S1. split; auto.
    destruct (fold_exists (inc + nearest_within (upper dls d) (radians ti - inc))) as (i1 & F1).
    pose proof B as (_ & HI & _). pose proof PI_RGT_0.
    destruct (nearest_best inc (radians ti) (upper dls d) (nearest_within (upper dls d) (radians ti - inc)) i1 HI (radians_range ti HT) UP NB F1) as (J & _); auto. }
  apply (best_is_nearest _ _ _ inc azi _ _ BW HT UP) in BE. destruct BE as [_ [F1 F2]].
  assert (V : v = direction_nev (inc + signed x) azi).
  { destruct C as [(E & _)|(L & k3 & _ & _ & E & D3)].
    - rewrite H in E. injection E as ->. destruct IK as [<-|[]]. destruct DK as (_ & DK & _), DK2 as (_ & DK2 & _). congruence.
    - rewrite H in E. injection E as ->. destruct DK as (_ & DK & _).
      destruct IK as [<-|[<-|[]]]; [destruct DK2 as (_ & DK2 & _)|destruct D3 as (_ & D3 & _)]; congruence. }
  rewrite V. apply angle_down. split; auto.
Qed.
