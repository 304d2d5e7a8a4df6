(** drop_off: attainable inclinations, and answers that are best but not good;
    extend_to_tvd without a target inclination. *)
Require Import Reals ZArith Bool String List Lra Lia Psatz.
Require Import Coq.Logic.ClassicalEpsilon.
Require Import Verif.Base Verif.NumPy Verif.Spec Verif.Spec_Rates Verif.M_Utils Verif.M_Connector Verif.M_Extend Verif.Spec_Extend.
Require Import Verif.P_Trig Verif.P_Utils Verif.P_Utils2 Verif.P_Connector Verif.P_Connector3 Verif.P_Rates3 Verif.P_Rates4 Verif.P_Extend Verif.P_Extend2.
Import ListNotations.
Open Scope R_scope.

(** ** Optimisers that exist *)
Definition preferring (x : R * R) : minimizer2 := fun f _ b =>
  if excluded_middle_informative (best_in b f x) then x
  else if excluded_middle_informative (exists y, least_best b f y) then epsilon (inhabits (0, 0)) (least_best b f)
  else if excluded_middle_informative (exists y, best_in b f y) then epsilon (inhabits (0, 0)) (best_in b f)
  else (fst (fst b), fst (snd b)).
Definition least : minimizer2 := fun f _ b =>
  if excluded_middle_informative (exists y, least_best b f y) then epsilon (inhabits (0, 0)) (least_best b f)
  else if excluded_middle_informative (exists y, best_in b f y) then epsilon (inhabits (0, 0)) (best_in b f)
  else (fst (fst b), fst (snd b)).
Definition preferring1 (x : R) : minimizer1 := fun f _ lo =>
  if excluded_middle_informative (best_from lo f x) then Some x
  else if excluded_middle_informative (exists y, best_from lo f y) then Some (epsilon (inhabits 0) (best_from lo f))
  else None.

Lemma preferring_best : forall x, finds_best (preferring x).
Proof.
  intros x. split.
  - intros f x0 b H1 H2. unfold preferring. destruct (excluded_middle_informative _) as [E|_]; [apply E|].
    destruct (excluded_middle_informative _) as [E|_]; [apply (epsilon_spec (inhabits (0, 0)) _ E)|].
    destruct (excluded_middle_informative _) as [E|_]; [apply (epsilon_spec (inhabits (0, 0)) _ E)|].
    unfold inside. cbn [fst snd]. lra.
  - intros f x0 b E. unfold preferring. destruct (excluded_middle_informative _) as [E1|_]; [auto|].
    destruct (excluded_middle_informative _) as [E1|_]; [apply (epsilon_spec (inhabits (0, 0)) _ E1)|].
    destruct (excluded_middle_informative _) as [E1|N]; [apply (epsilon_spec (inhabits (0, 0)) _ E1)|]. tauto.
Qed.
Lemma least_finds : finds_least least.
Proof.
  split; [split|].
  - intros f x0 b H1 H2. unfold least. destruct (excluded_middle_informative _) as [E|_]; [apply (epsilon_spec (inhabits (0, 0)) _ E)|].
    destruct (excluded_middle_informative _) as [E|_]; [apply (epsilon_spec (inhabits (0, 0)) _ E)|].
    unfold inside. cbn [fst snd]. lra.
  - intros f x0 b E. unfold least.
    destruct (excluded_middle_informative _) as [E1|_]; [apply (epsilon_spec (inhabits (0, 0)) _ E1)|].
    destruct (excluded_middle_informative _) as [E1|N]; [apply (epsilon_spec (inhabits (0, 0)) _ E1)|]. tauto.
  - intros f x0 b E. unfold least.
    destruct (excluded_middle_informative _) as [E1|N]; [apply (epsilon_spec (inhabits (0, 0)) _ E1)|]. tauto.
Qed.
Lemma preferring1_best : forall x, finds_best1 (preferring1 x).
Proof.
  intros x f x0 lo _ E. unfold preferring1. destruct (excluded_middle_informative _) as [E1|_]; [eauto|].
  destruct (excluded_middle_informative _) as [E1|N]; [|tauto].
  exists (epsilon (inhabits 0) (best_from lo f)). split; auto. apply (epsilon_spec (inhabits 0) _ E1).
Qed.

(** ** What can be reached *)
Lemma drop_attainable : forall ti dls d n tol p u m inc azi, 0 < dls -> 0 <= tol -> 0 <= ti <= 180 ->
  (forall L, d = Some L -> 0 <= L) -> starts n p u m -> bears u inc azi ->
  ((exists mini l k q v m', keeps_bounds mini /\ drop_off mini ti dls d n tol = DropNodes l /\ In k l /\
      describes k q v m' /\ angle_between down v (radians ti)) <->
   (forall L, d = Some L -> dls_radius dls * Rabs (radians ti - inc) <= L)).
Proof.
  intros ti dls d n tol p u m inc azi DL TL HT LP ST B. pose proof (dls_radius_pos dls DL) as RP.
  pose proof (radians_range ti HT) as TR. pose proof B as (_ & HI & _). split.
  - intros (mini & l & k & q & v & m' & KB & E & IK & DK & AN) L ->.
    destruct (drop_nodes _ _ _ _ _ _ _ _ _ _ _ _ KB DL TL ST B E) as (t & w & p2 & n2 & T & W & _ & D2 & LL & C).
    assert (V : v = w).
    { destruct C as [(-> & _)|(L' & k3 & _ & _ & -> & D3)]; destruct DK as (_ & DK & _), D2 as (_ & D2 & _).
      - destruct IK as [<-|[]]. congruence.
      - destruct D3 as (_ & D3 & _). destruct IK as [<-|[<-|[]]]; congruence. }
    subst w. specialize (LL L eq_refl). eapply Rle_trans; [|apply LL].
    apply Rmult_le_compat_l; [lra|].
    destruct W as [-> | ->]; apply angle_down in AN; destruct AN as [A1 A2].
    + pose proof (fold_near inc t (radians ti) HI A1 A2) as F. rewrite (Rabs_right t) in F by lra. auto.
    + pose proof (fold_near inc (- t) (radians ti) HI A1 A2) as F. rewrite Rabs_Ropp, (Rabs_right t) in F by lra. auto.
  - intros H. destruct least_finds as [FB _].
    assert (SU : exists l, drop_off least ti dls d n tol = DropNodes l).
    { destruct (drop_success least ti dls d n tol p u m inc azi ST B TL) as [_ Q]. apply (proj1 (Q DL)). auto. }
    destruct SU as [l E].
    pose proof (drop_best least ti dls d n tol l p u m inc azi FB DL TL HT ST B E) as BE. cbv zeta in BE.
    destruct (drop_nodes least ti dls d n tol l p u m inc azi (proj1 FB) DL TL ST B E) as (t & w & p2 & n2 & T & W & _ & D2 & LL & C).
    exists least, l, n2, p2, w. eexists. split; [apply FB|]. split; auto.
    assert (IK : In n2 l) by (destruct C as [(-> & _)|(L' & k3 & _ & _ & -> & _)]; left; auto).
    split; auto. split; [apply D2|].
    specialize (BE _ _ _ _ IK D2).
    set (D := Rmin (2 * PI) _) in BE.
    assert (DB : Rabs (radians ti - inc) <= D).
    { unfold D. pose proof PI_RGT_0. assert (Rabs (radians ti - inc) <= 2 * PI) by (apply Rabs_le; lra).
      apply Rmin_glb; auto. destruct d as [L|]; auto. specialize (H L eq_refl).
      apply Rmult_le_reg_l with (dls_radius dls); auto. replace (dls_radius dls * (L / dls_radius dls)) with L by (field; lra). auto. }
    destruct (nearest_facts D (radians ti - inc)) as (_ & Q & _); [pose proof (Rabs_pos (radians ti - inc)); lra|].
    rewrite Q in BE by auto. replace (inc + (radians ti - inc)) with (radians ti) in BE by ring. auto.
Qed.

(** ** extend_to_tvd without a target inclination *)
Lemma forced_check : forall p u m dls q w, (forall d, dls = Some d -> 0 < d) ->
  check_args (forced_args p (Some u) m dls q w) = None.
Proof.
  intros p u m dls q w HD. unfold check_args, forced_args.
  cbn [a_vec1 a_inc1 a_azi1 a_md2 a_pos2 a_vec2 a_inc2 a_azi2 a_md1 a_dls a_min_error given truthy negb orb andb].
  assert (PD : forall d, dls = Some d -> 0 < radians d).
  { intros d E. unfold radians. pose proof PI_RGT_0. apply Rmult_lt_0_compat; [auto|]. apply Rdiv_lt_0_compat; lra. }
  destruct w; cbn [given truthy negb orb andb]; destruct dls as [d|]; cbn [option_map];
    try (destruct (Rlt_dec 0 (radians d)) as [_|Z]; [|specialize (PD d eq_refl); lra]);
    destruct (Rlt_dec (1 / 100000) 1); auto; lra.
Qed.
Lemma allclose_refl : forall v, allclose v v.
Proof.
  intros [x y z]. unfold allclose, close, atol, rtol. cbn.
  rewrite !Rminus_diag_eq by reflexivity. rewrite Rabs_R0.
  pose proof (Rabs_pos x). pose proof (Rabs_pos y). pose proof (Rabs_pos z). lra.
Qed.
Lemma norm_scale_unit : forall x u, is_unit u -> 0 <= x -> norm (vscale x u) = x.
Proof.
  intros x u U H. unfold norm. replace (dot (vscale x u) (vscale x u)) with (x * x).
  - apply sqrt_square; auto.
  - unfold is_unit in U. unf. cbn [vx vy vz] in *. transitivity (x * x * 1); [ring|]. rewrite <- U. ring.
Qed.
Lemma vadd_vsub : forall p d, vsub (vadd p d) p = d.
Proof. intros [] []. unf. apply V3_eq; simpl; ring. Qed.
Lemma normalised_scale : forall x u, is_unit u -> 0 < x -> normalised (vscale x u) = Some u.
Proof.
  intros x u U H. unfold normalised, vunit. rewrite norm_scale_unit by (auto; lra). destruct (Req_EM_T x 0); [lra|]. f_equal.
  destruct u. unf. apply V3_eq; simpl; field; lra.
Qed.
Lemma unit_not_opposite : forall u, is_unit u -> u <> vneg u.
Proof.
  intros [x y z] U E. unfold is_unit in U. unf. cbn in *. injection E; intros.
  assert (x = 0) by lra. assert (y = 0) by lra. assert (z = 0) by lra. subst. lra.
Qed.

Lemma forced_ahead : forall bump p u m dls x, is_unit u -> (forall d, dls = Some d -> 0 < d) -> 0 < x ->
  connector bump (forced_args p (Some u) m dls (vadd p (vscale x u)) None)
  = inl (mkConn Hold p u m (vadd p (vscale x u)) u (x + m) None None 0 0 0 0).
Proof.
  intros bump p u m dls x U HD X. unfold connector. rewrite forced_check by auto.
  set (a := forced_args p (Some u) m dls (vadd p (vscale x u)) None).
  assert (SV : start_vec a = u) by reflexivity.
  assert (TV : target_vec a = u).
  { unfold target_vec. change (target_vec0 a) with u. rewrite SV. destruct (v3_eq_dec u (vneg u)) as [E|_]; auto.
    destruct (unit_not_opposite u U E). }
  assert (GM : get_method a = inl "hold"%string).
  { unfold get_method. change (initial_method a) with (Some "min_curve_or_hold"%string).
    cbn [String.eqb Ascii.eqb Bool.eqb orb]. change (ends_or_hold "min_curve_or_hold") with true. cbv iota.
    rewrite TV, SV. destruct (v3_eq_dec u u) as [_|Z]; [|tauto].
    change (a_pos2 a) with (Some (vadd p (vscale x u))). change (a_pos1 a) with p. cbv iota.
    rewrite vadd_vsub, normalised_scale by auto. destruct (allclose_dec u u) as [_|Z]; auto. destruct (Z (allclose_refl u)). }
  rewrite GM. cbn [String.eqb Ascii.eqb Bool.eqb]. unfold do_hold. rewrite TV, SV.
  change (a_pos2 a) with (Some (vadd p (vscale x u))). change (a_md2 a) with (@None R). change (a_pos1 a) with p. change (a_md1 a) with m.
  cbv iota. rewrite vadd_vsub, norm_scale_unit by (auto; lra). reflexivity.
Qed.
