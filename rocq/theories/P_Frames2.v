(** C124: closest points and results in another frame. *)
Require Import Reals Lra Psatz Lia ZArith Bool String List FunctionalExtensionality.
Require Import Verif.Base Verif.NumPy Verif.P_Trig Verif.Spec Verif.Spec_Lists Verif.M_Utils Verif.P_Utils
  Verif.P_Utils2 Verif.M_Survey Verif.P_Survey Verif.P_Survey2 Verif.M_Error Verif.M_Clearance Verif.M_MaxCurve Verif.M_Refine
  Verif.Spec_Refine Verif.P_Refine Verif.P_Refine2 Verif.Spec_Frames Verif.P_Frames.
Import ListNotations.
Local Open Scope R_scope.

Lemma F2_nth : forall A B (P : A -> B -> Prop) l l' i, Forall2 P l l' ->
  match nth_error l i, nth_error l' i with Some a, Some b => P a b | None, None => True | _, _ => False end.
Proof.
  intros A B P l l' i H. revert i. induction H; intros [|i]; cbn; auto. apply IHForall2.
Qed.
Lemma F2_len : forall A B (P : A -> B -> Prop) l l', Forall2 P l l' -> length l = length l'.
Proof. intros A B P l l' H. induction H; cbn; auto. Qed.
Lemma moved_mds : forall Q l l', Forall2 (moved_station Q) l l' -> map st_md l' = map st_md l.
Proof. intros Q l l' H. induction H as [|a b l l' [M _] H IH]; cbn; [auto|congruence]. Qed.

Lemma interp_moved : forall Q a a' b b' x, isometry Q -> moved_station Q a a' -> moved_station Q b b' -> pair_dogleg a b < PI ->
  moved_station Q (interp_station a b x) (interp_station a' b' x).
Proof.
  intros Q a a' b b' x I A B D. split; [rewrite !md_interp; destruct A as [-> _]; reflexivity|].
  fold (dir (interp_station a' b' x)). fold (dir (interp_station a b x)).
  pose proof (moved_dogleg Q a a' b b' I A B) as DD.
  destruct (dogleg_angle (st_inc a) (st_azi a) (st_inc b) (st_azi b)) as [R0 _]. fold (pair_dogleg a b) in R0.
  destruct (Req_EM_T (pair_dogleg a b) 0) as [Z|Z].
  - assert (G : forall c d, pair_dogleg c d = 0 -> dir (interp_station c d x) = dir c).
    { intros c d E. unfold interp_station, interp_angles. destruct (Req_EM_T (pair_dogleg c d) 0); [reflexivity|contradiction]. }
    rewrite !G by congruence. apply moved_dir. exact A.
  - rewrite !dir_interp by lra. rewrite DD, (moved_dir _ _ _ A), (moved_dir _ _ _ B), bend_iso, tangent_iso.
    destruct A as [-> _], B as [-> _]. reflexivity.
Qed.
Lemma pos_moved : forall Q t p a a' b b' x, isometry Q -> moved_station Q a a' -> moved_station Q b b' -> pair_dogleg a b < PI ->
  interpolate_pos_nev (moved Q t p) a' b' x = moved Q t (interpolate_pos_nev p a b x).
Proof.
  intros Q t p a a' b b' x I A B D. rewrite !interpolate_pos_nev_step.
  rewrite (moved_step Q a a' (interp_station a b x)); auto; [apply moved_add|]. apply interp_moved; auto.
Qed.

Section Offset.
  Variables (Q : M3) (t : V3) (s s' : survey).
  Hypothesis I : isometry Q.
  Hypothesis M : moved_survey Q t s s'.
  Hypothesis N : no_reversal s.

  Lemma row_moved : forall i, match nth_error (sv_rows s) i, nth_error (sv_rows s') i with
    | Some a, Some b => moved_station Q a b | None, None => True | _, _ => False end.
  Proof. intro i. apply F2_nth. apply M. Qed.
  Lemma nev_moved : forall i, nth_error (sv_nev s') i = option_map (moved Q t) (nth_error (sv_nev s) i).
  Proof. intro i. destruct M as (_ & _ & E & _). rewrite E, nth_error_map. reflexivity. Qed.
  Lemma closest_fun_moved : forall i p, closest_fun s' i (moved Q t p) = closest_fun s i p.
  Proof.
    intros i p. extensionality x. unfold closest_fun. rewrite nev_moved. pose proof (row_moved i) as A. pose proof (row_moved (S i)) as B.
    destruct (nth_error (sv_rows s) i) as [a|] eqn:EA, (nth_error (sv_rows s') i) as [a'|]; try contradiction; [|reflexivity].
    destruct (nth_error (sv_rows s) (S i)) as [b|] eqn:EB, (nth_error (sv_rows s') (S i)) as [b'|]; try contradiction; [|reflexivity].
    destruct (nth_error (sv_nev s) i) as [q|]; [|reflexivity]. cbn [option_map].
    rewrite (pos_moved Q t q a a' b b' x I A B (N i a b EA EB)), moved_sub, iso_norm by exact I. reflexivity.
  Qed.
  Lemma interval_moved : forall i, interval s' i = interval s i.
  Proof.
    intro i. unfold interval. destruct M as (_ & R & _). pose proof (moved_mds _ _ _ R) as E.
    assert (G : forall k, st_md (nth k (sv_rows s') (mkSt 0 0 0)) = st_md (nth k (sv_rows s) (mkSt 0 0 0))).
    { intro k. rewrite <- !(map_nth st_md). rewrite E. reflexivity. }
    rewrite !G. reflexivity.
  Qed.
  Lemma nearest_moved : forall p, nearest_station (sv_nev s') (moved Q t p) = nearest_station (sv_nev s) p.
  Proof.
    intro p. unfold nearest_station. destruct M as (_ & _ & E & _). rewrite E, map_map. f_equal. apply map_ext. intro q.
    unfold dist. rewrite moved_sub. apply iso_norm. exact I.
  Qed.

  Definition has_positions (z : survey) : Prop :=
    length (sv_xyz z) = length (sv_rows z) /\ length (sv_nev z) = length (sv_rows z) /\
    (h_unit (sv_header z) = "meters" \/ h_unit (sv_header z) = "feet")%string.
  Hypothesis H1 : has_positions s.
  Hypothesis H2 : has_positions s'.
  Lemma report_moved : forall i x,
    match interpolate_at s' x i with Some (z, _) => nth_error (sv_nev z) 1 | None => None end =
    option_map (moved Q t) match interpolate_at s x i with Some (z, _) => nth_error (sv_nev z) 1 | None => None end.
  Proof.
    intros i x.
    assert (G : forall z, has_positions z -> match interpolate_at z x i with Some (z, _) => nth_error (sv_nev z) 1 | None => None end =
      match nth_error (sv_rows z) i, nth_error (sv_rows z) (S i), nth_error (sv_nev z) i with
      | Some a, Some b, Some p => Some (interpolate_pos_nev p a b x) | _, _, _ => None end).
    { clear. intros z (L1 & L2 & U). 
      destruct (nth_error (sv_rows z) i) as [a|] eqn:A; [|unfold interpolate_at; rewrite A; reflexivity].
      destruct (nth_error (sv_rows z) (S i)) as [b|] eqn:B; [|unfold interpolate_at; rewrite A, B; reflexivity].
      assert (Li : (i < length (sv_rows z))%nat) by (apply nth_error_Some; congruence).
      destruct (nth_error_some_lt _ (sv_xyz z) i) as [xyz X]; [lia|]. destruct (nth_error_some_lt _ (sv_nev z) i) as [nev P]; [lia|].
      destruct (interpolate_at_node z x i a b xyz nev A B X P U) as (r & h & n & E & NO & _ & _ & PO & _).
      rewrite E, P, <- PO. unfold node_of in NO. destruct (nth_error (sv_rows r) 1); [|discriminate].
      destruct (nth_error (sv_nev r) 1); [|discriminate]. destruct (nth_error (sv_interpolated r) 1); [|discriminate].
      injection NO as <-. reflexivity. }
    rewrite !G by auto. rewrite nev_moved. pose proof (row_moved i) as A. pose proof (row_moved (S i)) as B.
    destruct (nth_error (sv_rows s) i) as [a|] eqn:EA, (nth_error (sv_rows s') i) as [a'|]; try contradiction; [|reflexivity].
    destruct (nth_error (sv_rows s) (S i)) as [b|] eqn:EB, (nth_error (sv_rows s') (S i)) as [b'|]; try contradiction; [|reflexivity].
    destruct (nth_error (sv_nev s) i) as [q|]; [|reflexivity]. cbn [option_map]. f_equal.
    apply pos_moved; auto. exact (N i a b EA EB).
  Qed.
  Lemma closest_point_moved : forall opt p i,
    closest_point opt s' (moved Q t p) i = option_map (fun r => let '(k, x, f, q) := r in (k, x, f, moved Q t q)) (closest_point opt s p i).
  Proof.
    intros opt p i. unfold closest_point. rewrite !closest_fun_moved, !interval_moved.
    assert (L : length (sv_nev s') = length (sv_nev s)) by (destruct M as (_ & _ & E & _); rewrite E, map_length; reflexivity).
    rewrite L.
    assert (G : forall k r, (match interpolate_at s' (fst r) k with
        | Some (sv, _) => match nth_error (sv_nev sv) 1 with Some q => Some (k, fst r, snd r, q) | None => None end | None => None end) =
      option_map (fun r => let '(k, x, f, q) := r in (k, x, f, moved Q t q))
       (match interpolate_at s (fst r) k with
        | Some (sv, _) => match nth_error (sv_nev sv) 1 with Some q => Some (k, fst r, snd r, q) | None => None end | None => None end)
      :> option (nat * R * R * V3)).
    { intros k r. pose proof (report_moved k (fst r)) as E.
      destruct (interpolate_at s' (fst r) k) as [[z' h']|], (interpolate_at s (fst r) k) as [[z h]|]; cbn [option_map] in *.
      - rewrite E. destruct (nth_error (sv_nev z) 1); reflexivity.
      - rewrite E. reflexivity.
      - destruct (nth_error (sv_nev z) 1); [discriminate|reflexivity].
      - reflexivity. }
    cbv zeta. destruct (0 <? i)%nat, (i <? length (sv_nev s) - 1)%nat; cbv iota beta.
    - destruct (Rlt_dec _ _); apply G.
    - apply G.
    - apply G.
    - reflexivity.
  Qed.
End Offset.

Lemma unit_moved : forall Q v d, unit_or_zero (mv Q v) d = mv Q (unit_or_zero v d).
Proof.
  intros Q v d. unfold unit_or_zero. destruct (Req_EM_T d 0); [symmetry; apply mv_zero|].
  destruct Q as [[] [] []], v; unf; apply V3_eq; simpl; field; auto.
Qed.
Lemma rule_moved : forall Q t k sp Sm Rr Ro inc azi inc' azi' p q rc oc, isometry Q ->
  iscwsa_rule k sp Sm Rr Ro inc' azi' (moved Q t p) (moved Q t q) (mm (mm Q rc) (mtrans Q)) (mm (mm Q oc) (mtrans Q)) =
  iscwsa_rule k sp Sm Rr Ro inc azi p q rc oc.
Proof.
  intros Q t k sp Sm Rr Ro inc azi inc' azi' p q rc oc I. unfold iscwsa_rule, delta_vectors. cbv zeta. cbn [dl_ref_nev dl_off_nev dl_distance].
  rewrite !moved_sub, iso_norm, !unit_moved by exact I. unfold pcr. rewrite !cov_iso by exact I. reflexivity.
Qed.
Lemma run_moved : forall Q t opt c ref off ref' off', isometry Q ->
  moved_well Q t ref ref' -> moved_well Q t off off' -> has_positions (w_survey off) -> has_positions (w_survey off') ->
  no_reversal (w_survey off) -> clearance_run opt c ref' off' = clearance_run opt c ref off.
Proof.
  intros Q t opt c ref off ref' off' I (MR & CR & RR) (MO & CO & RO) P1 P2 N. unfold clearance_run.
  assert (L : length (sv_rows (w_survey ref')) = length (sv_rows (w_survey ref))) by (symmetry; eapply F2_len; apply MR).
  rewrite L. apply map_ext. intro i. unfold station_rule.
  rewrite (nev_moved Q t _ _ MR), CR, RR, nth_error_map. pose proof (row_moved Q t _ _ MR i) as A.
  destruct (nth_error (sv_rows (w_survey ref)) i) as [a|], (nth_error (sv_rows (w_survey ref')) i) as [a'|]; try contradiction; [|reflexivity].
  destruct (nth_error (sv_nev (w_survey ref)) i) as [p|]; [|reflexivity]. cbn [option_map].
  destruct (nth_error (w_cov ref) i) as [rc|]; [|reflexivity]. cbn [option_map].
  destruct (nth_error (w_radius ref) i) as [rr|]; [|reflexivity].
  rewrite (nearest_moved Q t _ _ I MO), (closest_point_moved Q t _ _ I MO N P1 P2), RO.
  set (j := nearest_station _ _). destruct (closest_point opt (w_survey off) p j) as [[[[k x] f] q]|]; [|reflexivity]. cbn [option_map].
  destruct (nth_error (w_radius off) j) as [ro|]; [|reflexivity].
  rewrite CO, !nth_error_map. destruct (nth_error (w_cov off) k) as [ca|]; [|reflexivity]. cbn [option_map].
  destruct (nth_error (w_cov off) (S k)) as [cb|]; [|reflexivity]. cbn [option_map].
  rewrite cov_interp, (interval_moved Q t _ _ MO). apply rule_moved. exact I.
Qed.

Lemma built_positions : forall s, built s -> has_positions s.
Proof.
  intros s (h & rows & deg & sx & sn & unit & E). destruct (Survey_xyz_len _ _ _ _ _ _ _ E) as [A B].
  apply Survey_inv in E. destruct E as (U & HH & _ & _ & UU & _). split; auto. split; auto. rewrite HH, <- U. exact UU.
Qed.
Lemma clearance_moved : forall Q t opt c ref off ref' off', isometry Q ->
  moved_well Q t ref ref' -> moved_well Q t off off' -> built (w_survey off) -> built (w_survey off') ->
  no_reversal (w_survey off) -> clearance_run opt c ref' off' = clearance_run opt c ref off.
Proof. intros. eapply run_moved; eauto using built_positions. Qed.
