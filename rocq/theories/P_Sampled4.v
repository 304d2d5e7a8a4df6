(** A corkscrew that every survey of it takes for a straight hole. *)
Require Import Reals ZArith Bool String List Lra Lia Psatz.
Require Import Verif.Base Verif.NumPy Verif.Spec Verif.Spec_Lists Verif.M_Utils Verif.M_Survey Verif.Spec_Length Verif.Spec_Missed Verif.Spec_Sampled.
Require Import Verif.P_Trig Verif.P_Utils Verif.P_Utils2 Verif.P_Survey Verif.P_Survey2 Verif.P_Survey3 Verif.P_Survey5 Verif.P_Length Verif.P_Missed Verif.P_Missed2 Verif.P_Refine Verif.P_Refine6 Verif.P_Round Verif.P_Round2 Verif.P_Stability Verif.P_Sampled.
Import ListNotations.
Local Open Scope R_scope.

Lemma sin_scaled a x : 0 <= a <= 1 -> 0 <= x <= PI -> a * sin x <= sin (a * x).
Proof.
  intros A X. destruct (Req_dec x 0) as [->|N]; [rewrite Rmult_0_r, sin_0; lra|].
  set (f := fun y => sin (a * y) - a * sin y). set (f' := fun y => a * cos (a * y) - a * cos y).
  assert (D : forall y, derivable_pt_lim f y (f' y)).
  { intros y. apply (derivable_pt_lim_minus (fun y => sin (a * y)) (fun y => a * sin y)).
    - replace (a * cos (a * y)) with (cos (a * y) * a) by ring. apply (derivable_pt_lim_comp (fun y => a * y) sin); [|apply derivable_pt_lim_sin].
      assert (F : derivable_pt_lim (fun y => a * y) y (a * 1)) by (apply derivable_pt_lim_scal, derivable_pt_lim_id). rewrite Rmult_1_r in F. exact F.
    - apply derivable_pt_lim_scal, derivable_pt_lim_sin. }
  destruct (MVT_cor2 f f' 0 x ltac:(lra) (fun y _ => D y)) as (y & E & Y).
  assert (0 <= f' y).
  { unfold f'. assert (cos y <= cos (a * y)) by (apply cos_decr_1; nra). nra. }
  assert (F0 : f 0 = 0) by (unfold f; rewrite Rmult_0_r, sin_0; ring). rewrite F0 in E.
  assert (0 <= f' y * (x - 0)) by (apply Rmult_le_pos; lra). unfold f in E at 1. lra.
Qed.
Lemma sin_scaled_far a x : 0 <= a <= 1 -> 0 <= x -> a * x <= PI / 2 -> a * Rabs (sin x) <= sin (a * x).
Proof.
  intros A X L. pose proof PI_RGT_0. destruct (Rle_dec x (PI / 2)) as [S|S].
  - rewrite Rabs_pos_eq by (apply sin_ge_0; lra). apply sin_scaled; lra.
  - pose proof (sin_scaled a (PI / 2) A ltac:(lra)) as Q. rewrite sin_PI2 in Q.
    assert (a * (PI / 2) <= a * x) by (apply Rmult_le_compat_l; lra).
    assert (sin (a * (PI / 2)) <= sin (a * x)) by (apply sin_incr_1; nra).
    assert (Rabs (sin x) <= 1) by (apply Rabs_le; pose proof (SIN_bound x); lra).
    pose proof (Rabs_pos (sin x)). nra.
Qed.

Lemma square_in a y : 0 <= a <= 1 -> -1 <= y <= 1 -> 0 <= (a * y) ^ 2 <= 1.
Proof.
  intros A Y. split; [apply pow2_ge_0|]. assert (-1 <= a * y <= 1) by nra. nra.
Qed.
Section Corkscrew.
  Variables (g al : R).
  Hypothesis HG : 0 < g.
  Hypothesis HA : 0 <= sin al <= 1.
  Let w := 2 * PI / g.
  Let k := sin al * w.
  Definition screw_dir (s : R) : V3 := mkV (sin al * cos (2 * PI / g * s)) (sin al * sin (2 * PI / g * s)) (cos al).
  Definition screw_pos (s : R) : V3 := mkV (sin al / (2 * PI / g) * sin (2 * PI / g * s)) (sin al / (2 * PI / g) * (1 - cos (2 * PI / g * s))) (cos al * s).
  Lemma screw_rate : 0 < w.
  Proof. unfold w. pose proof PI_RGT_0. apply Rdiv_lt_0_compat; lra. Qed.
  Lemma screw_drilled : drilled screw_pos screw_dir.
  Proof.
    pose proof screw_rate as W. intros s. unfold screw_pos, screw_dir. fold w. cbn [vx vy vz]. split; [|split; [|split]].
    - unfold is_unit, dot. cbn [vx vy vz]. pose proof (sin2_cos2 al) as P. pose proof (sin2_cos2 (w * s)) as Q. unfold Rsqr in P, Q.
      replace (sin al * cos (w * s) * (sin al * cos (w * s)) + sin al * sin (w * s) * (sin al * sin (w * s)) + cos al * cos al)
        with (sin al * sin al * (sin (w * s) * sin (w * s) + cos (w * s) * cos (w * s)) + cos al * cos al) by ring. rewrite Q. lra.
    - assert (F : derivable_pt_lim (fun x => sin al / w * sin (w * x)) s (sin al / w * (cos (w * s) * (w * 1)))).
      { apply derivable_pt_lim_scal. apply (derivable_pt_lim_comp (fun x => w * x) sin); [apply derivable_pt_lim_scal, derivable_pt_lim_id|apply derivable_pt_lim_sin]. }
      replace (sin al / w * (cos (w * s) * (w * 1))) with (sin al * cos (w * s)) in F by (field; lra). exact F.
    - assert (F : derivable_pt_lim (fun x => sin al / w * (1 - cos (w * x))) s (sin al / w * (0 - - sin (w * s) * (w * 1)))).
      { apply derivable_pt_lim_scal. apply (derivable_pt_lim_minus (fun _ => 1) (fun x => cos (w * x))); [apply derivable_pt_lim_const|].
        apply (derivable_pt_lim_comp (fun x => w * x) cos); [apply derivable_pt_lim_scal, derivable_pt_lim_id|apply derivable_pt_lim_cos]. }
      replace (sin al / w * (0 - - sin (w * s) * (w * 1))) with (sin al * sin (w * s)) in F by (field; lra). exact F.
    - assert (F : derivable_pt_lim (fun x => cos al * x) s (cos al * 1)) by (apply derivable_pt_lim_scal, derivable_pt_lim_id). rewrite Rmult_1_r in F. exact F.
  Qed.
  Lemma screw_dot s s' : dot (screw_dir s) (screw_dir s') = 1 - 2 * (sin al * sin (w * (s' - s) / 2)) ^ 2.
  Proof.
    unfold screw_dir, dot. fold w. cbn [vx vy vz]. pose proof (sin2_cos2 al) as P. unfold Rsqr in P.
    assert (C : cos (w * (s' - s)) = cos (w * s') * cos (w * s) + sin (w * s') * sin (w * s)) by (rewrite <- cos_minus; f_equal; ring).
    assert (H : cos (w * (s' - s)) = 1 - 2 * (sin (w * (s' - s) / 2)) ^ 2).
    { replace (w * (s' - s)) with (2 * (w * (s' - s) / 2)) at 1 by field. rewrite cos_2a_sin. ring. }
    replace (sin al * cos (w * s) * (sin al * cos (w * s')) + sin al * sin (w * s) * (sin al * sin (w * s')) + cos al * cos al)
      with (sin al * sin al * (cos (w * s') * cos (w * s) + sin (w * s') * sin (w * s)) + cos al * cos al) by ring.
    rewrite <- C, H. nra.
  Qed.
  Lemma screw_turns : turns_at_most k screw_dir.
  Proof.
    intros s s' L. pose proof screw_rate as W. pose proof PI_RGT_0 as P0.
    destruct (Rle_dec (k * (s' - s)) PI) as [B|B].
    - set (t := acos (dot (screw_dir s) (screw_dir s'))).
      assert (R1 : -1 <= dot (screw_dir s) (screw_dir s') <= 1).
      { rewrite screw_dot. pose proof (SIN_bound (w * (s' - s) / 2)) as Z. 
        pose proof (square_in (sin al) _ HA Z) as Q. clear - Q. lra. }
      assert (T : angle_between (screw_dir s) (screw_dir s') t).
      { split; [apply acos_bound|]. unfold t. apply cos_acos, R1. }
      exists t. split; [exact T|]. destruct T as [TB TC]. destruct (Rle_dec t (k * (s' - s))) as [Y|Y]; [exact Y|exfalso].
      set (x := w * (s' - s) / 2) in *. assert (X : 0 <= x) by (unfold x; nra).
      assert (KX : k * (s' - s) = 2 * (sin al * x)) by (unfold k, x; field).
      pose proof (sin_scaled_far (sin al) x HA X ltac:(lra)) as S.
      assert (CC : cos t < cos (k * (s' - s))). { apply cos_decreasing_1; try lra. rewrite KX. nra. }
      rewrite TC, screw_dot in CC. fold x in CC. rewrite KX, cos_2a_sin in CC.
      assert ((sin al * sin x) ^ 2 <= sin (sin al * x) ^ 2).
      { replace ((sin al * sin x) ^ 2) with ((sin al * Rabs (sin x)) ^ 2) by (rewrite !Rpow_mult_distr, pow2_abs; reflexivity).
        apply pow_incr. split; [apply Rmult_le_pos; [lra|apply Rabs_pos]|exact S]. }
      nra.
    - exists (acos (dot (screw_dir s) (screw_dir s'))). pose proof (acos_bound (dot (screw_dir s) (screw_dir s'))) as AB. split; [split; [exact AB|]|lra].
      apply cos_acos. rewrite screw_dot. pose proof (SIN_bound (w * (s' - s) / 2)) as Z. 
      pose proof (square_in (sin al) _ HA Z) as Q. clear - Q. lra.
  Qed.
  Lemma screw_turn_end i : sin (2 * PI / g * (INR i * g)) = 0 /\ cos (2 * PI / g * (INR i * g)) = 1.
  Proof.
    replace (2 * PI / g * (INR i * g)) with (0 + 2 * INR i * PI) by (field; lra). rewrite sin_period, cos_period, sin_0, cos_0. auto.
  Qed.
  Definition screw_rows (n : nat) : list row := map (fun i => (INR i * g, al, 0)) (seq 0 (S (S n))).
End Corkscrew.
Lemma rows_increasing g al : 0 < g -> forall n i, strictly_increasing (map st_md (map (fun j => mkSt (INR j * g) al 0) (seq i n))).
Proof.
  intros G. induction n as [|[|n] IH]; intros i; [exact I|exact I|]. split; [|exact (IH (S i))]. cbn [st_md map seq]. rewrite S_INR. lra.
Qed.
Lemma nth_seq_map (A : Type) (f : nat -> A) n i a : nth_error (map f (seq 0 n)) i = Some a -> (i < n)%nat /\ a = f i.
Proof.
  intros H. assert (L : (i < n)%nat). { assert (nth_error (map f (seq 0 n)) i <> None) as Z by congruence. apply nth_error_Some in Z. rewrite map_length, seq_length in Z. exact Z. }
  split; [exact L|]. rewrite nth_error_map in H. rewrite (nth_error_nth' _ 0%nat) in H by (rewrite seq_length; exact L). rewrite seq_nth in H by exact L. simpl in H. congruence.
Qed.
Lemma corkscrew : forall k g n, 0 < k -> 0 < g -> k * g < PI -> exists sv c T, surveyed sv /\ spacing sv g /\ drilled c T /\ turns_at_most k T /\ measures sv c T /\
  length (sv_rows sv) = S (S n) /\ forall i a p, nth_error (sv_rows sv) i = Some a -> nth_error (sv_nev sv) i = Some p ->
    st_md a = INR i * g /\ dist p (c (st_md a)) = st_md a * (k * g / (2 * PI)).
Proof.
  intros k g n K G KG. pose proof PI_RGT_0 as P0. set (r := k * g / (2 * PI)).
  assert (RR : 0 < r < 1). { unfold r. assert (0 < k * g) by nra. split; [apply Rdiv_lt_0_compat; lra|]. apply (Rmult_lt_reg_r (2 * PI)); [lra|]. replace (k * g / (2 * PI) * (2 * PI)) with (k * g) by (field; lra). lra. }
  set (al := asin r). assert (SA : sin al = r) by (unfold al; apply sin_asin; lra).
  destruct (Survey_total (wit_h "meters") (screw_rows g al n) false vzero vzero) as [s H]; [left; reflexivity|unfold screw_rows; rewrite map_length, seq_length; lia|].
  pose proof (Survey_rows _ _ _ _ _ _ _ H) as R.
  assert (RS : sv_rows s = map (fun i => mkSt (INR i * g) al 0) (seq 0 (S (S n)))).
  { rewrite R. unfold screw_rows. rewrite map_map. reflexivity. }
  assert (NS : forall i a, nth_error (sv_rows s) i = Some a -> (i < S (S n))%nat /\ a = mkSt (INR i * g) al 0) by (intros i a A; rewrite RS in A; exact (nth_seq_map _ _ _ _ _ A)).
  assert (HS : surveyed s).
  { split; [repeat eexists; exact H|]. split; [rewrite RS; apply rows_increasing, G|].
    intros i a b A B. destruct (NS i a A) as [_ ->]. destruct (NS (S i) b B) as [_ ->]. cbn [st_inc st_azi]. rewrite (proj2 (dogleg_0_iff al 0 al 0) eq_refl). exact P0. }
  exists s, (screw_pos g al), (screw_dir g al). split; [exact HS|].
  split. { intros i a b A B. destruct (NS i a A) as [_ ->]. destruct (NS (S i) b B) as [_ ->]. cbn [st_md]. rewrite S_INR. lra. }
  split; [apply screw_drilled, G|].
  split. { pose proof (screw_turns g al G ltac:(lra)) as Z. rewrite SA in Z. replace (r * (2 * PI / g)) with k in Z; [exact Z|]. unfold r. field. lra. }
  pose proof (Survey_intervals _ _ _ _ _ _ _ H) as (_ & P1 & _).
  assert (HE : forall i, screw_pos g al (INR i * g) = mkV 0 0 (cos al * (INR i * g))).
  { intros i. unfold screw_pos. destruct (screw_turn_end g G i) as [-> ->]. f_equal; ring. }
  split. { split.
    - intros a p A P. destruct (NS 0%nat a A) as [_ ->]. rewrite P1 in P. injection P as <-. cbn [st_md]. rewrite HE. unfold vzero. f_equal. simpl. ring.
    - intros i a A. destruct (NS i a A) as [_ ->]. unfold heading, direction_nev, screw_dir. cbn [st_md st_inc st_azi]. destruct (screw_turn_end g G i) as [-> ->]. rewrite cos_0, sin_0. reflexivity. }
  split. { rewrite RS, map_length, seq_length. reflexivity. }
  assert (PP : forall i p, nth_error (sv_nev s) i = Some p -> p = vscale (INR i * g) (direction_nev al 0)).
  { destruct (sd_path s HS) as [LL W]. induction i as [|i IH]; intros p P.
    - rewrite P1 in P. injection P as <-. unfold vzero, vscale. simpl. f_equal; ring.
    - destruct (nth_before (sv_nev s) i (S i) p) as [q Q]; [lia|exact P|]. 
      assert (exists a, nth_error (sv_rows s) i = Some a) as [a A]. { destruct (nth_error (sv_rows s) i) eqn:E; [eauto|]. apply nth_error_None in E. assert (nth_error (sv_nev s) i <> None) as Z by congruence. apply nth_error_Some in Z. lia. }
      assert (exists b, nth_error (sv_rows s) (S i) = Some b) as [b B]. { destruct (nth_error (sv_rows s) (S i)) eqn:E; [eauto|]. apply nth_error_None in E. assert (nth_error (sv_nev s) (S i) <> None) as Z by congruence. apply nth_error_Some in Z. lia. }
      rewrite (W i a b q p A B Q P), (IH q Q). destruct (NS i a A) as [_ ->]. destruct (NS (S i) b B) as [_ ->]. rewrite straight_next, S_INR.
      generalize (direction_nev al 0). intros [x y z]. unfold vadd, vscale. cbn [vx vy vz]. f_equal; ring. }
  intros i a p A P. destruct (NS i a A) as [_ ->]. cbn [st_md]. split; [reflexivity|]. rewrite HE, (PP i p P). unfold direction_nev, vscale. cbn [vx vy vz]. rewrite cos_0, sin_0, SA.
  pose proof (pos_INR i) as PI0. apply dist_of; [apply Rmult_le_pos; [apply Rmult_le_pos; lra|lra]|]. ring.
Qed.
