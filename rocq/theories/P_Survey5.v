(** What a Survey built from rows contains, station by station. *)
Require Import Reals ZArith Bool String List Lra Lia.
Require Import Verif.Base Verif.NumPy Verif.P_Trig Verif.Spec Verif.M_Utils Verif.P_Utils Verif.P_Utils2 Verif.P_Utils3.
Require Import Verif.M_Survey Verif.P_Survey.
Import ListNotations.
Open Scope R_scope.

Lemma diff_from_nth : forall l p k a b, nth_error l k = Some a -> nth_error l (S k) = Some b ->
  nth_error (diff_from p l) (S k) = Some (b - a).
Proof.
  induction l as [|x l IH]; intros p k a b Ha Hb; [destruct k; discriminate|].
  destruct k; simpl in Ha, Hb.
  - injection Ha; intro; subst. destruct l; [discriminate|]. simpl in *. injection Hb; intro; subst. auto.
  - simpl. apply (IH x k a b); auto.
Qed.
Lemma diff_from_length : forall l p, length (diff_from p l) = length l.
Proof. induction l; simpl; auto. Qed.

Lemma MinCurve_intervals : forall svy start unit mc, MinCurve svy start unit = Some mc ->
  length (mc_delta_md mc) = length svy /\ length (mc_dogleg mc) = length svy /\
  length (mc_rf mc) = length svy /\ length (mc_dls mc) = length svy /\
  (forall a, nth_error svy 0 = Some a -> nth_error (mc_delta_md mc) 0 = Some (st_md a)) /\
  nth_error (mc_dogleg mc) 0 = Some 0 /\ nth_error (mc_rf mc) 0 = Some 1 /\
  forall k a b, nth_error svy k = Some a -> nth_error svy (S k) = Some b ->
    nth_error (mc_delta_md mc) (S k) = Some (st_md b - st_md a) /\
    exists dl, nth_error (mc_dogleg mc) (S k) = Some dl /\
      angle_between (direction_nev (st_inc a) (st_azi a)) (direction_nev (st_inc b) (st_azi b)) dl /\
      nth_error (mc_rf mc) (S k) = Some (if Req_EM_T dl 0 then 1 else tan (dl / 2) / (dl / 2)).
Proof.
  intros svy start unit mc H. unfold MinCurve in H.
  destruct (unit_coeff unit); [|discriminate].
  destruct (length svy <=? 1)%nat eqn:L; [discriminate|]. apply Nat.leb_gt in L.
  injection H; intro; subst mc; simpl. clear H.
  rewrite diff_from_length, !map_length, !pairwise_length.
  split; [auto|]. split; [lia|]. split; [lia|]. split; [lia|].
  split. { intros a Ha. destruct svy; [discriminate|]. simpl in *. injection Ha; intro; subst. f_equal. ring. }
  split; [auto|]. split; [auto|].
  intros k a b Ha Hb. split.
  - apply diff_from_nth; apply map_nth_error; auto.
  - exists (pair_dogleg a b). pose proof (pairwise_nth _ _ pair_dogleg _ _ _ _ Ha Hb) as P. split; [auto|].
    split. apply dogleg_angle. rewrite (map_nth_error get_rf _ _ P). f_equal. unfold get_rf.
    destruct (Req_EM_T (pair_dogleg a b) 0); auto. field. auto.
Qed.

Lemma Survey_stations : forall h rows deg sx sn unit s, Survey h rows deg sx sn unit = Some s ->
  sv_header s = h /\
  length (sv_rows s) = length rows /\ length (sv_azi_true s) = length rows /\ length (sv_azi_mag s) = length rows /\
  length (sv_dogleg s) = length rows /\ length (sv_delta_md s) = length rows /\ length (sv_xyz s) = length rows /\
  length (sv_nev s) = length rows /\ length (sv_pos_nev s) = length rows /\ length (sv_interpolated s) = length rows /\
  forall k md inc azi, nth_error rows k = Some (md, inc, azi) ->
    let rad x := if deg then x * (PI / 180) else x in
    exists g t m,
      nth_error (sv_rows s) k = Some (mkSt md (rad inc) g) /\
      nth_error (sv_azi_true s) k = Some t /\ nth_error (sv_azi_mag s) k = Some m /\
      nth_error (sv_interpolated s) k = Some false /\
      t - h_convergence h = g /\ t - h_declination h = m /\
      rad azi = match h_ref h with RefGrid => g | RefTrue => t | RefMagnetic => m end.
Proof.
  intros h rows deg sx sn unit s H. unfold Survey in H.
  destruct (negb _); [discriminate|].
  match type of H with context [MinCurve ?l sx unit] => set (sts := l) in * end. destruct (MinCurve sts sx unit) as [mc|] eqn:M; [|discriminate].
  assert (LS : length sts = length rows) by (unfold sts; apply map_length).
  destruct (MinCurve_intervals _ _ _ _ M) as (L1 & L2 & _).
  destruct (MinCurve_positions _ _ _ _ M) as (L3 & _).
  injection H; intros; subst s; simpl. clear H.
  rewrite !map_length, L1, L2, L3, LS.
  do 10 (split; [auto|]).
  intros k md inc azi Hk.
  exists (az_grid_rad (process_azi_ref (h_ref h) (h_convergence h) (h_declination h) deg azi)),
         (az_true_rad (process_azi_ref (h_ref h) (h_convergence h) (h_declination h) deg azi)),
         (az_mag_rad (process_azi_ref (h_ref h) (h_convergence h) (h_declination h) deg azi)).
  unfold sts. rewrite !nth_error_map, Hk. simpl.
  split. { destruct deg; auto; unfold radians; do 2 f_equal; field. }
  do 3 (split; [auto|]).
  unfold process_azi_ref. destruct (h_ref h), deg; simpl; unfold radians, degrees; repeat split; try ring; try (field; apply PI_neq0); try lra.
Qed.

Lemma Survey_intervals : forall h rows deg sx sn unit s, Survey h rows deg sx sn unit = Some s ->
  nth_error (sv_dogleg s) 0 = Some 0 /\ nth_error (sv_nev s) 0 = Some sn /\ nth_error (sv_xyz s) 0 = Some sx /\
  (forall a, nth_error (sv_rows s) 0 = Some a -> nth_error (sv_delta_md s) 0 = Some (st_md a)) /\
  (forall k p, nth_error (sv_nev s) k = Some p ->
     nth_error (sv_xyz s) k = Some (mkV (vy p - vy sn + vx sx) (vx p - vx sn + vy sx) (vz p - vz sn + vz sx))) /\
  forall k a b p q, nth_error (sv_rows s) k = Some a -> nth_error (sv_rows s) (S k) = Some b ->
    nth_error (sv_nev s) k = Some p -> nth_error (sv_nev s) (S k) = Some q ->
    nth_error (sv_delta_md s) (S k) = Some (st_md b - st_md a) /\
    q = vadd p (min_curve_step (st_md b - st_md a) (st_inc a) (st_azi a) (st_inc b) (st_azi b)) /\
    exists dl, nth_error (sv_dogleg s) (S k) = Some dl /\
      angle_between (direction_nev (st_inc a) (st_azi a)) (direction_nev (st_inc b) (st_azi b)) dl.
Proof.
  intros h rows deg sx sn unit s H. unfold Survey in H.
  destruct (negb _); [discriminate|].
  match type of H with context [MinCurve ?l sx unit] => set (sts := l) in * end. destruct (MinCurve sts sx unit) as [mc|] eqn:M; [|discriminate].
  destruct (MinCurve_intervals _ _ _ _ M) as (_ & _ & _ & _ & D0 & G0 & _ & I).
  destruct (MinCurve_positions _ _ _ _ M) as (L3 & P0 & P).
  injection H; intros; subst s; cbn [sv_rows sv_dogleg sv_delta_md sv_xyz sv_nev]. clear H.
  split; [auto|].
  split. { rewrite nth_error_map, P0. simpl. f_equal. unfold get_nev. destruct sx, sn; unf. f_equal; ring. }
  split; [auto|]. split; [auto|].
  split. { intros k p Hp. rewrite nth_error_map in Hp. destruct (nth_error (mc_poss mc) k) as [x|]; [|discriminate].
    simpl in Hp. injection Hp; intro; subst p. f_equal. destruct x, sx, sn; unfold get_nev; unf. simpl. f_equal; ring. }
  intros k a b p q Ha Hb Hp Hq. rewrite nth_error_map in Hp, Hq.
  destruct (nth_error (mc_poss mc) k) as [x|] eqn:Ex; [|discriminate].
  destruct (nth_error (mc_poss mc) (S k)) as [y|] eqn:Ey; [|discriminate].
  destruct (I _ _ _ Ha Hb) as (I1 & dl & I2 & I3 & _).
  split; [auto|]. split; [|exists dl; auto].
  simpl in Hp, Hq. injection Hp; injection Hq; intros; subst p q.
  pose proof (P _ _ _ _ _ Ha Hb Ex Ey) as Q. cbv zeta in Q. subst y.
  destruct (min_curve_step _ _ _ _ _). destruct x, sx, sn; unfold get_nev; unf. simpl. f_equal; ring.
Qed.
Lemma Survey_accepts : forall h rows deg sx sn unit,
  (exists s, Survey h rows deg sx sn unit = Some s) <->
  unit = h_unit h /\ (unit = "meters" \/ unit = "feet")%string /\ (2 <= length rows)%nat.
Proof.
  intros. unfold Survey. destruct (String.eqb unit (h_unit h)) eqn:E; simpl.
  - apply String.eqb_eq in E.
    match goal with |- context [MinCurve ?l sx unit] => set (sts := l) in * end.
    assert (LS : length sts = length rows) by (unfold sts; apply map_length).
    pose proof (MinCurve_some sts sx unit) as M. rewrite LS in M.
    destruct (MinCurve sts sx unit) as [mc|].
    + split; [|eauto]. intros _. split; auto. apply M. eauto.
    + split; [intros (s & H); discriminate|]. intros (_ & K). apply M in K. destruct K; discriminate.
  - apply String.eqb_neq in E. split; [intros (s & H); discriminate|tauto].
Qed.

(** ** annular volume *)
Lemma annular_additive : forall od mid id len1 len2,
  annular_volume od (Some mid) (Some len1) + annular_volume mid (Some id) (Some len1) = annular_volume od (Some id) (Some len1) /\
  annular_volume od (Some id) (Some len1) + annular_volume od (Some id) (Some len2) = annular_volume od (Some id) (Some (len1 + len2)) /\
  annular_volume od None (Some len1) = PI * (od / 2) ^ 2 * len1 /\
  annular_volume od (Some id) None = annular_volume od (Some id) (Some 1) /\
  annular_volume od (Some 0) (Some len1) = annular_volume od None (Some len1).
Proof. intros. unfold annular_volume. repeat split; field. Qed.
Lemma annular_positive : forall od id len, 0 <= id -> 0 <= od -> 0 < len ->
  (0 < annular_volume od (Some id) (Some len) <-> id < od).
Proof.
  intros od id len Hi Ho Hl. unfold annular_volume. pose proof PI_RGT_0.
  replace (PI * (od ^ 2 - id ^ 2) / 4 * len) with ((PI * len / 4) * ((od + id) * (od - id))) by field.
  assert (0 < PI * len / 4) by (apply Rdiv_lt_0_compat; [apply Rmult_lt_0_compat; lra|lra]).
  split; intro K.
  - destruct (Rlt_dec id od); auto. exfalso.
    assert ((od + id) * (od - id) <= 0) by nra. nra.
  - apply Rmult_lt_0_compat; auto. apply Rmult_lt_0_compat; lra.
Qed.
Lemma convert_roundtrip : forall data f, f <> 0 ->
  linear_convert (linear_convert data f) (/ f) = data /\ length (linear_convert data f) = length data /\ forall k, nth_error data k = Some None <-> nth_error (linear_convert data f) k = Some None.
Proof.
  intros data f Hf. unfold linear_convert. split; [|split].
  - rewrite map_map. rewrite <- (map_id data) at 2. apply map_ext. intros [x|]; auto. f_equal. field. auto.
  - apply map_length.
  - intro k. rewrite nth_error_map. destruct (nth_error data k) as [[x|]|]; simpl; split; congruence.
Qed.
