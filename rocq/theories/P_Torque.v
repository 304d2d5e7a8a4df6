(** Proofs about welleng/torque_drag.py: C20, C21, C55-C57. *)
Require Import Reals Lra Psatz Lia ZArith Bool String List Arith.
Require Import Verif.Base Verif.NumPy Verif.P_Trig Verif.M_Architecture Verif.M_Torque.
Require Import Verif.Spec_Strings Verif.P_Strings Verif.Spec_Torque.
Import ListNotations.
Open Scope R_scope.

Lemma side_force_eq : force_normal1 = side_force.
Proof. reflexivity. Qed.
Lemma side_force_pos : forall t i d a w, 0 <= side_force t i d a w.
Proof. intros. apply sqrt_pos. Qed.

Definition states (f0 : V3) (t0 : R) (rows : list row) : list (V3 * R) := (f0, t0) :: accumulate f0 t0 rows.
Lemma accumulate_length : forall rows f t, length (accumulate f t rows) = length rows.
Proof. induction rows; simpl; auto. Qed.
Lemma step_balance : forall rows f0 t0 i a r, nth_error (states f0 t0 rows) i = Some a -> nth_error rows i = Some r ->
  exists b, nth_error (states f0 t0 rows) (S i) = Some b /\
    balance (w_inc r) (w_dinc r) (w_dazi r) (w_weight r) (w_mu r) (w_radius r) a b.
Proof.
  induction rows as [|r0 rows IH]; intros f0 t0 i a r H K. destruct i; discriminate.
  destruct i; simpl in K.
  - injection K; intro; subst r0. simpl in H. injection H; intro; subst a. simpl. eexists. split; [reflexivity|].
    unfold balance, torsion_delta. simpl. rewrite side_force_eq. repeat split; ring.
  - simpl in H. apply (IH _ _ _ _ _ H K).
Qed.
Lemma zip6_nth : forall a b c d e f i, nth_error (zip6 a b c d e f) i =
  match nth_error a i, nth_error b i, nth_error c i, nth_error d i, nth_error e i, nth_error f i with
  | Some x1, Some x2, Some x3, Some x4, Some x5, Some x6 => Some (mkRw x1 x2 x3 x4 x5 x6)
  | _, _, _, _, _, _ => None
  end.
Proof.
  induction a as [|x1 a IH]; intros b c d e f i; simpl. destruct i; auto.
  destruct b as [|x2 b]; [destruct i; simpl; auto; destruct (nth_error a i); auto|].
  destruct c as [|x3 c]; [destruct i; simpl; auto; destruct (nth_error a i), (nth_error b i); auto|].
  destruct d as [|x4 d]; [destruct i; simpl; auto; destruct (nth_error a i), (nth_error b i), (nth_error c i); auto|].
  destruct e as [|x5 e]; [destruct i; simpl; auto; destruct (nth_error a i), (nth_error b i), (nth_error c i), (nth_error d i); auto|].
  destruct f as [|x6 f]; [destruct i; simpl; auto; destruct (nth_error a i), (nth_error b i), (nth_error c i), (nth_error d i), (nth_error e i); auto|].
  destruct i; simpl; auto.
Qed.
Lemma zip6_length : forall n a b c d e f, length a = n -> length b = n -> length c = n -> length d = n -> length e = n ->
  length f = n -> length (zip6 a b c d e f) = n.
Proof.
  induction n; destruct a, b, c, d, e, f; simpl; intros; try discriminate; auto.
Qed.
Lemma nth_error_rev : forall A (l : list A) k, (k < length l)%nat -> nth_error (rev l) k = nth_error l (length l - 1 - k).
Proof.
  intros A l k H. destruct l as [|d l]; [simpl in H; lia|]. remember (d :: l) as L.
  rewrite (nth_error_nth' (rev L) d) by (rewrite rev_length; auto).
  rewrite rev_nth by auto. replace (length L - S k)%nat with (length L - 1 - k)%nat by lia.
  symmetry. apply nth_error_nth'. lia.
Qed.
Lemma tl_nth : forall A (l : list A) k, nth_error (tl l) k = nth_error l (S k).
Proof. destruct l; simpl; auto. destruct k; auto. Qed.

Lemma tl_map : forall A B (g : A -> B) l, tl (map g l) = map g (tl l).
Proof. destruct l; auto. Qed.
(** C20 *)
Lemma soft_string : forall n inc_avg inc_delta azi_delta weight mu radius index wob tob overpull tension torque,
  (0 < n)%nat ->
  length (firstn index inc_avg) = n -> length (firstn index inc_delta) = n -> length (firstn index azi_delta) = n ->
  length weight = n -> length (firstn index mu) = n -> length radius = n ->
  get_forces_and_torsion inc_avg inc_delta azi_delta weight mu radius index wob tob overpull = Some (tension, torque) ->
  exists S : list (V3 * R), length S = n /\
    In ((if Req_EM_T overpull 0 then "pickup" else "overpull")%string, map (fun x => vx (fst x)) S) tension /\
    In ((if Req_EM_T wob 0 then "slackoff" else "sliding")%string, map (fun x => vy (fst x)) S) tension /\
    In ((if Req_EM_T wob 0 then "rotating" else "drilling")%string, map (fun x => vz (fst x)) S) tension /\
    torque = [((if Req_EM_T wob 0 then "rotating" else "drilling")%string, map snd S)] /\
    nth_error S (n - 1) = Some (mkV overpull (- wob) (- wob), tob) /\
    (wob = 0 <-> tob = 0) /\
    forall k a, nth_error S (k + 1) = Some a ->
      exists b inc dinc dazi w m r,
        nth_error S k = Some b /\ nth_error inc_avg (k + 1) = Some inc /\ nth_error inc_delta (k + 1) = Some dinc /\
        nth_error azi_delta (k + 1) = Some dazi /\ nth_error weight (k + 1) = Some w /\
        nth_error mu (k + 1) = Some m /\
        nth_error radius (n - 1 - (k + 1)) = Some r /\
        balance inc dinc dazi w m r a b.
Proof.
  intros n inc_avg inc_delta azi_delta weight mu radius index wob tob overpull tension torque Hn L1 L2 L3 L4 L5 L6 H.
  unfold get_forces_and_torsion in H.
  set (ia := firstn index inc_avg) in *. set (id := firstn index inc_delta) in *.
  set (ad := firstn index azi_delta) in *. set (mu' := firstn index mu) in *.
  set (rows := zip6 (rev ia) (rev id) (rev ad) (rev weight) (rev mu') radius) in *.
  assert (LR : length rows = n) by (apply zip6_length; rewrite ?rev_length; auto).
  assert (W0 : wob = 0 <-> tob = 0).
  { unfold truthy_R in H. destruct (Req_EM_T wob 0), (Req_EM_T tob 0); simpl in H; try discriminate; tauto. }
  assert (Init : exists acc0, acc0 = (mkV overpull (- wob) (- wob), tob) /\
     tension = (if truthy_R wob then [("drilling"%string, map (fun x => vz (fst x)) (tl (rev (states (fst acc0) (snd acc0) rows))));
                  ("sliding"%string, map (fun x => vy (fst x)) (tl (rev (states (fst acc0) (snd acc0) rows))))]
                else [("slackoff"%string, map (fun x => vy (fst x)) (tl (rev (states (fst acc0) (snd acc0) rows))));
                  ("rotating"%string, map (fun x => vz (fst x)) (tl (rev (states (fst acc0) (snd acc0) rows))))])
               ++ [((if truthy_R overpull then "overpull" else "pickup")%string, map (fun x => vx (fst x)) (tl (rev (states (fst acc0) (snd acc0) rows))))] /\
     torque = [((if truthy_R tob then "drilling" else "rotating")%string, map snd (tl (rev (states (fst acc0) (snd acc0) rows))))]).
  { eexists. split; [reflexivity|]. simpl fst. simpl snd.
    assert (MT : forall B (g : V3 * R -> B) f0 t0, map g (tl (rev (states f0 t0 rows))) = tl (rev (map g (states f0 t0 rows)))).
    { intros. rewrite <- map_rev. destruct (rev (states f0 t0 rows)); reflexivity. }
    destruct ((truthy_R wob || truthy_R tob) && negb (truthy_R tob && truthy_R wob))%bool; [discriminate|].
    injection H; clear H; intros HT HE. subst tension torque.
    assert (F0 : (if truthy_R overpull then mkV overpull (vy (if truthy_R wob || truthy_R tob then mkV 0 (- wob) (- wob) else vzero))
                   (vz (if truthy_R wob || truthy_R tob then mkV 0 (- wob) (- wob) else vzero))
                  else (if truthy_R wob || truthy_R tob then mkV 0 (- wob) (- wob) else vzero)) = mkV overpull (- wob) (- wob)).
    { unfold truthy_R. destruct (Req_EM_T wob 0) as [Ew|], (Req_EM_T tob 0) as [Et|], (Req_EM_T overpull 0) as [Eo|];
        simpl; rewrite ?Ew, ?Eo; try (exfalso; tauto); unfold vzero; f_equal; lra. }
    assert (T0 : (if truthy_R wob || truthy_R tob then tob else 0) = tob).
    { unfold truthy_R. destruct (Req_EM_T wob 0) as [Ew|], (Req_EM_T tob 0) as [Et|]; simpl; auto; tauto. }
    rewrite F0, T0. rewrite !MT.
    assert (FM : forall g : V3 -> R, tl (rev (map (fun x : V3 * R => g (fst x)) (states (mkV overpull (- wob) (- wob)) tob rows))) =
       map g (tl (rev (mkV overpull (- wob) (- wob) :: map fst (accumulate (mkV overpull (- wob) (- wob)) tob rows))))).
    { intro g. unfold states. simpl map at 1. rewrite <- (map_map fst g).
      change (g (mkV overpull (-wob) (-wob)) :: map g (map fst (accumulate (mkV overpull (- wob) (- wob)) tob rows)))
        with (map g (mkV overpull (- wob) (- wob) :: map fst (accumulate (mkV overpull (- wob) (- wob)) tob rows))).
      rewrite <- map_rev, tl_map. reflexivity. }
    rewrite !FM. split; reflexivity. }
  destruct Init as (acc0 & EA & ET & EQ). subst acc0. simpl fst in *. simpl snd in *.
  set (SS := states (mkV overpull (- wob) (- wob)) tob rows) in *.
  assert (LS : length SS = S n) by (unfold SS, states; simpl; rewrite accumulate_length; lia).
  exists (tl (rev SS)).
  assert (NT : forall k, (k < n)%nat -> nth_error (tl (rev SS)) k = nth_error SS (n - 1 - k)).
  { intros k Hk. rewrite tl_nth, nth_error_rev by lia. f_equal. lia. }
  assert (LT : length (tl (rev SS)) = n).
  { assert (forall A (l : list A), length (tl l) = pred (length l)) as G by (destruct l; auto).
    rewrite G, rev_length, LS. auto. }
  split; auto.
  assert (TT : truthy_R tob = truthy_R wob).
  { unfold truthy_R. destruct (Req_EM_T wob 0), (Req_EM_T tob 0); auto; tauto. }
  rewrite TT in EQ. subst tension torque. unfold truthy_R.
  split. { apply in_app_iff. right. destruct (Req_EM_T overpull 0); simpl; auto. }
  split. { apply in_app_iff. left. destruct (Req_EM_T wob 0); simpl; auto. }
  split. { apply in_app_iff. left. destruct (Req_EM_T wob 0); simpl; auto. }
  split. { destruct (Req_EM_T wob 0); auto. }
  split. { rewrite NT by lia. replace (n - 1 - (n - 1))%nat with 0%nat by lia. reflexivity. }
  split; auto.
  intros k a Ha.
  assert (Kn : (k + 1 < n)%nat). { rewrite <- LT. apply nth_error_Some. congruence. }
  rewrite NT in Ha by lia.
  set (i := (n - 1 - (k + 1))%nat) in *.
  destruct (nth_error rows i) as [r|] eqn:Er. 2: { apply nth_error_None in Er. lia. }
  destruct (step_balance _ _ _ _ _ _ Ha Er) as (b & Hb & B).
  unfold rows in Er. rewrite zip6_nth in Er. rewrite !nth_error_rev in Er by lia.
  replace (length ia - 1 - i)%nat with (k + 1)%nat in Er by lia.
  replace (length id - 1 - i)%nat with (k + 1)%nat in Er by lia.
  replace (length ad - 1 - i)%nat with (k + 1)%nat in Er by lia.
  replace (length weight - 1 - i)%nat with (k + 1)%nat in Er by lia.
  replace (length mu' - 1 - i)%nat with (k + 1)%nat in Er by lia.
  destruct (nth_error ia (k + 1)) as [x1|] eqn:E1; [|discriminate].
  destruct (nth_error id (k + 1)) as [x2|] eqn:E2; [|discriminate].
  destruct (nth_error ad (k + 1)) as [x3|] eqn:E3; [|discriminate].
  destruct (nth_error weight (k + 1)) as [x4|] eqn:E4; [|discriminate].
  destruct (nth_error mu' (k + 1)) as [x5|] eqn:E5; [|discriminate].
  destruct (nth_error radius i) as [x6|] eqn:E6; [|discriminate].
  injection Er; intro; subst r. simpl in B.
  assert (FN : forall A (l : list A) m j x, nth_error (firstn m l) j = Some x -> nth_error l j = Some x).
  { clear. induction l; destruct m, j; simpl; intros; try discriminate; auto. eapply IHl; eauto. }
  exists b, x1, x2, x3, x4, x5, x6. repeat split; eauto; try apply B.
  rewrite NT by lia. rewrite <- Hb. f_equal. lia.
Qed.

(** consequences over a column of states *)
Lemma column_order : forall n (S : list (V3 * R)) (mu : nat -> R), length S = n ->
  (forall k a, nth_error S (k + 1) = Some a -> exists b inc dinc dazi w r,
     nth_error S k = Some b /\ 0 <= mu (k + 1)%nat /\ balance inc dinc dazi w (mu (k + 1)%nat) r a b) ->
  (forall a, nth_error S (n - 1) = Some a -> vy (fst a) <= vz (fst a) <= vx (fst a)) ->
  forall j a, nth_error S (n - 1 - j) = Some a -> (j < n)%nat -> vy (fst a) <= vz (fst a) <= vx (fst a).
Proof.
  intros n S mu L H B0. induction j as [|j IH]; intros a Ha Hj.
  - rewrite Nat.sub_0_r in Ha. auto.
  - destruct (nth_error S (n - 1 - j)) as [a'|] eqn:E.
    2: { apply nth_error_None in E. lia. }
    specialize (IH _ eq_refl ltac:(lia)).
    replace (n - 1 - j)%nat with ((n - 1 - (Datatypes.S j)) + 1)%nat in E by lia.
    destruct (H _ _ E) as (b & inc & dinc & dazi & w & r & Hb & Hm & (X1 & X2 & X3 & X4)).
    rewrite Hb in Ha. injection Ha; intro; subst b.
    pose proof (side_force_pos (vx (fst a')) inc dinc dazi w). pose proof (side_force_pos (vy (fst a')) inc dinc dazi w).
    assert (0 <= mu (n - 1 - Datatypes.S j + 1)%nat * side_force (vx (fst a')) inc dinc dazi w) by (apply Rmult_le_pos; auto).
    assert (0 <= mu (n - 1 - Datatypes.S j + 1)%nat * side_force (vy (fst a')) inc dinc dazi w) by (apply Rmult_le_pos; auto).
    lra.
Qed.

Lemma soft_order : forall n inc_avg inc_delta azi_delta weight mu radius index wob tob overpull tension torque,
  (0 < n)%nat ->
  length (firstn index inc_avg) = n -> length (firstn index inc_delta) = n -> length (firstn index azi_delta) = n ->
  length weight = n -> length (firstn index mu) = n -> length radius = n ->
  Forall (fun x => 0 <= x) mu -> 0 <= overpull + wob ->
  get_forces_and_torsion inc_avg inc_delta azi_delta weight mu radius index wob tob overpull = Some (tension, torque) ->
  exists pickup slackoff rotating,
    In ((if Req_EM_T overpull 0 then "pickup" else "overpull")%string, pickup) tension /\
    In ((if Req_EM_T wob 0 then "slackoff" else "sliding")%string, slackoff) tension /\
    In ((if Req_EM_T wob 0 then "rotating" else "drilling")%string, rotating) tension /\
    forall k, (k < n)%nat -> exists p s r, nth_error pickup k = Some p /\ nth_error slackoff k = Some s /\
      nth_error rotating k = Some r /\ s <= r <= p.
Proof.
  intros n inc_avg inc_delta azi_delta weight mu radius index wob tob overpull tension torque Hn L1 L2 L3 L4 L5 L6 Hmu H0 H.
  destruct (soft_string n _ _ _ _ _ _ _ _ _ _ _ _ Hn L1 L2 L3 L4 L5 L6 H) as (S & LS & I1 & I2 & I3 & _ & B & _ & K).
  do 3 eexists. split; [exact I1|]. split; [exact I2|]. split; [exact I3|].
  intros k Hk. destruct (nth_error S k) as [a|] eqn:E; [|apply nth_error_None in E; lia].
  exists (vx (fst a)), (vy (fst a)), (vz (fst a)).
  rewrite (map_nth_error (fun x => vx (fst x)) _ _ E), (map_nth_error (fun x => vy (fst x)) _ _ E), (map_nth_error (fun x => vz (fst x)) _ _ E).
  repeat split; auto;
  replace k with (n - 1 - (n - 1 - k))%nat in E by lia;
  apply (column_order n S (fun i => nth i mu 0) LS) with (j := (n - 1 - k)%nat) in E; try lia; try tauto;
  try (intros k' a' Ha'; destruct (K _ _ Ha') as (b & inc & dinc & dazi & w & m & r & Hb & _ & _ & _ & _ & Em & _ & Bal);
    exists b, inc, dinc, dazi, w, r; rewrite (nth_error_nth _ _ 0 Em); split; auto; split; auto;
    rewrite Forall_forall in Hmu; apply Hmu; eapply nth_error_In; eauto);
  try (intros a' Ha'; rewrite B in Ha'; injection Ha'; intro; subst a'; simpl; lra).
Qed.
Lemma soft_torque : forall n inc_avg inc_delta azi_delta weight mu radius index wob tob overpull tension torque,
  (0 < n)%nat ->
  length (firstn index inc_avg) = n -> length (firstn index inc_delta) = n -> length (firstn index azi_delta) = n ->
  length weight = n -> length (firstn index mu) = n -> length radius = n ->
  Forall (fun x => 0 <= x) mu -> Forall (fun x => 0 <= x) radius ->
  get_forces_and_torsion inc_avg inc_delta azi_delta weight mu radius index wob tob overpull = Some (tension, torque) ->
  exists key tq, torque = [(key, tq)] /\ length tq = n /\ nth_error tq (n - 1) = Some tob /\
    forall k a b, nth_error tq k = Some a -> nth_error tq (k + 1) = Some b -> b <= a.
Proof.
  intros n inc_avg inc_delta azi_delta weight mu radius index wob tob overpull tension torque Hn L1 L2 L3 L4 L5 L6 Hmu Hr H.
  destruct (soft_string n _ _ _ _ _ _ _ _ _ _ _ _ Hn L1 L2 L3 L4 L5 L6 H) as (S & LS & _ & _ & _ & E & B & _ & K).
  do 2 eexists. split; [exact E|]. split. rewrite map_length; auto.
  split. rewrite (map_nth_error _ _ _ B). auto.
  intros k a b Ha Hb. rewrite nth_error_map in Ha, Hb.
  destruct (nth_error S (k + 1)) as [y|] eqn:E2; [|discriminate].
  destruct (K _ _ E2) as (x & inc & dinc & dazi & w & m & r & Hx & _ & _ & _ & _ & Em & Er & (_ & _ & _ & X)).
  rewrite Hx in Ha. simpl in Ha, Hb. injection Ha; injection Hb; intros; subst a b. rewrite X.
  rewrite Forall_forall in Hmu, Hr.
  assert (0 <= m) by (apply Hmu; eapply nth_error_In; eauto).
  assert (0 <= r) by (apply Hr; eapply nth_error_In; eauto).
  pose proof (side_force_pos (vz (fst y)) inc dinc dazi w).
  assert (0 <= m * side_force (vz (fst y)) inc dinc dazi w * r) by (repeat apply Rmult_le_pos; auto). lra.
Qed.
Lemma soft_frictionless : forall n inc_avg inc_delta azi_delta weight mu radius index tension torque,
  (0 < n)%nat ->
  length (firstn index inc_avg) = n -> length (firstn index inc_delta) = n -> length (firstn index azi_delta) = n ->
  length weight = n -> length (firstn index mu) = n -> length radius = n ->
  Forall (fun x => x = 0) mu ->
  get_forces_and_torsion inc_avg inc_delta azi_delta weight mu radius index 0 0 0 = Some (tension, torque) ->
  exists T, In ("pickup"%string, T) tension /\ In ("slackoff"%string, T) tension /\ In ("rotating"%string, T) tension /\
    torque = [("rotating"%string, repeat 0 n)] /\ nth_error T (n - 1) = Some 0 /\
    forall k t, nth_error T (k + 1) = Some t -> exists w inc, nth_error weight (k + 1) = Some w /\
      nth_error inc_avg (k + 1) = Some inc /\ nth_error T k = Some (t + w * cos inc).
Proof.
  intros n inc_avg inc_delta azi_delta weight mu radius index tension torque Hn L1 L2 L3 L4 L5 L6 Hmu H.
  destruct (soft_string n _ _ _ _ _ _ _ _ _ _ _ _ Hn L1 L2 L3 L4 L5 L6 H) as (S & LS & I1 & I2 & I3 & E & B & _ & K).
  destruct (Req_EM_T 0 0) as [_|N]; [|elim N; auto].
  assert (Z : forall j a, (j < n)%nat -> nth_error S (n - 1 - j) = Some a -> vx (fst a) = vz (fst a) /\ vy (fst a) = vz (fst a) /\ snd a = 0).
  { induction j as [|j IH]; intros a Hj Ha.
    - rewrite Nat.sub_0_r, B in Ha. injection Ha; intro; subst a. simpl. lra.
    - destruct (nth_error S (n - 1 - j)) as [y|] eqn:E2; [|apply nth_error_None in E2; lia].
      destruct (IH y) as (P1 & P2 & P3); auto. lia.
      replace (n - 1 - j)%nat with ((n - 1 - Datatypes.S j) + 1)%nat in E2 by lia.
      destruct (K _ _ E2) as (x & inc & dinc & dazi & w & m & r & Hx & _ & _ & _ & _ & Em & Er & (X1 & X2 & X3 & X4)).
      rewrite Ha in Hx. injection Hx; intro; subst x.
      assert (m = 0) by (rewrite Forall_forall in Hmu; apply Hmu; eapply nth_error_In; eauto). subst m.
      rewrite X1, X2, X3, X4, P1, P2, P3. lra. }
  assert (Z' : forall a, In a S -> vx (fst a) = vz (fst a) /\ vy (fst a) = vz (fst a) /\ snd a = 0).
  { intros a Ha. apply In_nth_error in Ha. destruct Ha as [k Ha].
    assert (k < n)%nat by (rewrite <- LS; apply nth_error_Some; congruence).
    apply (Z (n - 1 - k)%nat). lia. replace (n - 1 - (n - 1 - k))%nat with k by lia. auto. }
  exists (map (fun x => vz (fst x)) S).
  split. { rewrite <- (map_ext_in (fun x => vx (fst x))). exact I1. intros; apply Z'; auto. }
  split. { rewrite <- (map_ext_in (fun x => vy (fst x))). exact I2. intros; apply Z'; auto. }
  split. exact I3.
  split. { rewrite E. do 2 f_equal. rewrite (map_ext_in _ (fun _ => 0)). 2: intros; apply Z'; auto.
    rewrite <- LS. clear. induction S; simpl; f_equal; auto. }
  split. { rewrite (map_nth_error _ _ _ B). simpl. f_equal. lra. }
  intros k t Ht. rewrite nth_error_map in Ht. destruct (nth_error S (k + 1)) as [y|] eqn:E2; [|discriminate].
  simpl in Ht. injection Ht; intro; subst t.
  destruct (K _ _ E2) as (x & inc & dinc & dazi & w & m & r & Hx & Ei & _ & _ & Ew & Em & Er & (X1 & X2 & X3 & X4)).
  exists w, inc. split; auto. split; auto. rewrite (map_nth_error _ _ _ Hx). simpl. rewrite X3. auto.
Qed.
Lemma buoyed_weight : forall fluid density weight,
  (density <> 0 -> exists b, buoyancy_factor fluid density = Fin b /\
     weight * b = weight - weight / density * fluid) /\
  (density = 0 -> buoyancy_factor fluid density = (if Rlt_dec fluid 0 then PInf else if Rlt_dec 0 fluid then NInf else NaN)).
Proof.
  intros fluid density weight. split; intro H; unfold buoyancy_factor, ediv.
  - destruct (Req_EM_T density 0); [tauto|]. eexists. split; [reflexivity|]. field. auto.
  - subst. destruct (Req_EM_T 0 0) as [_|N]; [|elim N; auto]. replace (0 - fluid) with (- fluid) by lra.
    repeat destruct (Rlt_dec _ _); auto; lra.
Qed.

(** C21 *)
Lemma lookup_raises : forall c m top bottom calls s,
  reached anything (new_str c m top bottom) calls s -> a_complete s = true -> section_bottoms s = inr TypeError.
Proof.
  intros c m top bottom calls s R C.
  assert (NE : a_sections s <> []).
  { destruct m.
    - destruct (history_td _ _ _ _ _ _ R) as (_ & _ & _ & _ & _ & L & _ & Z). intro E. rewrite E in L.
      destruct calls; [|discriminate]. rewrite Z in C by auto. discriminate.
    - destruct (history_bu _ _ _ _ _ _ R) as (_ & _ & _ & _ & _ & L & _ & Z). intro E. rewrite E in L.
      destruct calls; [|discriminate]. rewrite Z in C by auto. discriminate. }
  unfold section_bottoms. destruct (a_sections s); [congruence|]. reflexivity.
Qed.

Lemma torque_drag_fails : forall A c m top bottom calls s wb prepare (forces : list R -> list R -> A + td_exn),
  reached anything (new_str c m top bottom) calls s ->
  exists e, torque_drag_init prepare wb s forces = inr e /\
    (a_complete wb = true -> a_complete s = true -> prepare = None -> e = Raised TypeError).
Proof.
  intros A c m top bottom calls s wb prepare forces R. unfold torque_drag_init.
  destruct (a_complete wb); simpl; [|exists NotComplete; split; [auto|discriminate]].
  destruct (a_complete s) eqn:C; simpl; [|exists NotComplete; split; [auto|discriminate]].
  destruct prepare as [e|]; [exists e; split; [auto|discriminate]|].
  rewrite (lookup_raises _ _ _ _ _ _ R C). exists (Raised TypeError). auto.
Qed.

(** C55 *)
Lemma own_radius_refuted : exists weight mu radius tension torque tq t1 t2,
  get_forces_and_torsion [0; PI/2; PI/2] [0; 0; 0] [0; 0; 0] weight mu radius 3 0 0 0 = Some (tension, torque) /\
  weight = [0; 1; 1] /\ mu = [1; 1; 1] /\ radius = [1; 1; 2] /\
  torque = [("rotating"%string, tq)] /\ nth_error tq 1 = Some t1 /\ nth_error tq 2 = Some t2 /\
  t1 - t2 = 1 /\ 1 * side_force 0 (PI/2) 0 0 1 * 2 = 2.
Proof.
  destruct (get_forces_and_torsion [0; PI/2; PI/2] [0; 0; 0] [0; 0; 0] [0; 1; 1] [1; 1; 1] [1; 1; 2] 3 0 0 0) as [[tension torque]|] eqn:H.
  2: { unfold get_forces_and_torsion, truthy_R in H. destruct (Req_EM_T 0 0) as [_|N]; [simpl in H; discriminate|elim N; auto]. }
  destruct (soft_string 3 [0; PI/2; PI/2] [0; 0; 0] [0; 0; 0] [0; 1; 1] [1; 1; 1] [1; 1; 2] 3 0 0 0 tension torque (Nat.lt_0_succ 2) eq_refl eq_refl eq_refl eq_refl eq_refl eq_refl H)
    as (S & LS & _ & _ & _ & E & B & _ & K).
  destruct (Req_EM_T 0 0) as [_|N]; [|elim N; auto]. change (3 - 1)%nat with (1 + 1)%nat in B.
  destruct (K 1%nat _ B) as (b & inc & dinc & dazi & w & m & r & Hb & E1 & E2 & E3 & E4 & E5 & E6 & (_ & _ & X3 & X4)).
  simpl in E1, E2, E3, E4, E5, E6. injection E1; injection E2; injection E3; injection E4; injection E5; injection E6; intros; subst.
  assert (SF : side_force 0 (PI/2) 0 0 1 = 1).
  { unfold side_force. rewrite sin_PI2. unfold Rsqr. replace (0 * 0 * 1 * (0 * 0 * 1) + (0 * 0 + 1 * 1) * (0 * 0 + 1 * 1)) with 1 by ring. apply sqrt_1. }
  do 5 eexists. exists (map snd S), (snd b), 0. split; [exact H|]. do 4 (split; [reflexivity|]).
  split. rewrite (map_nth_error _ _ _ Hb); auto. split. exact (map_nth_error snd _ _ B).
  simpl in X4. replace (side_force (-0) (PI/2) 0 0 1) with (side_force 0 (PI/2) 0 0 1) in X4 by (f_equal; lra).
  rewrite SF in *. lra.
Qed.

(** C56 *)
Lemma azi_delta_shift : forall c azi, delta0 (map (fun a => a + c) azi) = delta0 azi.
Proof.
  intros c azi. unfold delta0. destruct azi as [|a azi]; auto. cbv [map]. fold (map (fun a => a + c) azi). f_equal.
  revert a. induction azi as [|b azi IH]; intros a. reflexivity. simpl. f_equal. lra. apply IH.
Qed.
Lemma north_crossing : forall a d inc dinc t w, 0 <= a < 2 * PI -> 0 < d < PI -> 2 * PI <= a + d ->
  t <> 0 -> sin inc <> 0 ->
  delta0 [a; rmod (a + d) (2 * PI)] = [0; d - 2 * PI] /\
  force_normal1 t inc dinc d w < force_normal1 t inc dinc (d - 2 * PI) w.
Proof.
  intros a d inc dinc t w Ha Hd Hc Ht Hs. split.
  - rewrite (rmod_unique (a + d) (2 * PI) (a + d - 2 * PI) 1); try lra. unfold delta0. simpl. do 2 f_equal. ring.
  - unfold force_normal1. apply sqrt_lt_1_alt.
    assert (Q : 0 < (t * sin inc) * (t * sin inc)).
    { assert (t * sin inc <> 0) by (apply Rmult_integral_contrapositive; auto).
      pose proof (Rsqr_pos_lt _ H). unfold Rsqr in H0. auto. }
    assert (0 <= (t * d * sin inc) * (t * d * sin inc)) by apply Rle_0_sqr.
    assert (0 <= (t * dinc + w * sin inc) * (t * dinc + w * sin inc)) by apply Rle_0_sqr.
    split. lra. apply Rplus_lt_compat_r.
    replace (t * d * sin inc * (t * d * sin inc)) with ((t * sin inc) * (t * sin inc) * (d * d)) by ring.
    replace (t * (d - 2 * PI) * sin inc * (t * (d - 2 * PI) * sin inc)) with ((t * sin inc) * (t * sin inc) * ((2 * PI - d) * (2 * PI - d))) by ring.
    apply Rmult_lt_compat_l; auto. pose proof PI_RGT_0. nra.
Qed.

(** C57 *)
Lemma ceil_spec : forall x, let z := (- rfloor (- x))%Z in IZR z - 1 < x <= IZR z.
Proof. intros x z. unfold z. rewrite opp_IZR. pose proof (rfloor_spec (- x)). lra. Qed.
Lemma arange_spec : forall start stop step, 0 < step ->
  exists n, arange start stop step = map (fun i => start + INR i * step) (seq 0 n) /\
    (forall i, (i < n)%nat -> start + INR i * step < stop) /\ stop <= start + INR n * step.
Proof.
  intros start stop step Hs. unfold arange. set (z := (- rfloor (- ((stop - start) / step)))%Z).
  pose proof (ceil_spec ((stop - start) / step)) as C. cbv zeta in C. fold z in C.
  assert (E : (stop - start) = (stop - start) / step * step) by (field; lra).
  exists (Z.to_nat z). split; auto.
  destruct (Z_le_gt_dec z 0) as [L|G].
  - assert (Z.to_nat z = 0%nat) by lia. rewrite H. split. intros; lia.
    simpl. apply IZR_le in L. assert ((stop - start) / step <= 0) by lra. nra.
  - assert (IN : INR (Z.to_nat z) = IZR z) by (rewrite INR_IZR_INZ, Z2Nat.id; auto; lia).
    split.
    + intros i Hi. assert (INR i + 1 <= IZR z).
      { rewrite <- IN. rewrite <- S_INR. apply le_INR. lia. }
      nra.
    + rewrite IN. nra.
Qed.
Lemma hookload_depths : forall top bottom step, 0 < step -> top < bottom ->
  let l := md_range top bottom step in
  (forall md, In md l -> top < md <= bottom) /\
  last l 0 = bottom /\
  (forall k a b, nth_error l k = Some a -> nth_error l (k + 1) = Some b -> 0 < b - a <= step) /\
  (exists a, nth_error l 0 = Some a /\ a <= top + step).
Proof.
  intros top bottom step Hs Ht l. unfold l, md_range.
  destruct (arange_spec (top + step) bottom step Hs) as (n & -> & A & B).
  split; [|split; [|split]].
  - intros md I. apply in_app_iff in I. destruct I as [I|[<-|[]]]; [|lra].
    apply in_map_iff in I. destruct I as (i & <- & I). apply in_seq in I.
    specialize (A i ltac:(lia)). pose proof (pos_INR i). nra.
  - apply last_last.
  - intros k a b Ha Hb.
    assert (Lk : (k + 1 < S n)%nat).
    { assert (Q : (k + 1 < length (map (fun i : nat => (top + step + INR i * step)%R) (seq 0 n) ++ [bottom]))%nat) by (apply nth_error_Some; congruence).
      rewrite app_length, map_length, seq_length in Q. simpl in Q. lia. }
    assert (G : forall j, (j < n)%nat -> nth_error (map (fun i => top + step + INR i * step) (seq 0 n) ++ [bottom]) j = Some (top + step + INR j * step)).
    { intros j Hj. rewrite nth_error_app1 by (rewrite map_length, seq_length; auto).
      assert (Q : nth_error (seq 0 n) j = Some j).
      { rewrite (nth_error_nth' _ 0%nat) by (rewrite seq_length; auto). rewrite seq_nth by auto. auto. }
      rewrite (map_nth_error _ _ _ Q). auto. }
    rewrite G in Ha by lia. injection Ha; intro; subst a.
    assert (SI : INR (k + 1) = INR k + 1) by (rewrite plus_INR; simpl; lra).
    destruct (Nat.eq_dec (k + 1) n) as [E|N].
    + rewrite nth_error_app2 in Hb by (rewrite map_length, seq_length; lia).
      rewrite map_length, seq_length, E, Nat.sub_diag in Hb. simpl in Hb. injection Hb; intro; subst b.
      specialize (A k ltac:(lia)). rewrite <- E, SI in B. lra.
    + rewrite G in Hb by lia. injection Hb; intro; subst b. rewrite SI. lra.
  - destruct n.
    + simpl. exists bottom. split; auto. simpl in B. lra.
    + simpl. eexists. split; [reflexivity|]. simpl. lra.
Qed.

Lemma friction_factors : forall start stop step, 0 < step ->
  let l := ff_range start stop step in
  last l 0 = stop /\ (forall x, In x l -> start <= x <= stop \/ x = stop) /\ (forall k a b, nth_error l k = Some a -> nth_error l (k + 1) = Some b -> 0 < b - a <= step) /\ (start < stop -> nth_error l 0 = Some start).
Proof.
  intros start stop step Hs l.
  assert (E : l = md_range (start - step) stop step) by (unfold l, ff_range, md_range; do 2 f_equal; ring).
  destruct (Rlt_dec start stop) as [L|L].
  - destruct (hookload_depths (start - step) stop step Hs ltac:(lra)) as (A & B & C & D). cbv zeta in *.
    rewrite <- E in *. split; auto. split; [|split; auto].
    + intros x I. unfold l, ff_range in I.
      destruct (arange_spec start stop step Hs) as (n & Q & G & _). rewrite Q in I.
      apply in_app_iff in I. destruct I as [I|[<-|[]]]; [|auto]. left.
      apply in_map_iff in I. destruct I as (i & <- & I). apply in_seq in I.
      specialize (G i ltac:(lia)). pose proof (pos_INR i). nra.
    + intros _. unfold l, ff_range. destruct (arange_spec start stop step Hs) as (n & Q & G & H). rewrite Q.
      destruct n. simpl in H. lra. simpl. f_equal. lra.
  - assert (F : l = [stop]).
    { unfold l, ff_range. destruct (arange_spec start stop step Hs) as (n & Q & G & H). rewrite Q. destruct n; auto.
      specialize (G 0%nat ltac:(lia)). simpl in G. lra. }
    rewrite F. simpl. repeat split; auto; try lra.
    + intros x [<-|[]]. auto.
    + destruct k as [|[|k]]; simpl in *; discriminate.
    + destruct k as [|[|k]]; simpl in *; discriminate.
Qed.
