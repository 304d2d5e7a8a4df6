(** Proofs about the error model: C24-C27, C52. *)
Require Import Reals Lra Psatz Lia Bool String List.
Require Import Verif.Base Verif.NumPy Verif.Spec Verif.M_Utils Verif.M_Error Verif.Spec_Error.
Require Import Verif.P_Utils2.
Import ListNotations.
Open Scope R_scope.

(** * lists *)
Lemma map2_nth : forall A B C (f : A -> B -> C) l m k,
  nth_error (map2 f l m) k =
  match nth_error l k, nth_error m k with Some a, Some b => Some (f a b) | _, _ => None end.
Proof.
  induction l; destruct m; destruct k; simpl; auto.
  destruct (nth_error l k); auto. apply IHl.
Qed.
Lemma map2_length : forall A B C (f : A -> B -> C) l m,
  length l = length m -> length (map2 f l m) = length l.
Proof. intros. unfold map2. rewrite map_length, combine_length. lia. Qed.
Lemma map_nth_error' : forall A B (f : A -> B) l k,
  nth_error (map f l) k = option_map f (nth_error l k).
Proof. induction l; destruct k; simpl; auto. Qed.
Lemma zero_first_length : forall l, length (zero_first l) = length l.
Proof. destruct l; reflexivity. Qed.
Lemma zero_first_nth : forall l k, nth_error (zero_first l) (S k) = nth_error l (S k).
Proof. destruct l; reflexivity. Qed.
Lemma removelast_length : forall A (l : list A), length (removelast l) = pred (length l).
Proof. induction l; auto. destruct l; auto. simpl in *. rewrite IHl. reflexivity. Qed.
Lemma removelast_nth : forall A (l : list A) k, (S k < length l)%nat ->
  nth_error (removelast l) k = nth_error l k.
Proof.
  induction l; simpl; intros. lia.
  destruct l. simpl in H. lia.
  destruct k; simpl; auto. apply IHl. simpl in *. lia.
Qed.
Lemma removelast_nth_none : forall A (l : list A) k, (length l <= S k)%nat ->
  nth_error (removelast l) k = None.
Proof. intros. apply nth_error_None. rewrite removelast_length. lia. Qed.

Lemma vsum_app : forall l m, vsum (l ++ m) = vadd (vsum l) (vsum m).
Proof.
  induction l; simpl; intros. rewrite vadd_0_l. reflexivity.
  unfold vsum in *. simpl. rewrite IHl. vring.
Qed.
Lemma vcumsum_from_nth : forall l acc k, (k < length l)%nat ->
  nth_error (vcumsum_from acc l) k = Some (vadd acc (vsum (firstn (S k) l))).
Proof.
  induction l; simpl; intros. lia.
  destruct k; simpl.
  - unfold vsum. simpl. rewrite vadd_0_r. reflexivity.
  - rewrite IHl by lia. f_equal. unfold vsum. simpl. vring.
Qed.
Lemma mcumsum_from_nth : forall l acc k, (k < length l)%nat ->
  nth_error (mcumsum_from acc l) k = Some (madd acc (msum (firstn (S k) l))).
Proof.
  induction l; simpl; intros. lia.
  destruct k; simpl.
  - unfold msum. simpl. rewrite madd_0_r. reflexivity.
  - rewrite IHl by lia. f_equal. unfold msum. simpl. rewrite <- madd_assoc. reflexivity.
Qed.
Lemma vcumsum_nth : forall l k, (k < length l)%nat ->
  nth_error (vcumsum l) k = Some (vsum (firstn (S k) l)).
Proof. intros. unfold vcumsum. rewrite vcumsum_from_nth by auto. rewrite vadd_0_l. reflexivity. Qed.
Lemma mcumsum_nth : forall l k, (k < length l)%nat ->
  nth_error (mcumsum l) k = Some (msum (firstn (S k) l)).
Proof. intros. unfold mcumsum. rewrite mcumsum_from_nth by auto. rewrite madd_0_l. reflexivity. Qed.
Lemma mcumsum_length : forall l, length (mcumsum l) = length l.
Proof. unfold mcumsum. intro l. generalize mzero. induction l; simpl; intros; auto. Qed.
Lemma vcumsum_length : forall l, length (vcumsum l) = length l.
Proof. intros. apply vcumsum_from_length. Qed.

(** * accumulated errors *)
Lemma sigma_nth : forall e es k a,
  length e = length es -> nth_error es k = Some a ->
  nth_error (sigma_systematic e es) k =
  Some (vadd a (match k with O => vsum (firstn 1 e) | S _ => vsum (firstn k e) end)).
Proof.
  intros e es k a HL H. unfold sigma_systematic. rewrite map2_nth, H.
  assert (k < length e)%nat by (rewrite HL; apply nth_error_Some; congruence).
  destruct e as [|e0 e]; [simpl in *; lia|].
  destruct k as [|k].
  - simpl nth_error. unfold vsum. simpl. rewrite vadd_0_r. reflexivity.
  - cbn [nth_error]. rewrite removelast_nth, vcumsum_nth; auto. simpl in *; lia. rewrite vcumsum_length. simpl in *; lia.
Qed.
Lemma sigma_length : forall e es, length e = length es ->
  length (sigma_systematic e es) = length es.
Proof.
  intros. unfold sigma_systematic. apply map2_length.
  destruct e; simpl in *. auto.
  change (v :: vcumsum_from (vadd vzero v) e) with (vcumsum (v :: e)) in *.
  pose proof (removelast_length _ (vcumsum (v :: e))). unfold vcumsum in H0. simpl in H0.
  rewrite H0. rewrite vcumsum_from_length. lia.
Qed.
Lemma random_nth : forall e es k a,
  length e = length es -> nth_error es k = Some a ->
  nth_error (cov_random e es) k =
  Some (madd (outer a a) (msum (map (fun v => outer v v) (firstn k e)))).
Proof.
  intros e es k a HL H. unfold cov_random. rewrite map2_nth, map_nth_error', H. simpl option_map.
  assert (k < length e)%nat by (rewrite HL; apply nth_error_Some; congruence).
  destruct k as [|k].
  - simpl. unfold cov_from_vec. reflexivity.
  - cbn [nth_error]. rewrite removelast_nth, mcumsum_nth.
    + rewrite firstn_map. reflexivity.
    + rewrite map_length. lia.
    + rewrite mcumsum_length, map_length. lia.
Qed.
Lemma random_length : forall e es, length e = length es -> (0 < length es)%nat ->
  length (cov_random e es) = length es.
Proof.
  intros. unfold cov_random. rewrite map2_length; rewrite map_length; auto.
  simpl. rewrite removelast_length, mcumsum_length, map_length. lia.
Qed.

(** * the derivative matrix, row by row *)
Lemma rows6_nth : forall k a b c d e f xa xb xc xd xe xf,
  nth_error a k = Some xa -> nth_error b k = Some xb -> nth_error c k = Some xc ->
  nth_error d k = Some xd -> nth_error e k = Some xe -> nth_error f k = Some xf ->
  nth_error (rows6 a b c d e f) k = Some (mkRow xa xb xc xd xe xf).
Proof.
  induction k; intros a b c d e f; destruct a, b, c, d, e, f; simpl; intros; try discriminate.
  - congruence.
  - eapply IHk; eauto.
Qed.
Lemma rows6_length : forall a b c d e f,
  length b = length a -> length c = length a -> length d = length a ->
  length e = length a -> length f = length a ->
  length (rows6 a b c d e f) = length a.
Proof.
  induction a; destruct b, c, d, e, f; simpl; intros; try discriminate; auto.
Qed.
Lemma double_first_length : forall l, length (double_first_n l) = length l.
Proof. destruct l; reflexivity. Qed.
Lemma drdp_length : forall rev4 sv, (0 < length sv)%nat -> length (drdp rev4 sv) = length sv.
Proof.
  intros. unfold drdp.
  assert (L : forall B (f : station -> station -> B), length (pairwise f sv) = pred (length sv))
    by (intros; apply pairwise_length).
  rewrite rows6_length; simpl; rewrite ?app_length, ?map_length, ?L; simpl; try lia.
  destruct rev4; rewrite ?double_first_length, L; lia.
Qed.

Definition before {A} (l : list A) (k : nat) : option A :=
  match k with O => None | S j => nth_error l j end.
Definition dbl (rev4 : bool) (k : nat) (v : V3) : V3 :=
  if rev4 then v else if (k =? 1)%nat then mkV (vx v * 2) (vy v) (vz v) else v.
Definition row_spec (rev4 : bool) (k : nat) (prev : option station) (s : station)
  (next : option station) : drdp_row :=
  mkRow
    (match prev with None => vzero | Some p => drdp_dc p s end)
    (match prev with None => vzero | Some p => dbl rev4 k (drdp_inc_at (half_dmd p s) s) end)
    (match prev with None => vzero | Some p => drdp_az_at (half_dmd p s) s end)
    (match next with None => vzero | Some n => vneg (drdp_dc s n) end)
    (match next with None => vzero | Some n => drdp_inc_at (half_dmd s n) s end)
    (match next with None => vzero | Some n => drdp_az_at (half_dmd s n) s end).

Lemma cons_pairwise_nth : forall B (f : station -> station -> B) z sv k s,
  nth_error sv k = Some s ->
  nth_error (z :: pairwise f sv) k =
  Some (match before sv k with None => z | Some p => f p s end).
Proof.
  intros. destruct k; simpl; auto.
  destruct (nth_error sv k) eqn:E.
  - eapply pairwise_nth; eauto.
  - apply nth_error_None in E. assert (S k < length sv)%nat by (apply nth_error_Some; congruence). lia.
Qed.
Lemma pairwise_snoc_nth : forall B (f : station -> station -> B) z sv k s,
  nth_error sv k = Some s ->
  nth_error (pairwise f sv ++ [z]) k =
  Some (match nth_error sv (S k) with None => z | Some n => f s n end).
Proof.
  intros. assert (k < length sv)%nat by (apply nth_error_Some; congruence).
  destruct (nth_error sv (S k)) eqn:E.
  - rewrite nth_error_app1.
    + eapply pairwise_nth; eauto.
    + rewrite pairwise_length. assert (S k < length sv)%nat by (apply nth_error_Some; congruence). lia.
  - apply nth_error_None in E. rewrite nth_error_app2; rewrite pairwise_length; [|lia].
    replace (k - pred (length sv))%nat with O by lia. reflexivity.
Qed.
Lemma drdp_nth : forall rev4 sv k s, nth_error sv k = Some s ->
  nth_error (drdp rev4 sv) k = Some (row_spec rev4 k (before sv k) s (nth_error sv (S k))).
Proof.
  intros. unfold drdp. apply rows6_nth.
  - apply cons_pairwise_nth; auto.
  - destruct rev4.
    + rewrite (cons_pairwise_nth _ _ _ _ _ s); auto.
    + destruct k as [|[|k]].
      * reflexivity.
      * assert (Q := cons_pairwise_nth _ (fun a b => drdp_inc_at (half_dmd a b) b) vzero sv 1 s H).
        cbn [nth_error before] in *. simpl.
        destruct (pairwise (fun a b => drdp_inc_at (half_dmd a b) b) sv) eqn:E; [discriminate|].
        simpl in *. injection Q; intros. subst v. destruct sv; simpl; [discriminate|]. reflexivity.
      * assert (Q := cons_pairwise_nth _ (fun a b => drdp_inc_at (half_dmd a b) b) vzero sv (S (S k)) s H).
        cbn [nth_error before] in *. simpl dbl.
        destruct (pairwise (fun a b => drdp_inc_at (half_dmd a b) b) sv) eqn:E; [discriminate|].
        simpl. auto.
  - apply (cons_pairwise_nth _ (fun a b => drdp_az_at (half_dmd a b) b)); auto.
  - assert (Q : forall l : list V3, map vneg l ++ [vzero] = map vneg (l ++ [vzero])).
    { intros. rewrite map_app. simpl. f_equal. f_equal. vring. }
    rewrite Q, map_nth_error', (pairwise_snoc_nth _ _ _ _ _ s); auto.
    destruct (nth_error sv (S k)); simpl; f_equal. vring.
  - apply (pairwise_snoc_nth _ (fun a b => drdp_inc_at (half_dmd a b) a)); auto.
  - apply (pairwise_snoc_nth _ (fun a b => drdp_az_at (half_dmd a b) a)); auto.
Qed.

(** * C25 *)
Definition set_md (s : station) (t : R) := mkSt t (st_inc s) (st_azi s).
Lemma der_cos : forall a b x, derivable_pt_lim (fun t => a * cos t + b) x (- a * sin x).
Proof.
  intros. replace (- a * sin x) with (a * (- sin x) + 0) by ring.
  apply (derivable_pt_lim_plus (fun t => a * cos t) (fun _ => b)).
  - apply (derivable_pt_lim_scal cos). apply derivable_pt_lim_cos.
  - apply derivable_pt_lim_const.
Qed.
Lemma der_sin : forall a b x, derivable_pt_lim (fun t => a * sin t + b) x (a * cos x).
Proof.
  intros. replace (a * cos x) with (a * cos x + 0) by ring.
  apply (derivable_pt_lim_plus (fun t => a * sin t) (fun _ => b)).
  - apply (derivable_pt_lim_scal sin). apply derivable_pt_lim_sin.
  - apply derivable_pt_lim_const.
Qed.
Lemma der_lin : forall a b x, derivable_pt_lim (fun t => a * t + b) x a.
Proof.
  intros. cut (derivable_pt_lim (fun t => a * t + b) x (a * 1 + 0)).
  { rewrite Rmult_1_r, Rplus_0_r. auto. }
  apply (derivable_pt_lim_plus (fun t => a * t) (fun _ => b)).
  - apply (derivable_pt_lim_scal id). apply derivable_pt_lim_id.
  - apply derivable_pt_lim_const.
Qed.
Lemma der_ext : forall f g x d d', (forall t, f t = g t) -> d = d' ->
  derivable_pt_lim g x d' -> derivable_pt_lim f x d.
Proof.
  intros f g x d d' E -> H eps He. destruct (H eps He) as [del Hd].
  exists del. intros. rewrite !E. apply Hd; auto.
Qed.
Ltac by_lin a b := apply (der_ext _ (fun t => a * t + b) _ _ a);
  [intro; simpl; field | simpl; field | apply der_lin].
Ltac by_sin a b y := apply (der_ext _ (fun t => a * sin t + b) _ _ (a * cos y));
  [intro; simpl; field | simpl; field | apply der_sin].
Ltac by_cos a b y := apply (der_ext _ (fun t => a * cos t + b) _ _ (- a * sin y));
  [intro; simpl; field | simpl; field | apply der_cos].

Section Deriv.
  Variables m1 i1 a1 m2 i2 a2 : R.
  Notation s1 := (mkSt m1 i1 a1). Notation s2 := (mkSt m2 i2 a2).
  Lemma d_md2 : vderivative (fun t => balanced_tangential m1 i1 a1 t i2 a2) m2 (drdp_dc s1 s2).
  Proof.
    unfold vderivative, balanced_tangential, direction_nev, drdp_dc; simpl. repeat split.
    - by_lin ((sin i1 * cos a1 + sin i2 * cos a2)/2) (- m1/2 * (sin i1 * cos a1 + sin i2 * cos a2)).
    - by_lin ((sin i1 * sin a1 + sin i2 * sin a2)/2) (- m1/2 * (sin i1 * sin a1 + sin i2 * sin a2)).
    - by_lin ((cos i1 + cos i2)/2) (- m1/2 * (cos i1 + cos i2)).
  Qed.
  Lemma d_md1 : vderivative (fun t => balanced_tangential t i1 a1 m2 i2 a2) m1 (vneg (drdp_dc s1 s2)).
  Proof.
    unfold vderivative, balanced_tangential, direction_nev, drdp_dc; simpl. repeat split.
    - by_lin (- (sin i1 * cos a1 + sin i2 * cos a2)/2) (m2/2 * (sin i1 * cos a1 + sin i2 * cos a2)).
    - by_lin (- (sin i1 * sin a1 + sin i2 * sin a2)/2) (m2/2 * (sin i1 * sin a1 + sin i2 * sin a2)).
    - by_lin (- (cos i1 + cos i2)/2) (m2/2 * (cos i1 + cos i2)).
  Qed.
  Lemma d_inc2 : vderivative (fun t => balanced_tangential m1 i1 a1 m2 t a2) i2
    (drdp_inc_at (half_dmd s1 s2) s2).
  Proof.
    unfold vderivative, balanced_tangential, direction_nev, drdp_inc_at, half_dmd; simpl. repeat split.
    - by_sin ((m2-m1)/2 * cos a2) ((m2-m1)/2 * (sin i1 * cos a1)) i2.
    - by_sin ((m2-m1)/2 * sin a2) ((m2-m1)/2 * (sin i1 * sin a1)) i2.
    - by_cos ((m2-m1)/2) ((m2-m1)/2 * cos i1) i2.
  Qed.
  Lemma d_inc1' : vderivative (fun t => balanced_tangential m1 t a1 m2 i2 a2) i1
    (drdp_inc_at (half_dmd s1 s2) s1).
  Proof.
    unfold vderivative, balanced_tangential, direction_nev, drdp_inc_at, half_dmd; simpl. repeat split.
    - by_sin ((m2-m1)/2 * cos a1) ((m2-m1)/2 * (sin i2 * cos a2)) i1.
    - by_sin ((m2-m1)/2 * sin a1) ((m2-m1)/2 * (sin i2 * sin a2)) i1.
    - by_cos ((m2-m1)/2) ((m2-m1)/2 * cos i2) i1.
  Qed.
  Lemma d_az2 : vderivative (fun t => balanced_tangential m1 i1 a1 m2 i2 t) a2
    (drdp_az_at (half_dmd s1 s2) s2).
  Proof.
    unfold vderivative, balanced_tangential, direction_nev, drdp_az_at, half_dmd; simpl. repeat split.
    - by_cos ((m2-m1)/2 * sin i2) ((m2-m1)/2 * (sin i1 * cos a1)) a2.
    - by_sin ((m2-m1)/2 * sin i2) ((m2-m1)/2 * (sin i1 * sin a1)) a2.
    - by_lin 0 ((m2-m1)/2 * (cos i1 + cos i2)).
  Qed.
  Lemma d_az1' : vderivative (fun t => balanced_tangential m1 i1 t m2 i2 a2) a1
    (drdp_az_at (half_dmd s1 s2) s1).
  Proof.
    unfold vderivative, balanced_tangential, direction_nev, drdp_az_at, half_dmd; simpl. repeat split.
    - by_cos ((m2-m1)/2 * sin i1) ((m2-m1)/2 * (sin i2 * cos a2)) a1.
    - by_sin ((m2-m1)/2 * sin i1) ((m2-m1)/2 * (sin i2 * sin a2)) a1.
    - by_lin 0 ((m2-m1)/2 * (cos i1 + cos i2)).
  Qed.
End Deriv.

Lemma jacobian : forall rev4 sv k s r, nth_error sv k = Some s -> nth_error (drdp rev4 sv) k = Some r ->
  (forall p, (0 < k)%nat -> nth_error sv (k - 1) = Some p ->
     vderivative (fun t => balanced_tangential (st_md p) (st_inc p) (st_azi p) t (st_inc s) (st_azi s))
       (st_md s) (d_depth r) /\
     (exists d, vderivative (fun t => balanced_tangential (st_md p) (st_inc p) (st_azi p) (st_md s) t (st_azi s))
       (st_inc s) d /\
       d_inc r = mkV ((if rev4 then 1 else if (k =? 1)%nat then 2 else 1) * vx d) (vy d) (vz d)) /\
     vderivative (fun t => balanced_tangential (st_md p) (st_inc p) (st_azi p) (st_md s) (st_inc s) t)
       (st_azi s) (d_az r)) /\
  (forall n, nth_error sv (k + 1) = Some n ->
     vderivative (fun t => balanced_tangential t (st_inc s) (st_azi s) (st_md n) (st_inc n) (st_azi n))
       (st_md s) (d_depth1 r) /\
     vderivative (fun t => balanced_tangential (st_md s) t (st_azi s) (st_md n) (st_inc n) (st_azi n))
       (st_inc s) (d_inc1 r) /\
     vderivative (fun t => balanced_tangential (st_md s) (st_inc s) t (st_md n) (st_inc n) (st_azi n))
       (st_azi s) (d_az1 r)) /\
  (k = 0%nat -> d_depth r = vzero /\ d_inc r = vzero /\ d_az r = vzero) /\
  (nth_error sv (k + 1) = None -> d_depth1 r = vzero /\ d_inc1 r = vzero /\ d_az1 r = vzero).
Proof.
  intros rev4 sv k s r H HR. rewrite (drdp_nth _ _ _ _ H) in HR. injection HR; intro E; clear HR. subst r.
  replace (k+1)%nat with (S k) by lia.
  split; [|split; [|split]].
  - intros p Hk Hp. destruct k as [|k]; [lia|]. replace (S k - 1)%nat with k in Hp by lia.
    unfold row_spec, before; simpl d_depth; simpl d_inc; simpl d_az. rewrite Hp.
    destruct p as [m1 i1 a1], s as [m2 i2 a2].
    split; [apply d_md2|split; [|apply d_az2]].
    exists (drdp_inc_at (half_dmd (mkSt m1 i1 a1) (mkSt m2 i2 a2)) (mkSt m2 i2 a2)).
    split; [apply d_inc2|]. unfold dbl. destruct rev4; [|destruct (S k =? 1)%nat]; v3; ring.
  - intros n Hn. unfold row_spec; simpl d_depth1; simpl d_inc1; simpl d_az1. simpl in Hn. rewrite Hn.
    destruct n as [m1 i1 a1], s as [m2 i2 a2].
    split; [apply d_md1|split; [apply d_inc1'|apply d_az1']].
  - intros ->. simpl. auto.
  - intros Hn. unfold row_spec; simpl d_depth1; simpl d_inc1; simpl d_az1. simpl in Hn. rewrite Hn. auto.
Qed.

(** one pass = six functions *)
Lemma rows6_cols : forall a b c d e f,
  length b = length a -> length c = length a -> length d = length a ->
  length e = length a -> length f = length a ->
  map d_depth (rows6 a b c d e f) = a /\ map d_inc (rows6 a b c d e f) = b /\
  map d_az (rows6 a b c d e f) = c /\ map d_depth1 (rows6 a b c d e f) = d /\
  map d_inc1 (rows6 a b c d e f) = e /\ map d_az1 (rows6 a b c d e f) = f.
Proof.
  induction a; destruct b, c, d, e, f; simpl; intros; try discriminate; auto 10.
  injection H; injection H0; injection H1; injection H2; injection H3; intros.
  destruct (IHa b c d e f) as (A & B & C & D & E & F); auto.
  rewrite A, B, C, D, E, F. auto 10.
Qed.
Lemma pairwise_ext : forall A B (f g : A -> A -> B) l, (forall a b, f a b = g a b) ->
  pairwise f l = pairwise g l.
Proof.
  intros A B f g l H. induction l as [|a l IH]; auto. destruct l as [|b l]; auto.
  change (f a b :: pairwise f (b :: l) = g a b :: pairwise g (b :: l)). rewrite H, IH. reflexivity.
Qed.
Lemma pairwise_map : forall A B C (f : A -> A -> B) (g : B -> C) l,
  map g (pairwise f l) = pairwise (fun a b => g (f a b)) l.
Proof.
  induction l as [|a l IH]; auto. destruct l as [|b l]; auto.
  change (g (f a b) :: map g (pairwise f (b :: l)) = g (f a b) :: pairwise (fun a b => g (f a b)) (b :: l)).
  rewrite IH. reflexivity.
Qed.
Lemma one_pass : forall rev4 sv, (0 < length sv)%nat ->
  map d_depth (drdp rev4 sv) = drk_dDepth sv /\
  map d_inc (drdp rev4 sv) = drk_dInc rev4 sv /\
  map d_az (drdp rev4 sv) = drk_dAz sv /\
  map d_depth1 (drdp rev4 sv) = drkplus1_dDepth sv /\
  map d_inc1 (drdp rev4 sv) = drkplus1_dInc sv /\
  map d_az1 (drdp rev4 sv) = drkplus1_dAz sv.
Proof.
  intros. unfold drdp.
  assert (L : forall B (f : station -> station -> B), length (pairwise f sv) = pred (length sv))
    by (intros; apply pairwise_length).
  match goal with |- map d_depth (rows6 ?a ?b ?c ?d ?e ?f) = _ /\ _ =>
    destruct (rows6_cols a b c d e f) as (A & B & C & D & E & F) end;
    try (simpl; rewrite ?app_length, ?map_length, ?L; simpl; lia).
  { simpl. f_equal. destruct rev4; rewrite ?double_first_length, !L; reflexivity. }
  rewrite A, B, C, D, E, F. clear A B C D E F.
  unfold drk_dDepth, drk_dInc, drk_dAz, drkplus1_dDepth, drkplus1_dInc, drkplus1_dAz.
  split; [|split; [|split; [|split; [|split]]]].
  - reflexivity.
  - f_equal. destruct rev4; [|f_equal]; apply pairwise_ext; intros; unfold drdp_inc_at, half_dmd; v3; field.
  - f_equal. apply pairwise_ext; intros; unfold drdp_az_at, half_dmd; v3; field.
  - f_equal. simpl tl. rewrite !pairwise_map. apply pairwise_ext. intros. v3; ring.
  - f_equal. apply pairwise_ext; intros; unfold drdp_inc_at, half_dmd; v3; field.
  - f_equal. apply pairwise_ext; intros; unfold drdp_az_at, half_dmd; v3; field.
Qed.

(** directional derivative: the error of one station moves the wellbore *)
Lemma d_affine : forall c e, derivable_pt_lim (fun t => c + t * e) 0 e.
Proof. intros. apply (der_ext _ (fun t => e * t + c) _ _ e); [intro; ring | auto | apply der_lin]. Qed.
Lemma d_sin_aff : forall c e, derivable_pt_lim (fun t => sin (c + t * e)) 0 (e * cos c).
Proof.
  intros. rewrite Rmult_comm. replace (cos c) with (cos ((fun t => c + t * e) 0)) by (f_equal; ring).
  apply (derivable_pt_lim_comp (fun t => c + t * e) sin). apply d_affine. apply derivable_pt_lim_sin.
Qed.
Lemma d_cos_aff : forall c e, derivable_pt_lim (fun t => cos (c + t * e)) 0 (- e * sin c).
Proof.
  intros. replace (- e * sin c) with (- sin ((fun t => c + t * e) 0) * e)
    by (replace ((fun t => c + t * e) 0) with c by ring; ring).
  apply (derivable_pt_lim_comp (fun t => c + t * e) cos). apply d_affine. apply derivable_pt_lim_cos.
Qed.
Lemma d_prod : forall f g x a b, derivable_pt_lim f x a -> derivable_pt_lim g x b ->
  derivable_pt_lim (fun t => f t * g t) x (a * g x + f x * b).
Proof. intros. apply (derivable_pt_lim_mult f g); auto. Qed.
Lemma d_plus : forall f g x a b, derivable_pt_lim f x a -> derivable_pt_lim g x b ->
  derivable_pt_lim (fun t => f t + g t) x (a + b).
Proof. intros. apply (derivable_pt_lim_plus f g); auto. Qed.
Lemma d_minus : forall f g x a b, derivable_pt_lim f x a -> derivable_pt_lim g x b ->
  derivable_pt_lim (fun t => f t - g t) x (a - b).
Proof. intros. apply (derivable_pt_lim_minus f g); auto. Qed.
Lemma d_const : forall c x, derivable_pt_lim (fun _ => c) x 0.
Proof. intros. apply derivable_pt_lim_const. Qed.

Ltac dd := match goal with
  | |- derivable_pt_lim (fun t => @?f t + @?g t) _ _ => eapply (d_plus f g); dd
  | |- derivable_pt_lim (fun t => @?f t - @?g t) _ _ => eapply (d_minus f g); dd
  | |- derivable_pt_lim (fun t => @?f t * @?g t) _ _ => eapply (d_prod f g); dd
  | |- derivable_pt_lim (fun t => sin (?c + t * ?e)) _ _ => apply d_sin_aff
  | |- derivable_pt_lim (fun t => cos (?c + t * ?e)) _ _ => apply d_cos_aff
  | |- derivable_pt_lim (fun t => t) _ _ => apply derivable_pt_lim_id
  | |- derivable_pt_lim (fun _ => ?c) _ _ => apply d_const
  end.
Lemma der_conv : forall f x d d', derivable_pt_lim f x d' -> d = d' -> derivable_pt_lim f x d.
Proof. intros; subst; auto. Qed.

Lemma move_end : forall m1 i1 a1 m2 i2 a2 D I A,
  vderivative (fun t => balanced_tangential m1 i1 a1 (m2 + t * D) (i2 + t * I) (a2 + t * A)) 0
    (vadd (vadd (vscale D (drdp_dc (mkSt m1 i1 a1) (mkSt m2 i2 a2)))
       (vscale I (drdp_inc_at (half_dmd (mkSt m1 i1 a1) (mkSt m2 i2 a2)) (mkSt m2 i2 a2))))
       (vscale A (drdp_az_at (half_dmd (mkSt m1 i1 a1) (mkSt m2 i2 a2)) (mkSt m2 i2 a2)))).
Proof.
  intros. unfold vderivative, balanced_tangential, direction_nev, drdp_dc, drdp_inc_at, drdp_az_at, half_dmd; simpl.
  unfold Rdiv. repeat split; (eapply der_conv; [dd|]);
  cbv beta; replace (m2 + 0 * D) with m2 by ring; replace (i2 + 0 * I) with i2 by ring;
  replace (a2 + 0 * A) with a2 by ring; field.
Qed.
Lemma move_start : forall m1 i1 a1 m2 i2 a2 D I A,
  vderivative (fun t => balanced_tangential (m1 + t * D) (i1 + t * I) (a1 + t * A) m2 i2 a2) 0
    (vadd (vadd (vscale D (vneg (drdp_dc (mkSt m1 i1 a1) (mkSt m2 i2 a2))))
       (vscale I (drdp_inc_at (half_dmd (mkSt m1 i1 a1) (mkSt m2 i2 a2)) (mkSt m1 i1 a1))))
       (vscale A (drdp_az_at (half_dmd (mkSt m1 i1 a1) (mkSt m2 i2 a2)) (mkSt m1 i1 a1)))).
Proof.
  intros. unfold vderivative, balanced_tangential, direction_nev, drdp_dc, drdp_inc_at, drdp_az_at, half_dmd; simpl.
  unfold Rdiv. repeat split; (eapply der_conv; [dd|]);
  cbv beta; replace (m1 + 0 * D) with m1 by ring; replace (i1 + 0 * I) with i1 by ring;
  replace (a1 + 0 * A) with a1 by ring; field.
Qed.

Lemma vderivative_plus : forall f g x a b, vderivative f x a -> vderivative g x b ->
  vderivative (fun t => vadd (f t) (g t)) x (vadd a b).
Proof.
  intros f g x a b (A & B & C) (D & E & F). unfold vderivative; simpl.
  split; [|split]; apply d_plus; auto.
Qed.


Lemma error_vectors : forall (rev4 : bool) sv e_DIA k s e prev,
  length e_DIA = length sv ->
  nth_error sv k = Some s -> nth_error e_DIA k = Some e ->
  (0 < k)%nat -> nth_error sv (k - 1) = Some prev ->
  let extra := if rev4 then 0 else if (k =? 1)%nat
               then (st_md s - st_md prev) / 2 * cos (st_inc s) * cos (st_azi s) * vy e else 0 in
  (exists d, vderivative (moved_displacement prev s e None) 0 d /\
     nth_error (e_NEV_star (drdp rev4 sv) e_DIA) k = Some (vadd d (mkV extra 0 0))) /\
  (exists d, vderivative (moved_displacement prev s e (nth_error sv (k + 1))) 0 d /\
     nth_error (e_NEV (drdp rev4 sv) e_DIA) k = Some (vadd d (mkV extra 0 0))).
Proof.
  intros rev4 sv e_DIA k s e prev HL Hs He Hk Hp extra.
  destruct k as [|k]; [lia|]. replace (S k - 1)%nat with k in Hp by lia.
  replace (S k + 1)%nat with (S (S k)) by lia.
  destruct prev as [m1 i1 a1], s as [m2 i2 a2], e as [D I A].
  pose proof (move_end m1 i1 a1 m2 i2 a2 D I A) as M1.
  assert (M0 : vderivative (fun _ => vzero) 0 vzero)
    by (unfold vderivative; simpl; split; [|split]; apply d_const).
  split.
  - eexists. split.
    + exact (vderivative_plus _ _ _ _ _ M1 M0).
    + unfold e_NEV_star. rewrite zero_first_nth, map2_nth, (drdp_nth _ _ _ _ Hs), He.
      f_equal. unfold row_spec, e_NEV_star_row, before. rewrite Hp. simpl d_depth; simpl d_inc; simpl d_az.
      unfold extra, dbl, drdp_inc_at, drdp_az_at, half_dmd; simpl.
      destruct rev4; [|destruct k as [|k]; simpl]; apply V3_eq; simpl; field.
  - destruct (nth_error sv (S (S k))) as [n|] eqn:Hn.
    + destruct n as [m3 i3 a3]. eexists. split.
      * exact (vderivative_plus _ _ _ _ _ M1 (move_start m2 i2 a2 m3 i3 a3 D I A)).
      * unfold e_NEV. rewrite zero_first_nth, map2_nth, (drdp_nth _ _ _ _ Hs), He.
        f_equal. unfold row_spec, e_NEV_row, before. rewrite Hp, Hn. simpl d_depth; simpl d_inc; simpl d_az; simpl d_depth1; simpl d_inc1; simpl d_az1.
        unfold extra, dbl, drdp_inc_at, drdp_az_at, half_dmd; simpl.
        destruct rev4; [|destruct k as [|k]; simpl]; apply V3_eq; simpl; field.
    + eexists. split.
      * exact (vderivative_plus _ _ _ _ _ M1 M0).
      * unfold e_NEV. rewrite zero_first_nth, map2_nth, (drdp_nth _ _ _ _ Hs), He.
        f_equal. unfold row_spec, e_NEV_row, before. rewrite Hp, Hn. simpl d_depth; simpl d_inc; simpl d_az; simpl d_depth1; simpl d_inc1; simpl d_az1.
        unfold extra, dbl, drdp_inc_at, drdp_az_at, half_dmd; simpl.
        destruct rev4; [|destruct k as [|k]; simpl]; apply V3_eq; simpl; field.
Qed.

(** * one source *)
Lemma e_NEV_length : forall rev4 sv e, (0 < length sv)%nat -> length e = length sv ->
  length (e_NEV (drdp rev4 sv) e) = length sv /\ length (e_NEV_star (drdp rev4 sv) e) = length sv.
Proof.
  intros. unfold e_NEV, e_NEV_star. rewrite !zero_first_length.
  split; rewrite map2_length; rewrite drdp_length; auto.
Qed.
Lemma generate_cases : forall d code e p given er,
  generate_error d code e p given = Some er ->
  er_propagation er = p /\ er_code er = code /\
  (er_e_NEV er, er_e_NEV_star er) = match given with Some q => q | None => (M_Error.e_NEV d e, M_Error.e_NEV_star d e) end /\
  ((In p ["systematic"; "global"; "within_pad"]%string /\
    er_cov_NEV er = map cov_from_vec (sigma_systematic (er_e_NEV er) (er_e_NEV_star er))) \/
   (p = "random"%string /\ er_cov_NEV er = cov_random (er_e_NEV er) (er_e_NEV_star er))).
Proof.
  intros d code e p given er H. unfold generate_error in H.
  destruct (match given with Some q => q | None => (M_Error.e_NEV d e, M_Error.e_NEV_star d e) end) as [x y] eqn:E.
  destruct (String.eqb p "systematic") eqn:E1;
  [|destruct (String.eqb p "global") eqn:E2; [|destruct (String.eqb p "within_pad") eqn:E3;
  [|destruct (String.eqb p "random") eqn:E4]]]; simpl in H; try discriminate;
  injection H; intro; subst er; simpl;
  repeat match goal with H : String.eqb _ _ = true |- _ => apply String.eqb_eq in H end; subst;
  (split; [reflexivity|split; [reflexivity|split; [reflexivity|]]]); auto 8.
Qed.
Lemma psd_outer : forall v, psd (outer v v).
Proof. intros v w. rewrite qform_outer. nra. Qed.
Lemma sym_outer : forall v, symmetric (outer v v).
Proof. intro v. unfold symmetric. vring. Qed.
Lemma psd_madd : forall a b, psd a -> psd b -> psd (madd a b).
Proof. intros a b A B v. rewrite qform_madd. specialize (A v); specialize (B v); lra. Qed.
Lemma sym_madd : forall a b, symmetric a -> symmetric b -> symmetric (madd a b).
Proof.
  unfold symmetric. intros a b A B. transitivity (madd (mtrans a) (mtrans b)). vring. congruence.
Qed.
Lemma psd_mzero : psd mzero. Proof. intro v. rewrite qform_mzero. lra. Qed.
Lemma sym_mzero : symmetric mzero. Proof. reflexivity. Qed.
Lemma psd_msum : forall l, (forall m, In m l -> psd m /\ symmetric m) -> psd (msum l) /\ symmetric (msum l).
Proof.
  induction l; simpl; intros. split; [apply psd_mzero|reflexivity].
  destruct (H a) as [P S]; auto. destruct IHl as [P' S']; auto.
  split; [apply psd_madd|apply sym_madd]; auto.
Qed.

(** the law of each propagation mode *)
Lemma systematic_law : forall d code e p given er k a,
  generate_error d code e p given = Some er -> p <> "random"%string ->
  length (er_e_NEV er) = length (er_e_NEV_star er) ->
  nth_error (er_e_NEV_star er) k = Some a ->
  let acc := vadd a (vsum (firstn (Nat.max 1 k) (er_e_NEV er))) in
  nth_error (er_cov_NEV er) k = Some (outer acc acc).
Proof.
  intros d code e p given er k a G Hp HL Ha acc.
  destruct (generate_cases _ _ _ _ _ _ G) as (P & _ & _ & [[_ C]|[C _]]); [|congruence].
  rewrite C, map_nth_error', (sigma_nth _ _ _ a); auto. simpl. unfold acc, cov_from_vec.
  destruct k; reflexivity.
Qed.
Lemma random_law : forall d code e given er k a,
  generate_error d code e "random" given = Some er ->
  length (er_e_NEV er) = length (er_e_NEV_star er) ->
  nth_error (er_e_NEV_star er) k = Some a ->
  nth_error (er_cov_NEV er) k =
  Some (madd (outer a a) (msum (map (fun v => outer v v) (firstn k (er_e_NEV er))))).
Proof.
  intros d code e given er k a G HL Ha.
  destruct (generate_cases _ _ _ _ _ _ G) as (P & _ & _ & [[I _]|[_ C]]).
  - simpl in I. intuition discriminate.
  - rewrite C. apply random_nth; auto.
Qed.
Lemma cov_length : forall d code e p given er,
  generate_error d code e p given = Some er ->
  length (er_e_NEV er) = length (er_e_NEV_star er) -> (0 < length (er_e_NEV er))%nat ->
  length (er_cov_NEV er) = length (er_e_NEV_star er).
Proof.
  intros d code e p given er G HL H0.
  destruct (generate_cases _ _ _ _ _ _ G) as (P & _ & _ & [[I C]|[_ C]]); rewrite C.
  - rewrite map_length, sigma_length; auto.
  - apply random_length; auto. rewrite <- HL; auto.
Qed.
Lemma source_valid : forall d code e p given er k c,
  generate_error d code e p given = Some er ->
  length (er_e_NEV er) = length (er_e_NEV_star er) ->
  nth_error (er_cov_NEV er) k = Some c -> symmetric c /\ psd c.
Proof.
  intros d code e p given er k c G HL H.
  destruct (nth_error (er_e_NEV_star er) k) as [a|] eqn:Ha.
  - destruct (string_dec p "random") as [->|N].
    + rewrite (random_law _ _ _ _ _ _ _ G HL Ha) in H. injection H; intro; subst c.
      destruct (psd_msum (map (fun v => outer v v) (firstn k (er_e_NEV er)))) as [P S].
      { intros m Hm. apply in_map_iff in Hm. destruct Hm as [v [<- _]]. split; [apply psd_outer|apply sym_outer]. }
      split; [apply sym_madd|apply psd_madd]; auto using sym_outer, psd_outer.
    + rewrite (systematic_law _ _ _ _ _ _ _ _ G N HL Ha) in H. injection H; intro; subst c.
      split; [apply sym_outer|apply psd_outer].
  - exfalso. apply nth_error_None in Ha.
    assert (k < length (er_cov_NEV er))%nat by (apply nth_error_Some; congruence).
    destruct (er_e_NEV er) as [|x l] eqn:E.
    + destruct (generate_cases _ _ _ _ _ _ G) as (P & _ & _ & [[I C]|[_ C]]); rewrite C, E in H0; simpl in *.
      * unfold sigma_systematic in H0. rewrite map_length in H0. unfold map2 in H0.
        rewrite map_length, combine_length in H0. simpl in H0. lia.
      * unfold cov_random, map2 in H0. rewrite map_length, combine_length, map_length in H0. lia.
    + rewrite (cov_length _ _ _ _ _ _ G) in H0; rewrite ?E; auto; simpl; lia.
Qed.
Lemma source_first : forall rev4 sv code e p er,
  (0 < length sv)%nat -> length e = length sv ->
  generate_error (drdp rev4 sv) code e p None = Some er ->
  length (er_cov_NEV er) = length sv /\ nth_error (er_cov_NEV er) 0 = Some mzero.
Proof.
  intros rev4 sv code e p er H0 HL G.
  destruct (generate_cases _ _ _ _ _ _ G) as (P & _ & E & _). injection E; intros E2 E1.
  destruct (e_NEV_length rev4 sv e H0 HL) as [L1 L2]. rewrite <- E1 in L1. rewrite <- E2 in L2.
  split. { rewrite (cov_length _ _ _ _ _ _ G); rewrite ?L1, ?L2; auto. }
  assert (Z : forall l, length l = length sv -> nth_error (zero_first l) 0 = Some vzero).
  { intros l Hl. destruct l; simpl in *; [lia|reflexivity]. }
  assert (A : nth_error (er_e_NEV_star er) 0 = Some vzero).
  { rewrite E2. apply Z. unfold M_Error.e_NEV_star in L2. rewrite map2_length; rewrite drdp_length; auto. }
  assert (B : nth_error (er_e_NEV er) 0 = Some vzero).
  { rewrite E1. apply Z. rewrite map2_length; rewrite drdp_length; auto. }
  destruct (string_dec p "random") as [->|N].
  - rewrite (random_law _ _ _ _ _ 0%nat vzero G); auto; [|congruence].
    f_equal. simpl. vring.
  - rewrite (systematic_law _ _ _ _ _ _ 0%nat vzero G N); auto; [|congruence].
    simpl. destruct (er_e_NEV er); [discriminate|]. simpl in B. injection B; intro; subst v.
    simpl. f_equal. unfold vsum. simpl. vring.
Qed.
