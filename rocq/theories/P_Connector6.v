(** Step grids of interpolated sections, plans and surveys. *)
Require Import Reals ZArith Bool String List Sorted Lra Lia Psatz.
Require Import Verif.Base Verif.NumPy Verif.P_Trig Verif.Spec Verif.Spec_Lists Verif.M_Utils Verif.P_Utils
  Verif.M_Survey Verif.P_Survey3 Verif.M_Torque Verif.P_Torque Verif.M_Clearance Verif.P_Clearance
  Verif.M_Connector Verif.Spec_Connector Verif.Spec_Connector2 Verif.P_Connector
  Verif.P_Connector2 Verif.P_Connector3 Verif.P_Connector4.
Import ListNotations.
Open Scope R_scope.

(** ** multiples of the step *)
Lemma next_multiple : forall s x, 0 < s -> multiple s (x + (s - rmod x s)) /\ x < x + (s - rmod x s) <= x + s.
Proof.
  intros s x Hs. pose proof (rmod_bounds x s Hs). split; [|lra].
  exists (rfloor (x / s) + 1)%Z. rewrite plus_IZR. unfold rmod. ring.
Qed.
Lemma multiple_least : forall s x y, 0 < s -> multiple s y -> x < y -> exists i : nat, y = x + (s - rmod x s) + INR i * s.
Proof.
  intros s x y Hs (k & E) L. pose proof (rmod_bounds x s Hs) as B.
  assert (Z1 : IZR (rfloor (x / s)) < IZR k).
  { pose proof (rfloor_spec (x / s)) as [F _]. apply Rle_lt_trans with (x / s); auto.
    apply Rmult_lt_reg_r with s; auto. replace (x / s * s) with x by (field; lra). lra. }
  apply lt_IZR in Z1. exists (Z.to_nat (k - rfloor (x / s) - 1)).
  rewrite INR_IZR_INZ, Z2Nat.id by lia. rewrite !minus_IZR. unfold rmod. rewrite E. ring.
Qed.
Lemma multiple_next : forall s x (i : nat), multiple s (x + (s - rmod x s) + INR i * s).
Proof.
  intros. exists (rfloor (x / s) + 1 + Z.of_nat i)%Z. rewrite !plus_IZR, <- INR_IZR_INZ. unfold rmod. ring.
Qed.
Lemma arange_in : forall a len s x, 0 < s ->
  (In x (arange (s - rmod a s) len s) <-> 0 < x < len /\ multiple s (x + a)).
Proof.
  intros a len s x Hs. destruct (arange_spec (s - rmod a s) len s Hs) as (n & -> & B & T).
  pose proof (rmod_bounds a s Hs) as M. rewrite in_map_iff. split.
  - intros (i & <- & I). apply in_seq in I. specialize (B i ltac:(lia)).
    pose proof (pos_INR i). split; [split; [nra|auto]|].
    replace (s - rmod a s + INR i * s + a) with (a + (s - rmod a s) + INR i * s) by ring. apply multiple_next.
  - intros (X & K). destruct (multiple_least s a (x + a) Hs K ltac:(lra)) as (i & E).
    exists i. split; [lra|]. apply in_seq. split; [lia|]. cbn.
    destruct (le_lt_dec n i) as [L|L]; auto. apply le_INR in L. exfalso. nra.
Qed.
Lemma sorted_map_seq : forall (f : nat -> R) n k, (forall i j, (i < j)%nat -> f i < f j) ->
  StronglySorted Rlt (map f (seq k n)).
Proof.
  intros f n. induction n; intros k M; cbn; constructor; auto.
  apply Forall_forall. intros x I. apply in_map_iff in I. destruct I as (j & <- & I). apply in_seq in I. apply M. lia.
Qed.
Lemma arange_sorted : forall a b s, 0 < s -> StronglySorted Rlt (arange a b s).
Proof.
  intros a b s Hs. destruct (arange_spec a b s Hs) as (n & -> & _). apply sorted_map_seq.
  intros i j L. apply lt_INR in L. nra.
Qed.
Lemma ss_app : forall {A} (P : A -> A -> Prop) l1 l2, StronglySorted P l1 -> StronglySorted P l2 ->
  (forall x y, In x l1 -> In y l2 -> P x y) -> StronglySorted P (l1 ++ l2).
Proof.
  induction l1 as [|a r IH]; intros l2 S1 S2 X; cbn; auto. inversion S1; subst. constructor.
  - apply IH; auto. intros; apply X; [right|]; auto.
  - apply Forall_forall. intros y I. apply in_app_or in I. destruct I as [I|I].
    + rewrite Forall_forall in H2; auto.
    + apply X; [left|]; auto.
Qed.
Lemma ss_map : forall {A B} (P : A -> A -> Prop) (Q : B -> B -> Prop) (f : A -> B) l,
  (forall x y, P x y -> Q (f x) (f y)) -> StronglySorted P l -> StronglySorted Q (map f l).
Proof.
  intros A B P Q f l M S. induction S; cbn; constructor; auto.
  apply Forall_forall. intros y I. apply in_map_iff in I. destruct I as (x & <- & I).
  rewrite Forall_forall in H. auto.
Qed.
Lemma ss_weak : forall l, StronglySorted Rlt l -> StronglySorted Rle l.
Proof.
  intros l S. rewrite <- (map_id l). apply (ss_map Rlt Rle); auto. intros; lra.
Qed.
Lemma ss_singleton : forall {A} (P : A -> A -> Prop) x, StronglySorted P [x].
Proof. intros. constructor; constructor. Qed.

(** like step_grid, but a depth may be listed more than once *)
Definition wgrid (s a b : R) (marks l : list R) : Prop :=
  StronglySorted Rle l /\
  forall x, In x l <-> (In x marks \/ (a < x < b /\ multiple s x)).
Lemma offsets_strict : forall a len s (e : bool), 0 < s -> 0 < len ->
  step_grid s a (a + len) (if e then [a; a + len] else [a]) (map (fun x => x + a) (offsets a len (Some s) e)).
Proof.
  intros a len s e Hs Hl. split.
  - apply (ss_map Rlt Rlt); [intros; lra|]. unfold offsets. apply ss_app.
    + constructor; [apply arange_sorted; auto|]. apply Forall_forall. intros x I. apply arange_in in I; auto. lra.
    + destruct e; [apply ss_singleton|constructor].
    + intros x y I J. destruct e; [|destruct J]. destruct J as [<-|[]].
      destruct I as [<-|I]; [lra|]. apply arange_in in I; auto. lra.
  - intro x. rewrite in_map_iff. unfold offsets. split.
    + intros (y & <- & I). apply in_app_or in I. destruct I as [[<-|I]|I].
      * left. rewrite Rplus_0_l. destruct e; left; auto.
      * apply arange_in in I; auto. right. split; [lra|tauto].
      * destruct e; [|destruct I]. destruct I as [<-|[]]. left. right. left. ring.
    + intros [I|(B & K)].
      * destruct e.
        -- destruct I as [<-|[<-|[]]].
           ++ exists 0. split; [ring|]. left; auto.
           ++ exists len. split; [ring|]. apply in_or_app. right. left. auto.
        -- destruct I as [<-|[]]. exists 0. split; [ring|]. left; auto.
      * exists (x - a). split; [ring|]. apply in_or_app. left. right. apply arange_in; auto.
        split; [lra|]. replace (x - a + a) with x by ring. auto.
Qed.
Lemma offsets_zero : forall a s (e : bool), 0 < s ->
  map (fun x => x + a) (offsets a 0 (Some s) e) = if e then [a; a] else [a].
Proof.
  intros a s e Hs. unfold offsets.
  assert (Z : arange (s - rmod a s) 0 s = []).
  { destruct (arange (s - rmod a s) 0 s) as [|x l] eqn:E; auto. exfalso.
    assert (I : In x (arange (s - rmod a s) 0 s)) by (rewrite E; left; auto). apply arange_in in I; auto. lra. }
  rewrite Z. destruct e; cbn; repeat f_equal; ring.
Qed.
Lemma offsets_weak : forall a len s (e : bool), 0 < s -> 0 <= len ->
  wgrid s a (a + len) (if e then [a; a + len] else [a]) (map (fun x => x + a) (offsets a len (Some s) e)).
Proof.
  intros a len s e Hs [Hl|<-].
  - destruct (offsets_strict a len s e Hs Hl) as [S M]. split; [apply ss_weak; auto|auto].
  - rewrite offsets_zero by auto. rewrite Rplus_0_r. split.
    + destruct e; repeat constructor; lra.
    + intro x. destruct e; cbn; split; intros; intuition lra.
Qed.
Lemma wgrid_app : forall s a b c m1 m2 l1 l2, a <= b <= c ->
  wgrid s a b m1 l1 -> wgrid s b c m2 l2 -> In b (m1 ++ m2) ->
  (forall x, In x m1 -> x <= b) -> (forall x, In x m2 -> b <= x) ->
  wgrid s a c (m1 ++ m2) (l1 ++ l2).
Proof.
  intros s a b c m1 m2 l1 l2 B [S1 I1] [S2 I2] Ib L1 L2. split.
  - apply ss_app; auto. intros x y Ix Iy. apply I1 in Ix. apply I2 in Iy.
    assert (x <= b) by (destruct Ix as [Ix|Ix]; [auto|lra]).
    assert (b <= y) by (destruct Iy as [Iy|Iy]; [auto|lra]). lra.
  - intro x. rewrite !in_app_iff, I1, I2. split.
    + intros [[I|[I K]]|[I|[I K]]]; auto; right; (split; [lra|auto]).
    + intros [[I|I]|[I K]]; auto.
      destruct (Rtotal_order x b) as [L|[->|L]].
      * left. right. split; [lra|auto].
      * apply in_app_or in Ib. destruct Ib; auto.
      * right. right. split; [lra|auto].
Qed.
Lemma step_grid_gap : forall s a b marks l, 0 < s -> In b marks -> (forall x, In x marks -> a <= x) ->
  step_grid s a b marks l -> no_gap_over s b l.
Proof.
  intros s a b marks l Hs Ib La (_ & M) x I L. destruct (next_multiple s x Hs) as (K & B).
  assert (a <= x). { apply M in I. destruct I as [I|I]; [auto|lra]. }
  set (y := x + (s - rmod x s)) in *.
  destruct (Rlt_dec y b) as [Y|Y].
  - exists y. split; [|lra]. apply M. right. split; [lra|auto].
  - exists b. split; [|lra]. apply M. left. auto.
Qed.

(** ** C35: one section *)
Lemma curve_depths : forall md1 v1 v2 dc dl step e, dc <> 0 ->
  map fst (interpolate_curve md1 v1 v2 dc dl step e) = map (fun x => x + md1) (offsets md1 (Rabs dc) step e).
Proof.
  intros. unfold interpolate_curve. destruct (Req_EM_T dc 0); [tauto|]. rewrite map_map. reflexivity.
Qed.
Lemma hold_depths : forall md1 v1 md2 step e,
  map fst (interpolate_hold md1 v1 md2 step e) = map (fun x => x + md1) (offsets md1 (md2 - md1) step e).
Proof. intros. unfold interpolate_hold. rewrite map_map. reflexivity. Qed.
Lemma curve_grid : forall md1 v1 v2 dc dl s, 0 < s -> 0 < dc ->
  let l := map fst (interpolate_curve md1 v1 v2 dc dl (Some s) true) in
  step_grid s md1 (md1 + dc) [md1; md1 + dc] l /\ no_gap_over s (md1 + dc) l /\
  step_grid s md1 (md1 + dc) [md1] (map fst (interpolate_curve md1 v1 v2 dc dl (Some s) false)).
Proof.
  intros md1 v1 v2 dc dl s Hs Hd l. unfold l. rewrite !curve_depths, Rabs_pos_eq by lra.
  pose proof (offsets_strict md1 dc s true Hs Hd) as G. split; [exact G|]. split.
  - eapply step_grid_gap; [auto| | |exact G].
    + right; left; auto.
    + intros x [<-|[<-|[]]]; lra.
  - apply (offsets_strict md1 dc s false Hs Hd).
Qed.
Lemma hold_grid : forall md1 v1 md2 s, 0 < s -> md1 < md2 ->
  let l := map fst (interpolate_hold md1 v1 md2 (Some s) true) in
  step_grid s md1 md2 [md1; md2] l /\ no_gap_over s md2 l /\
  step_grid s md1 md2 [md1] (map fst (interpolate_hold md1 v1 md2 (Some s) false)) /\
  (forall x v, In (x, v) (interpolate_hold md1 v1 md2 (Some s) true) -> v = v1).
Proof.
  intros md1 v1 md2 s Hs Hd l. unfold l. rewrite !hold_depths.
  pose proof (offsets_strict md1 (md2 - md1) s true Hs ltac:(lra)) as G. cbv iota in G.
  pose proof (offsets_strict md1 (md2 - md1) s false Hs ltac:(lra)) as G'. cbv iota in G'.
  replace (md1 + (md2 - md1)) with md2 in G, G' by ring.
  split; [exact G|]. split; [|split; [exact G'|]].
  - eapply step_grid_gap; [auto| | |exact G].
    + right; left; auto.
    + intros x [<-|[<-|[]]]; lra.
  - intros x v I. apply in_map_iff in I. destruct I as (y & E & _). congruence.
Qed.
Lemma zero_sections : forall md1 v1 v2 dl s, 0 < s ->
  map fst (interpolate_curve md1 v1 v2 0 dl (Some s) true) = [md1] /\
  map fst (interpolate_hold md1 v1 md1 (Some s) true) = [md1; md1].
Proof.
  intros md1 v1 v2 dl s Hs. split.
  - unfold interpolate_curve. destruct (Req_EM_T 0 0); [reflexivity|congruence].
  - rewrite hold_depths. replace (md1 - md1) with 0 by ring. apply offsets_zero; auto.
Qed.
(** no step: ends only *)
Lemma no_step : forall md1 v1 v2 dc dl md2, 0 < dc ->
  map fst (interpolate_curve md1 v1 v2 dc dl None true) = [md1; md1 + dc] /\
  map fst (interpolate_hold md1 v1 md2 None true) = [md1; md2].
Proof.
  intros. rewrite curve_depths, hold_depths by lra. rewrite Rabs_pos_eq by lra. cbn [map app offsets].
  rewrite Rplus_0_l. replace (dc + md1) with (md1 + dc) by ring. replace (md2 - md1 + md1) with md2 by ring. auto.
Qed.

(** ** Rodrigues *)
Lemma rodrigues_arc : forall u v t, is_unit u -> is_unit v -> angle_between u v t -> 0 < t < PI ->
  1 / 10000000000 <= sin t ->
  exists n, is_unit n /\ orthogonal u n /\ v = arc_tangent u n t /\
    forall x, rodrigues u v x = arc_tangent u n x.
Proof.
  intros u v t U V (Bt & Ct) Ht Sn.
  assert (Ss : sin t * sin t = 1 - cos t * cos t) by (pose proof (sin2_cos2 t) as P; unfold Rsqr in P; lra).
  assert (Np : 0 < sin t) by lra.
  assert (NC : norm (cross u v) = sin t).
  { apply norm_from_sqr; [lra|]. rewrite Ss, Ct. pose proof (lagrange u v) as L.
    unfold is_unit in U, V. rewrite U, V in L. lra. }
  set (n := vscale (/ sin t) (vsub v (vscale (cos t) u))).
  assert (IP : cross (vscale (/ norm (cross u v)) (cross u v)) u = n).
  { rewrite NC. unfold n. unfold is_unit in U. rewrite Ct. clear -U.
    destruct u as [a b c], v as [d e f]. unf. cbn in *.
    apply V3_eq; cbn.
    - transitivity (/ sin t * (d * (a * a + b * b + c * c) - (a * d + b * e + c * f) * a)); [ring|rewrite U; ring].
    - transitivity (/ sin t * (e * (a * a + b * b + c * c) - (a * d + b * e + c * f) * b)); [ring|rewrite U; ring].
    - transitivity (/ sin t * (f * (a * a + b * b + c * c) - (a * d + b * e + c * f) * c)); [ring|rewrite U; ring]. }
  assert (On : orthogonal u n).
  { unfold orthogonal, n. rewrite dot_vscale_r.
    replace (dot u (vsub v (vscale (cos t) u))) with (dot u v - cos t * dot u u) by (destruct u, v; unf; cbn; ring).
    unfold is_unit in U. rewrite U, Ct. ring. }
  assert (Un : is_unit n).
  { unfold is_unit, n. rewrite dot_vscale_l, dot_vscale_r.
    replace (dot (vsub v (vscale (cos t) u)) (vsub v (vscale (cos t) u)))
      with (dot v v - 2 * cos t * dot u v + cos t * cos t * dot u u) by (destruct u, v; unf; cbn; ring).
    unfold is_unit in U, V. rewrite U, V, <- Ct.
    replace (1 - 2 * cos t * cos t + cos t * cos t * 1) with (sin t * sin t) by (rewrite Ss; ring). field. lra. }
  exists n. split; [auto|]. split; [auto|]. split.
  - unfold arc_tangent, n. destruct u, v. unf. apply V3_eq; cbn; field; lra.
  - intro x. unfold rodrigues. cbv zeta. rewrite IP.
    destruct (Rlt_dec (norm (cross u v)) (1 / 10000000000)) as [Z|_]; [rewrite NC in Z; lra|].
    unfold vunit.
    assert (N1 : norm (vadd (vscale (cos x) u) (vscale (sin x) n)) = 1).
    { apply norm_from_sqr; [lra|].
      replace (dot (vadd (vscale (cos x) u) (vscale (sin x) n)) (vadd (vscale (cos x) u) (vscale (sin x) n)))
        with (cos x * cos x * dot u u + 2 * cos x * sin x * dot u n + sin x * sin x * dot n n)
        by (clear; destruct u, n; unf; cbn; ring).
      unfold is_unit, orthogonal in *. rewrite U, Un, On.
      pose proof (sin2_cos2 x) as P. unfold Rsqr in P. lra. }
    rewrite N1. unfold arc_tangent. set (w := vadd _ _). clearbody w. destruct w. unf. apply V3_eq; cbn; field.
Qed.
