(** Proofs about covariances: carried to interpolated stations, given to the
    constructor, start covariance, radius. *)
Require Import Reals ZArith Bool String List Lra Lia Psatz.
Require Import Verif.Base Verif.NumPy Verif.Spec Verif.Spec_Lists Verif.M_Utils Verif.M_Survey Verif.M_Splice Verif.Spec_Splice.
Import ListNotations.
Open Scope R_scope.

Lemma in_mds_iff : forall mds md, in_mds mds md = true <-> In md mds.
Proof.
  intros mds md. unfold in_mds. rewrite existsb_exists. split.
  - intros (x & Hx & E). destruct (Req_EM_T x md); [subst; auto|discriminate].
  - intro H. exists md. split; auto. destruct (Req_EM_T md md); congruence.
Qed.

Lemma incr_lt : forall l i j a b, strictly_increasing l -> nth_error l i = Some a -> nth_error l j = Some b -> (i < j)%nat -> a < b.
Proof.
  assert (T : forall l a j b, strictly_increasing (a :: l) -> nth_error l j = Some b -> a < b).
  { induction l as [|x l IH]; intros a j b H B; [destruct j; discriminate|]. destruct H as [H1 H2].
    destruct j as [|j]; [injection B as <-; auto|]. pose proof (IH x j b H2 B). lra. }
  induction l as [|x l IH]; intros i j a b H A B L; [destruct i; discriminate|].
  destruct j as [|j]; [lia|]. destruct i as [|i].
  - injection A as <-. exact (T l x j b H B).
  - apply (IH i j a b); auto; [|lia]. destruct l; [exact I|exact (proj2 H)].
Qed.

(** invariant of the loop *)
Lemma carry_from : forall new mds covs radii met, strictly_increasing mds -> strictly_increasing new ->
  length covs = length mds -> length radii = length mds ->
  (forall i m, nth_error mds i = Some m -> ((i < met)%nat <-> (forall x, hd_error new = Some x -> m < x))) ->
  (met <= length mds)%nat ->
  (forall m x, In m mds -> hd_error new = Some x -> x <= m -> In m new) ->
  ((0 < met)%nat \/ forall x, hd_error new = Some x -> In x mds) ->
  exists l, carry_covariances mds covs radii met new = Some l /\ length l = length new /\
    forall j md, nth_error new j = Some md ->
      exists k m r c, nth_error mds k = Some m /\ nth_error radii k = Some r /\ nth_error covs k = Some c /\ m <= md /\
        (forall m', nth_error mds (S k) = Some m' -> md < m') /\
        ((exists m' c', nth_error mds (S k) = Some m' /\ nth_error covs (S k) = Some c' /\
            nth_error l j = Some (r, madd c (mscale ((md - m) / (m' - m)) (msub c' c)))) \/
         (S k = length mds /\ nth_error l j = Some (r, c))).
Proof.
  induction new as [|md new IH]; intros mds covs radii met SM SN LC LR INV LE INC ST.
  - exists []. split; [reflexivity|]. split; [reflexivity|]. intros [|j] x Hx; discriminate.
  - simpl in INV, INC, ST.
    assert (INV' : forall i m, nth_error mds i = Some m -> ((i < met)%nat <-> m < md)).
    { intros i m Hm. rewrite (INV i m Hm). split; [intro H; apply H; auto|intros H x E; injection E as <-; auto]. }
    set (met' := if in_mds mds md then S met else met).
    assert (STEP : (forall i m, nth_error mds i = Some m -> ((i < met')%nat <-> m <= md)) /\ (met' <= length mds)%nat /\ (0 < met')%nat).
    { unfold met'. destruct (in_mds mds md) eqn:IS.
      - apply in_mds_iff in IS. apply In_nth_error in IS. destruct IS as [i0 I0].
        assert (i0 = met).
        { destruct (lt_eq_lt_dec i0 met) as [[C|C]|C]; auto.
          - exfalso. apply (INV' _ _ I0) in C. lra.
          - exfalso. assert (HL : (met < length mds)%nat) by (apply Nat.lt_trans with i0; auto; apply nth_error_Some; congruence).
            destruct (nth_error mds met) as [mm|] eqn:EM; [|apply nth_error_None in EM; lia].
            pose proof (incr_lt _ _ _ _ _ SM EM I0 C) as LT. apply (INV' _ _ EM) in LT. lia. }
        subst i0. split; [|split; [|lia]].
        + intros i m Hm. split.
          * intro L. destruct (Nat.eq_dec i met) as [->|N]; [rewrite I0 in Hm; injection Hm as <-; lra|].
            assert (i < met)%nat by lia. apply (INV' _ _ Hm) in H. lra.
          * intro L. destruct (le_lt_dec i met) as [C|C]; [lia|]. pose proof (incr_lt _ _ _ _ _ SM I0 Hm C). lra.
        + assert (met < length mds)%nat by (apply nth_error_Some; congruence). lia.
      - split; [|split; [auto|]].
        + intros i m Hm. rewrite (INV' _ _ Hm). split; [lra|]. intro L. destruct (Req_EM_T m md) as [->|N]; [|lra].
          exfalso. apply nth_error_In in Hm. apply in_mds_iff in Hm. congruence.
        + destruct ST as [S0|S0]; auto. exfalso. specialize (S0 md eq_refl). apply in_mds_iff in S0. congruence. }
    destruct STEP as (INV2 & LE2 & POS).
    assert (SN' : strictly_increasing new) by (destruct new; [exact I|exact (proj2 SN)]).
    destruct (IH mds covs radii met' SM SN' LC LR) as (l & E & LL & SP).
    + intros i m Hm. rewrite (INV2 i m Hm). split.
      * intros L x Hx. destruct new as [|y new]; [discriminate|]. injection Hx as <-.
        assert (md < y) by (exact (proj1 SN)). lra.
      * intro L. destruct (Rle_dec m md) as [C|C]; auto. exfalso.
        assert (In m (md :: new)). { apply (INC m md); auto. apply nth_error_In in Hm; auto. lra. }
        destruct H as [->|H]; [lra|]. destruct new as [|y new]; [destruct H|].
        specialize (L y eq_refl). apply In_nth_error in H. destruct H as [j Hj].
        destruct j as [|j]; [injection Hj as ->; lra|].
        assert (y < m) by (apply (incr_lt (y :: new) 0 (S j) y m); auto; lia). lra.
    + auto.
    + intros m x Hm Hx L. destruct new as [|y new]; [discriminate|]. injection Hx as <-.
      assert (md < y) by (exact (proj1 SN)).
      destruct (INC m md Hm eq_refl) as [->|H0]; [lra|lra|auto].
    + left; auto.
    + destruct met' as [|i] eqn:EM; [lia|]. 
      assert (Hi : (i < length mds)%nat) by lia.
      destruct (nth_error mds i) as [m|] eqn:E1; [|apply nth_error_None in E1; lia].
      destruct (nth_error radii i) as [r|] eqn:E2; [|apply nth_error_None in E2; lia].
      destruct (nth_error covs i) as [c|] eqn:E3; [|apply nth_error_None in E3; lia].
      assert (Lm : m <= md) by (apply (INV2 i m E1); lia).
      assert (Nx : forall m', nth_error mds (S i) = Some m' -> md < m').
      { intros m' Hm'. destruct (Rlt_dec md m') as [C|C]; auto. exfalso. assert (m' <= md) by lra.
        apply (INV2 _ _ Hm') in H. lia. }
      destruct (Nat.ltb i (length mds - 1)) eqn:EB.
      * apply Nat.ltb_lt in EB.
        destruct (nth_error mds (S i)) as [m'|] eqn:E4; [|apply nth_error_None in E4; lia].
        destruct (nth_error covs (S i)) as [c'|] eqn:E5; [|apply nth_error_None in E5; lia].
        exists ((r, madd c (mscale ((md - m) / (m' - m)) (msub c' c))) :: l).
        split.
        { simpl. fold met'. rewrite EM, E2. unfold cov_step. rewrite E1, E3. rewrite (proj2 (Nat.ltb_lt _ _) EB), E4, E5, E. reflexivity. }
        split; [simpl; auto|]. intros [|j] x Hx.
        { injection Hx as <-. exists i, m, r, c. repeat (split; [solve [auto]|]).
          split; [intros m'' Q; rewrite E4 in Q; injection Q as <-; apply Nx; auto|]. left. exists m', c'. auto. }
        { exact (SP j x Hx). }
      * apply Nat.ltb_ge in EB.
        exists ((r, c) :: l). split.
        { simpl. fold met'. rewrite EM, E2. unfold cov_step. rewrite E1, E3. rewrite (proj2 (Nat.ltb_ge _ _) EB), E. reflexivity. }
        split; [simpl; auto|]. intros [|j] x Hx.
        { injection Hx as <-. exists i, m, r, c. repeat (split; [solve [auto]|]). right. split; [lia|auto]. }
        { exact (SP j x Hx). }
Qed.

Lemma lerp_forms : forall c c' m m' md, m < m' ->
  madd c (mscale ((md - m) / (m' - m)) (msub c' c)) =
  madd (mscale ((m' - md) / (m' - m)) c) (mscale ((md - m) / (m' - m)) c').
Proof.
  intros c c' m m' md L. assert (H : (m' - md) / (m' - m) = 1 - (md - m) / (m' - m)) by (field; lra).
  rewrite H. generalize ((md - m) / (m' - m)). intro t. vring.
Qed.

Lemma carry_all : forall new mds cs rs, strictly_increasing mds -> strictly_increasing new ->
  length cs = length mds -> length rs = length mds ->
  (forall m, In m mds -> In m new) -> hd_error new = hd_error mds ->
  exists l, carry_covariances mds cs rs 0 new = Some l /\ length l = length new /\
    forall j md q, nth_error new j = Some md -> nth_error l j = Some q -> carried mds cs rs md q.
Proof.
  intros new mds cs rs SM SN LC LR INC HD.
  destruct (carry_from new mds cs rs 0 SM SN LC LR) as (l & E & LL & SP).
  - intros i m Hm. split; [lia|]. intro H. exfalso.
    destruct new as [|x new].
    + destruct mds; [destruct i; discriminate|discriminate].
    + specialize (H x eq_refl). destruct mds as [|y mds]; [discriminate|]. injection HD as <-.
      destruct i as [|i]; [injection Hm as <-; lra|].
      pose proof (incr_lt _ 0 (S i) x m SM eq_refl Hm ltac:(lia)). lra.
  - lia.
  - auto.
  - right. intros x Hx. rewrite HD in Hx. destruct mds; [discriminate|]. injection Hx as <-. left; auto.
  - exists l. split; auto. split; auto. intros j md q Hj Hq.
    destruct (SP j md Hj) as (k & m & r & c & A1 & A2 & A3 & A4 & A5 & A6).
    exists k, m, r, c. repeat (split; [solve [auto]|]).
    destruct A6 as [(m' & c' & B1 & B2 & B3)|(B1 & B2)].
    + rewrite B3 in Hq. injection Hq as <-. split; [auto|]. right. exists m', c'. split; auto. split; auto.
      apply lerp_forms. apply (incr_lt mds k (S k) m m'); auto.
    + rewrite B2 in Hq. injection Hq as <-. auto.
Qed.

Lemma carried_at_station : forall mds cs rs k m r c q, strictly_increasing mds ->
  nth_error mds k = Some m -> nth_error rs k = Some r -> nth_error cs k = Some c ->
  carried mds cs rs m q -> q = (r, c).
Proof.
  intros mds cs rs k m r c [r0 c0] SM A B C (j & m1 & r1 & c1 & H1 & H2 & H3 & L1 & L2 & <- & H).
  assert (j = k).
  { destruct (lt_eq_lt_dec j k) as [[D|D]|D]; auto; exfalso.
    - destruct (Nat.eq_dec (S j) k) as [<-|N]; [pose proof (L2 _ A); lra|].
      assert (k < length mds)%nat by (apply nth_error_Some; congruence).
      destruct (nth_error mds (S j)) as [m2|] eqn:E2; [|apply nth_error_None in E2; lia].
      pose proof (L2 _ eq_refl). pose proof (incr_lt _ _ _ _ _ SM E2 A ltac:(lia)). lra.
    - pose proof (incr_lt _ _ _ _ _ SM A H1 D). lra. }
  subst j. rewrite A in H1; injection H1 as <-. rewrite B in H2; injection H2 as <-. rewrite C in H3; injection H3 as <-.
  cbn [fst snd] in *. f_equal. destruct H as [[_ H]|(m' & c' & E1 & E2 & ->)]; auto.
  assert (L := L2 _ E1). replace ((m - m) / (m' - m)) with 0 by (field; lra). replace ((m' - m) / (m' - m)) with 1 by (field; lra).
  vring.
Qed.

Lemma lerp_weights : forall m m' md, m <= md -> md < m' -> 0 <= (m' - md) / (m' - m) /\ 0 <= (md - m) / (m' - m).
Proof. intros. split; apply Rle_mult_inv_pos; lra. Qed.
Lemma carried_psd : forall mds cs rs md q, (forall c, In c cs -> psd c) -> carried mds cs rs md q -> psd (snd q).
Proof.
  intros mds cs rs md q P (k & m & r & c & H1 & H2 & H3 & L1 & L2 & _ & H) v.
  assert (PC := P _ (nth_error_In _ _ H3)). destruct H as [[_ ->]|(m' & c' & E1 & E2 & ->)]; [apply PC|].
  assert (PC' := P _ (nth_error_In _ _ E2)). destruct (lerp_weights _ _ _ L1 (L2 _ E1)) as [W1 W2].
  rewrite qform_madd, !qform_mscale. specialize (PC v). specialize (PC' v).
  pose proof (Rmult_le_pos _ _ W1 PC). pose proof (Rmult_le_pos _ _ W2 PC'). lra.
Qed.
Lemma carried_symmetric : forall mds cs rs md q, (forall c, In c cs -> symmetric c) -> carried mds cs rs md q -> symmetric (snd q).
Proof.
  intros mds cs rs md q P (k & m & r & c & H1 & H2 & H3 & L1 & L2 & _ & H).
  assert (PC := P _ (nth_error_In _ _ H3)). destruct H as [[_ ->]|(m' & c' & E1 & E2 & ->)]; [apply PC|].
  assert (PC' := P _ (nth_error_In _ _ E2)). unfold symmetric in *.
  rewrite <- PC at 2. rewrite <- PC' at 2. generalize ((m' - md) / (m' - m)), ((md - m) / (m' - m)). intros t u. vring.
Qed.
Lemma carried_between : forall mds cs rs md q v lo hi, (forall c, In c cs -> lo <= qform c v <= hi) ->
  carried mds cs rs md q -> lo <= qform (snd q) v <= hi.
Proof.
  intros mds cs rs md q v lo hi P (k & m & r & c & H1 & H2 & H3 & L1 & L2 & _ & H).
  assert (PC := P _ (nth_error_In _ _ H3)). destruct H as [[_ ->]|(m' & c' & E1 & E2 & ->)]; [apply PC|].
  assert (PC' := P _ (nth_error_In _ _ E2)). assert (LT := L2 _ E1). destruct (lerp_weights _ _ _ L1 LT) as [W1 W2].
  rewrite qform_madd, !qform_mscale.
  assert (H : (m' - md) / (m' - m) = 1 - (md - m) / (m' - m)) by (field; lra). rewrite H in W1 |- *.
  set (t := (md - m) / (m' - m)) in *. set (x := qform c v) in *. set (y := qform c' v) in *. clearbody t x y.
  pose proof (Rmult_le_compat_l (1 - t) lo x W1 (proj1 PC)). pose proof (Rmult_le_compat_l (1 - t) x hi W1 (proj2 PC)).
  pose proof (Rmult_le_compat_l t lo y W2 (proj1 PC')). pose proof (Rmult_le_compat_l t y hi W2 (proj2 PC')). lra.
Qed.

(** given covariances *)
Lemma combine_map_fst : forall {A B} (l : list A) (r : list B), length r = length l -> map fst (combine l r) = l.
Proof. induction l as [|a l IH]; intros [|b r] H; try discriminate; cbn; auto. f_equal. apply IH. auto. Qed.
Lemma rotate_nth : forall f rows c i, length c = length rows ->
  nth_error (rotate_rows f rows c) i =
  match nth_error rows i, nth_error c i with
  | Some s, Some x => Some (f (st_inc s) (st_azi s) x)
  | _, _ => None
  end.
Proof.
  unfold rotate_rows. induction rows as [|s rows IH]; intros [|x c] i H; try discriminate.
  - destruct i; reflexivity.
  - destruct i as [|i]; cbn; auto.
Qed.
Lemma rotate_length : forall f rows c, length c = length rows -> length (rotate_rows f rows c) = length rows.
Proof. intros. unfold rotate_rows. rewrite map_length, combine_length. lia. Qed.
