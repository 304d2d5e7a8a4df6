(** The verdict on one row, and the rows that are compared. *)
Require Import Reals ZArith Ascii String List Bool Lra Lia.
Require Import Verif.Base Verif.NumPy Verif.M_Utils Verif.M_DmsText Verif.M_Text Verif.M_Ingest Verif.Spec_Ingest Verif.P_Ingest.
Require Import Verif.M_Validate Verif.Spec_Validate.
Import ListNotations.
Open Scope list_scope.
Local Open Scope nat_scope.

(** ** largest value *)
Lemma emax2_at_most : forall x y tol, at_most (emax2 x y) tol = (at_most x tol && at_most y tol)%bool.
Proof.
  intros [a| | |] [b| | |] tol; cbn; try reflexivity; try (destruct (Rle_dec _ tol); reflexivity).
  unfold Rmax. destruct (Rle_dec a b), (Rle_dec b tol), (Rle_dec a tol); cbn; try reflexivity; lra.
Qed.
Lemma fold_at_most : forall l x tol, at_most (fold_left emax2 l x) tol = (at_most x tol && forallb (fun y => at_most y tol) l)%bool.
Proof.
  induction l as [|y l IH]; intros x tol; cbn; [rewrite andb_true_r; reflexivity|]. rewrite IH, emax2_at_most, andb_assoc. reflexivity.
Qed.
Lemma np_max_at_most : forall l x tol, np_max l = Some x -> (at_most x tol = true <-> Forall (fun y => at_most y tol = true) l).
Proof.
  intros [|y l] x tol H; [discriminate|]. injection H as <-. rewrite fold_at_most, andb_true_iff, forallb_forall, <- Forall_forall. split.
  - intros [A B]. constructor; assumption.
  - intro F. inversion F; auto.
Qed.
Lemma np_max_some : forall l, l <> [] -> exists x, np_max l = Some x.
Proof. intros [|y l] H; [contradiction|]. eexists. reflexivity. Qed.

Lemma gap_at_most : forall a t tol, at_most (gap a t) tol = true <-> exists r, t = Fin r /\ (Rabs (a - r) <= tol)%R.
Proof.
  intros a [r| | |] tol; cbn.
  - destruct (Rle_dec (Rabs (a - r)) tol) as [L|L]; split; intro H; try discriminate; try reflexivity.
    + exists r. auto.
    + destruct H as (r' & E & H). injection E as <-. contradiction.
  - split; [discriminate|intros (r & E & _); discriminate].
  - split; [discriminate|intros (r & E & _); discriminate].
  - split; [discriminate|intros (r & E & _); discriminate].
Qed.
Lemma nonzero_spec : forall t, nonzero t = true <-> t <> NaN /\ t <> Fin 0.
Proof.
  intros [r| | |]; cbn.
  - destruct (Req_EM_T r 0) as [->|N]; split; intro H; try discriminate; try reflexivity.
    + destruct H as [_ H]. contradiction.
    + split; [discriminate|]. intro E. injection E. exact N.
  - split; [split; discriminate|reflexivity].
  - split; [split; discriminate|reflexivity].
  - split; [discriminate|]. intros [H _]. contradiction.
Qed.
Lemma rel_at_most : forall a t tol, nonzero t = true ->
  (at_most (relative_gap a t) tol = true <-> exists r, t = Fin r /\ (Rabs (a - r) <= tol * Rabs r)%R).
Proof.
  intros a t tol N. apply nonzero_spec in N. destruct N as [N0 N1]. destruct t as [r| | |]; cbn.
  - assert (P : (0 < Rabs r)%R) by (apply Rabs_pos_lt; intros ->; contradiction).
    assert (Q : (Rabs (a - r) / Rabs r <= tol <-> Rabs (a - r) <= tol * Rabs r)%R).
    { split; intro H.
      - apply (Rmult_le_compat_r (Rabs r)) in H; [|lra]. unfold Rdiv in H. rewrite Rmult_assoc, Rinv_l, Rmult_1_r in H by lra. exact H.
      - apply (Rmult_le_reg_r (Rabs r)); [exact P|]. unfold Rdiv. rewrite Rmult_assoc, Rinv_l, Rmult_1_r by lra. exact H. }
    destruct (Rle_dec (Rabs (a - r) / Rabs r) tol) as [L|L]; split; intro H; try discriminate; try reflexivity.
    + exists r. split; [reflexivity|]. apply Q. exact L.
    + destruct H as (r' & E & H). injection E as <-. elim L. apply Q. exact H.
  - split; [discriminate|intros (r & E & _); discriminate].
  - split; [discriminate|intros (r & E & _); discriminate].
  - contradiction.
Qed.

(** ** the two errors *)
Lemma abs_error_same : forall target packed x tol, length target = length packed -> abs_error target packed = Some x ->
  (at_most x tol = true <-> within_abs tol target packed).
Proof.
  intros target packed x tol L H. unfold abs_error in H. rewrite L, Nat.eqb_refl in H. rewrite (np_max_at_most _ _ tol H). clear H x.
  unfold within_abs. revert packed L. induction target as [|t target IH]; intros [|p packed] L; try discriminate; cbn.
  - split; constructor.
  - injection L as L. specialize (IH _ L). split; intro F; inversion F; subst; constructor; try (apply gap_at_most; assumption); apply IH; assumption.
Qed.
Lemma relative_error_same : forall target packed x tol, length target = length packed -> relative_error target packed = Some x ->
  (at_most x tol = true <-> (0 <= tol)%R /\ within_rel tol target packed).
Proof.
  intros target packed x tol L H. unfold relative_error in H. rewrite L, Nat.eqb_refl in H.
  assert (Z : forall t a, nonzero t = false -> t = NaN \/ exists r, t = Fin r /\ (r = 0 \/ Rabs (a - r) <= tol * Rabs r)%R).
  { intros t a N. destruct t as [r| | |]; cbn in N; try discriminate; [|auto]. destruct (Req_EM_T r 0) as [E|E]; [|discriminate]. right. exists r. auto. }
  destruct (existsb nonzero target) eqn:E.
  - rewrite (np_max_at_most _ _ tol H). clear H x. split.
    + intro F. split.
      * apply existsb_exists in E. destruct E as (t & I & N). apply In_nth_error in I. destruct I as (k & K).
        destruct (nth_error packed k) as [p|] eqn:P; [|apply nth_error_None in P; assert (G : k < length target) by (apply nth_error_Some; congruence); lia].
        rewrite Forall_forall in F.
        assert (I : In (t, p) (combine target packed)).
        { clear -K P. revert packed k K P. induction target as [|x target IH]; intros [|y packed] [|k] K P; try discriminate; cbn in *.
          - left. congruence.
          - right. eapply IH; eassumption. }
        specialize (F (relative_gap p t)). rewrite in_map_iff in F.
        assert (G : at_most (relative_gap p t) tol = true).
        { apply F. exists (t, p). split; [reflexivity|]. apply filter_In. split; [exact I|exact N]. }
        apply (rel_at_most _ _ _ N) in G. destruct G as (r & -> & G). apply nonzero_spec in N. destruct N as [_ N].
        assert (0 < Rabs r)%R by (apply Rabs_pos_lt; intros ->; contradiction).
        pose proof (Rabs_pos (p - r)). destruct (Rle_dec 0 tol) as [Y|Y]; [exact Y|]. nra.
      * clear E. revert packed L F. induction target as [|t target IH]; intros [|p packed] L F; try discriminate; [constructor|].
        injection L as L. cbn in F. destruct (nonzero t) eqn:N.
        -- cbn in F. inversion F; subst. constructor; [|apply IH; assumption]. apply (rel_at_most _ _ _ N) in H1. destruct H1 as (r & -> & G). right. exists r. auto.
        -- constructor; [apply Z; exact N|apply IH; assumption].
    + intros [_ F]. clear E. unfold within_rel in F. induction F as [|t p target packed G F IH]; [constructor|]. cbn. injection L as L. specialize (IH L).
      destruct (nonzero t) eqn:N; [|exact IH]. constructor; [|exact IH]. apply (rel_at_most _ _ _ N). apply nonzero_spec in N. destruct N as [N0 N1].
      destruct G as [G|(r & -> & [->|G])]; [contradiction|contradiction|]. exists r. auto.
  - injection H as <-. cbn. assert (W : within_rel tol target packed).
    { revert packed L E. induction target as [|t target IH]; intros [|p packed] L E; try discriminate; [constructor|]. cbn in E. apply orb_false_iff in E. destruct E as [E0 E].
      injection L as L. constructor; [apply Z; exact E0|apply IH; assumption]. }
    destruct (Rle_dec 0 tol) as [Y|Y]; split; intro H; try discriminate; auto. destruct H. contradiction.
Qed.
Lemma judge_same : forall tr ta target packed a r ok, length target = length packed -> judge tr ta target packed = Some (a, r, ok) ->
  (ok = true <-> accepted tr ta target packed).
Proof.
  intros tr ta target packed a r ok L H. unfold judge in H. destruct (abs_error target packed) as [x|] eqn:A; [|discriminate].
  destruct (relative_error target packed) as [y|] eqn:B; [|discriminate]. injection H as <- <- <-. rewrite orb_true_iff.
  rewrite (abs_error_same _ _ _ ta L A), (relative_error_same _ _ _ tr L B). reflexivity.
Qed.
Lemma abs_error_one : forall t packed, length packed <> 1 -> abs_error [t] packed = abs_error (repeat t (length packed)) packed.
Proof.
  intros t packed N. unfold abs_error. rewrite repeat_length, Nat.eqb_refl. cbn [length].
  destruct (Nat.eqb_spec 1 (length packed)) as [E|_]; [lia|]. clear N. f_equal. induction packed as [|p packed IH]; [reflexivity|]. cbn. f_equal. exact IH.
Qed.
Lemma existsb_repeat : forall t n, existsb nonzero (repeat t (S n)) = nonzero t.
Proof. intros t n. induction n as [|n IH]; cbn in *; [apply orb_false_r|]. rewrite IH. destruct (nonzero t); reflexivity. Qed.
Lemma judge_one : forall tr ta t packed x, length packed = 6 -> judge tr ta [t] packed = Some x -> judge tr ta (repeat t 6) packed = Some x.
Proof.
  intros tr ta t packed x L H. unfold judge in *. rewrite abs_error_one in H by lia. rewrite L in H. destruct (abs_error (repeat t 6) packed); [|discriminate].
  unfold relative_error in *. rewrite existsb_repeat. cbn [existsb length] in H. rewrite orb_false_r in H. rewrite L in H.
  destruct (nonzero t); [discriminate|exact H].
Qed.
Lemma judge_targets : forall tr ta given packed x, length packed = 6 -> judge tr ta given packed = Some x ->
  exists full, targets given full /\ judge tr ta full packed = Some x /\ length full = 6.
Proof.
  intros tr ta given packed x L H. destruct (Nat.eq_dec (length given) 6) as [E|E].
  - exists given. split; [left; auto|]. auto.
  - assert (G : exists t, given = [t]).
    { unfold judge, abs_error in H. rewrite L in H. destruct (Nat.eqb_spec (length given) 6) as [?|_]; [contradiction|].
      destruct given as [|t [|]]; try discriminate. exists t. reflexivity. }
    destruct G as (t & ->). exists (repeat t 6). split; [right; exists t; auto|]. split; [apply judge_one; assumption|reflexivity].
Qed.
Lemma judge_runs : forall tr ta given packed, length packed = 6 -> ((exists x, judge tr ta given packed = Some x) <-> usable given).
Proof.
  intros tr ta given packed L. split.
  - intros (x & H). destruct (Nat.eq_dec (length given) 6) as [E|E]; [left; exact E|]. right.
    unfold judge, abs_error, relative_error in H. rewrite L in H. destruct (Nat.eqb_spec (length given) 6) as [?|_]; [contradiction|].
    destruct given as [|t [|]]; try discriminate. exists t. split; [reflexivity|]. cbn [existsb] in H. rewrite orb_false_r in H.
    destruct (nonzero t) eqn:N; [destruct (np_max _); discriminate|]. destruct t as [r| | |]; cbn in N; try discriminate; auto.
    destruct (Req_EM_T r 0) as [->|]; [auto|discriminate].
  - intros [E|(t & -> & T)].
    + unfold judge, abs_error, relative_error. rewrite E, L, Nat.eqb_refl.
      destruct (np_max_some (map (fun tp => gap (snd tp) (fst tp)) (combine given packed))) as (a & ->).
      { destruct given; [discriminate|]. destruct packed; [discriminate|]. cbn. discriminate. }
      destruct (existsb nonzero given) eqn:X; [|eexists; reflexivity].
      destruct (np_max_some (map (fun tp : ext * R => relative_gap (snd tp) (fst tp)) (filter (fun tp => nonzero (fst tp)) (combine given packed)))) as (b & ->); [|eexists; reflexivity].
      assert (LL : length given = length packed) by congruence. clear E L. revert packed LL X.
      induction given as [|t given IH]; intros [|p packed] LL X; try discriminate. cbn. cbn in X. destruct (nonzero t) eqn:N; [cbn; discriminate|].
      apply IH; [injection LL as LL; exact LL|exact X].
    + unfold judge. rewrite abs_error_one by lia. unfold abs_error, relative_error. rewrite repeat_length, Nat.eqb_refl. rewrite L.
      destruct (np_max_some (map (fun tp => gap (snd tp) (fst tp)) (combine (repeat t 6) packed))) as (a & ->).
      { destruct packed; [discriminate|]. cbn. discriminate. }
      assert (N : nonzero t = false). { destruct (nonzero t) eqn:N; [|reflexivity]. apply nonzero_spec in N. destruct N, T; contradiction. }
      cbn [existsb]. rewrite N. eexists. reflexivity.
Qed.
