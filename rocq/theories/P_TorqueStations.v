(** Proofs about the survey on which torque and drag is calculated: the queue of
    stations and the sorting. *)
Require Import Reals ZArith Bool String List Lra Lia Permutation.
Require Import Verif.Base Verif.NumPy Verif.P_Trig Verif.Spec Verif.Spec_Lists Verif.M_Utils Verif.P_Utils Verif.P_Utils2
  Verif.M_Architecture Verif.M_Survey Verif.P_Survey Verif.P_Survey2 Verif.P_Survey3 Verif.P_Survey4 Verif.P_Survey5
  Verif.P_Levels Verif.P_Levels2 Verif.M_TorqueStations Verif.Spec_TorqueStations.
Import ListNotations.
Open Scope R_scope.

Lemma among_iff : forall x l, among x l = true <-> In x l.
Proof.
  intros x l. unfold among. rewrite existsb_exists. split.
  - intros (y & I & E). destruct (Req_EM_T x y); [subst; auto|discriminate].
  - intro I. exists x. split; auto. destruct (Req_EM_T x x); auto.
Qed.
(** ** sorting *)
Lemma insert_row_perm : forall x l, Permutation (insert_row x l) (x :: l).
Proof.
  induction l as [|y l IH]; simpl; auto. destruct (before x y); auto.
  rewrite IH. constructor.
Qed.
Lemma sorted_perm : forall l, Permutation (sorted_rows l) l.
Proof. induction l as [|x l IH]; simpl; auto. rewrite insert_row_perm, IH. auto. Qed.
Definition rmd (r : row) : R := fst (fst r).
Lemma before_md : forall a b, (before a b = true -> rmd a <= rmd b) /\ (before a b = false -> rmd b <= rmd a).
Proof.
  intros [[m1 i1] z1] [[m2 i2] z2]. unfold before, rmd. simpl.
  destruct (Rlt_dec m1 m2); [split; [intro; lra|discriminate]|].
  destruct (Rlt_dec m2 m1); [split; [discriminate|intro; lra]|]. split; intro; lra.
Qed.
Lemma nd_cons : forall x l, never_decreasing l -> (forall y, hd_error l = Some y -> x <= y) -> never_decreasing (x :: l).
Proof. intros x [|y l] H G; simpl; auto. Qed.
Lemma insert_nd : forall x l, never_decreasing (map rmd l) -> never_decreasing (map rmd (insert_row x l)).
Proof.
  induction l as [|y l IH]; intro H; [simpl; auto|]. simpl insert_row. destruct (before_md x y) as [B1 B2].
  destruct (before x y) eqn:E.
  - simpl map. apply nd_cons; auto. intros z Z. simpl in Z. injection Z; intro; subst. auto.
  - assert (T : never_decreasing (map rmd l)) by (destruct l; simpl in *; tauto).
    simpl map. apply nd_cons; [auto|]. intros z Z. destruct l as [|w l]; simpl in Z.
    + injection Z; intro; subst. auto.
    + simpl in H. destruct (before x w); simpl in Z; injection Z; intro; subst; auto; tauto.
Qed.
Lemma sorted_nd : forall l, never_decreasing (map rmd (sorted_rows l)).
Proof. induction l; simpl; auto. apply insert_nd; auto. Qed.
Lemma nd_tail : forall a l, never_decreasing (a :: l) -> never_decreasing l.
Proof. intros a [|b l] H; simpl in *; tauto. Qed.
Lemma nd_le : forall l i j a b, never_decreasing l -> nth_error l i = Some a -> nth_error l j = Some b -> (i <= j)%nat -> a <= b.
Proof.
  induction l as [|x l IH]; intros i j a b H A B L; [destruct i; discriminate|].
  destruct j as [|j].
  - destruct i; [|lia]. simpl in *. assert (a = b) by congruence. lra.
  - destruct i as [|i].
    + simpl in A, B. injection A; intro; subst x. destruct l as [|y l]; [destruct j; discriminate|].
      destruct H as [H1 H2]. assert (y <= b) by (apply (IH 0%nat j y b); auto; lia). lra.
    + simpl in A, B. apply (IH i j a b); auto; [eapply nd_tail; eauto|lia].
Qed.
Lemma nd_gap : forall l i x y z, never_decreasing l -> nth_error l i = Some x -> nth_error l (S i) = Some y -> In z l -> z <= x \/ y <= z.
Proof.
  intros l i x y z H X Y Z. apply In_nth_error in Z. destruct Z as (k & K).
  destruct (Nat.le_gt_cases k i).
  - left. apply (nd_le l k i); auto.
  - right. apply (nd_le l (S i) k); auto.
Qed.
