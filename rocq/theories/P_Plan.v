(** survey_to_plan: termination, and where the sections stop. *)
Require Import Reals ZArith Bool String List Lra Lia Psatz Arith.
Require Import Verif.Base Verif.NumPy Verif.M_Connector Verif.M_Plan Verif.Spec_Plan.
Import ListNotations.
Open Scope R_scope.

Lemma over_jumps : forall tol a b, over tol a b = true <-> jumps tol a b.
Proof.
  intros tol a b. unfold over, jumps. destruct a as [x|], b as [y|]; try (split; [discriminate|intros (u & v & E1 & E2 & _); congruence]).
  destruct (Rle_dec tol (Rabs (y - x))) as [H|H]; split; intros G; auto; try discriminate.
  - eauto.
  - destruct G as (u & v & E1 & E2 & G). injection E1 as <-. injection E2 as <-. tauto.
Qed.

(** the loop from station [j]: nothing jumped before *)
Lemma scan_stops : forall {N C} (join : N -> nat -> option C) score tol n s a k j old last c i,
  (s + 2 <= j)%nat -> (j + k = n)%nat -> last = fit join score s a (j - 1) ->
  match old with None => j = (s + 2)%nat | Some o => (s + 2 < j)%nat /\ join a (j - 1)%nat = Some o end ->
  (forall x, (s + 2 <= x < j)%nat -> (x + 2 < n)%nat -> ~ jumps tol (fit join score s a (x - 1)) (fit join score s a x)) ->
  scan join score tol n s a last old (seq j k) = ScanStop c i ->
  exists t, runs_to tol (fit join score s a) n s t i /\ join a t = Some c /\ (s < i <= n - 1)%nat /\ (i <= t < n)%nat /\ (t <= i + 1)%nat.
Proof.
  intros N C join score tol n s a k. induction k as [|k IH]; intros j old last c i J JK LE OLD NJ H; cbn [seq scan] in H; [discriminate|].
  destruct (join a j) as [c'|] eqn:EJ; [|discriminate].
  assert (FJ : fit join score s a j = score c' s j).
  { unfold fit. replace (j =? s + 1)%nat with false by (symmetry; apply Nat.eqb_neq; lia). rewrite EJ. auto. }
  destruct (over tol last (score c' s j)) eqn:OV; cbn [andb] in H.
  - destruct (j <? n - 2)%nat eqn:LT.
    + apply Nat.ltb_lt in LT. replace (j =? n - 1)%nat with false in H by (symmetry; apply Nat.eqb_neq; lia). injection H as <- <-.
      apply over_jumps in OV. rewrite LE, <- FJ in OV.
      assert (FJP : first_jump tol (fit join score s a) n s j).
      { split; [lia|]. split; auto. intros x X. apply NJ; lia. }
      destruct old as [o|].
      * destruct OLD as [O1 O2]. exists (j - 1)%nat. split; [|split; [auto|lia]]. left. exists j. split; auto. split; auto. lia.
      * subst j. exists (s + 2)%nat. split; [|split; [auto|lia]]. left. exists (s + 2)%nat. split; auto. split; auto. lia.
    + apply Nat.ltb_ge in LT. destruct (j =? n - 1)%nat eqn:EQ.
      * apply Nat.eqb_eq in EQ. injection H as <- <-. exists j. split; [|split; [auto|lia]]. right. split; [|lia].
        intros b (B & BJ & _). apply (NJ b); auto; lia.
      * apply (IH (S j) (Some c') (score c' s j) c i) in H; auto; try lia.
        -- rewrite <- FJ. f_equal. lia.
        -- split; [lia|]. replace (S j - 1)%nat with j by lia. auto.
        -- intros x X X2. apply Nat.eqb_neq in EQ. apply NJ; lia.
  - assert (NJJ : ~ jumps tol (fit join score s a (j - 1)) (fit join score s a j)).
    { intro Q. rewrite FJ, <- LE in Q. apply over_jumps in Q. congruence. }
    destruct (j =? n - 1)%nat eqn:EQ.
    + apply Nat.eqb_eq in EQ. injection H as <- <-. exists j. split; [|split; [auto|lia]]. right. split; [|lia].
      intros b (B & BJ & _). destruct (Nat.eq_dec b j); [lia|]. apply (NJ b); auto; lia.
    + apply (IH (S j) (Some c') (score c' s j) c i) in H; auto; try lia.
      * rewrite <- FJ. f_equal. lia.
      * split; [lia|]. replace (S j - 1)%nat with j by lia. auto.
      * intros x X X2. destruct (Nat.eq_dec x j) as [->|]; auto. apply NJ; lia.
Qed.
Lemma scan_never_unbound : forall {N C} (join : N -> nat -> option C) score tol n s a k j old last,
  (0 < k)%nat -> (j + k = n)%nat -> scan join score tol n s a last old (seq j k) <> ScanUnbound.
Proof.
  intros N C join score tol n s a k. induction k as [|k IH]; intros j old last K JK; [lia|]. cbn [seq scan].
  destruct (join a j); [|discriminate]. destruct (_ && _)%bool; [discriminate|].
  destruct (j =? n - 1)%nat eqn:EQ; [discriminate|]. apply Nat.eqb_neq in EQ. apply IH; lia.
Qed.
Lemma scan_raises : forall {N C} (join : N -> nat -> option C) score tol n s a l old last, (forall j, In j l -> join a j <> None) ->
  scan join score tol n s a last old l <> ScanRaised.
Proof.
  intros N C join score tol n s a l. induction l as [|j l IH]; intros old last H; cbn [scan]; [discriminate|].
  destruct (join a j) eqn:EJ; [|exfalso; apply (H j); [left; auto|auto]]. destruct (_ && _)%bool; [discriminate|].
  destruct (j =? n - 1)%nat; [discriminate|]. apply IH. intros x X. apply H. right. auto.
Qed.

Lemma section_stops : forall {N C} (join : N -> nat -> option C) score tol n s a c i, (s + 2 < n)%nat ->
  get_section join score tol n s a = ScanStop c i ->
  exists t, runs_to tol (fit join score s a) n s t i /\ join a t = Some c /\ (s < i <= n - 1)%nat /\ (i <= t < n)%nat /\ (t <= i + 1)%nat.
Proof.
  intros N C join score tol n s a c i S2 H. unfold get_section in H.
  replace (n <? s + 2)%nat with false in H by (symmetry; apply Nat.ltb_ge; lia).
  apply (scan_stops join score tol n s a (n - (s + 2)) (s + 2) None (Some 0)); auto; try lia.
  unfold fit. replace (s + 2 - 1 =? s + 1)%nat with true; auto. symmetry. apply Nat.eqb_eq. lia.
Qed.
(** a section that is not the last leaves more than two stations *)
Lemma next_room : forall tol f n s t i, (s + 2 < n)%nat -> runs_to tol f n s t i -> (i < n - 1)%nat -> (i + 2 < n)%nat.
Proof. intros tol f n s t i S2 [(b & (B & _) & -> & _)|(_ & -> & _)] L; lia. Qed.

Lemma plan_progress : forall {N C} (join : N -> nat -> option C) score ends tol n fuel s a, (s + 2 < n)%nat -> (n <= s + fuel)%nat ->
  (exists l ts, plan_loop join score ends tol n fuel s a = PlanOk l /\ planned join score ends tol n s a l ts /\
     (forall t, In t ts -> (s < t)%nat) /\ rising ts /\ List.last ts 0%nat = (n - 1)%nat /\ (List.length l < n - s)%nat /\ List.length ts = List.length l) \/
  plan_loop join score ends tol n fuel s a = PlanRaised.
Proof.
  intros N C join score ends tol n fuel. induction fuel as [|fuel IH]; intros s a S2 F; [lia|]. cbn [plan_loop].
  destruct (get_section join score tol n s a) as [| |c i] eqn:E.
  - right; auto.
  - exfalso. unfold get_section in E. replace (n <? s + 2)%nat with false in E by (symmetry; apply Nat.ltb_ge; lia).
    revert E. apply scan_never_unbound; lia.
  - destruct (section_stops join score tol n s a c i S2 E) as (t & RT & JT & I1 & I2 & I3).
    destruct (n - 1 <=? i)%nat eqn:LE.
    + apply Nat.leb_le in LE. left. assert (i = n - 1)%nat by lia. subst i. exists [c], [t]. split; auto. split; [constructor; auto|].
      cbn. split; [intros x [<-|[]]; lia|]. split; auto. split; [lia|]. split; auto. lia.
    + apply Nat.leb_gt in LE. pose proof (next_room _ _ _ _ _ _ S2 RT LE) as NR.
      destruct (IH i (ends c)) as [(l & ts & EL & PL & GT & RI & LA & LN & LT)|EL]; [lia|lia| |rewrite EL; auto].
      left. rewrite EL. exists (c :: l), (t :: ts). split; auto. split; [eapply planned_more; eauto|].
      split; [intros x [<-|X]; [lia|specialize (GT x X); lia]|].
      destruct ts as [|t2 ts]; [destruct l; [inversion PL|discriminate LT]|].
      split; [|split; [exact LA|cbn [List.length] in *; lia]]. cbn [rising]. split; [|exact RI].
      (* the next section reaches at least two further *)
      assert (T2 : (i + 2 <= t2)%nat); [|lia].
      inversion PL as [? ? ? ? RT2|? ? ? ? ? ? ? RT2]; subst; destruct RT2 as [(b & (B & _) & _ & ->)|(_ & _ & ->)]; lia.
Qed.

Lemma plan_sections : forall {N C} (join : N -> nat -> option C) score ends first n tol d cs, (3 <= n)%nat ->
  survey_to_plan join score ends first n tol d = PlanOk cs ->
  exists ts, planned join score ends tol n 0 first cs ts /\ rising ts /\ (forall t, In t ts -> (2 <= t)%nat) /\
    List.last ts 0%nat = (n - 1)%nat /\ (List.length cs < n)%nat.
Proof.
  intros N C join score ends first n tol d cs HN H. unfold survey_to_plan in H. destruct (Rlt_dec 0 d); [|discriminate].
  destruct n as [|n']; [lia|]. set (n := S n') in *.
  destruct (plan_progress join score ends tol n n 0 first) as [(l & ts & EL & PL & GT & RI & LA & LN & LT)|EL]; try lia.
  - change (plan_loop join score ends tol n n 0 first = PlanOk cs) in H. rewrite EL in H. injection H as <-.
    exists ts. split; auto. split; auto. split; [|split; auto; lia].
    assert (T0 : forall t ts', ts = t :: ts' -> (2 <= t)%nat).
    { intros t ts' ->. inversion PL as [? ? ? ? RT2|? ? ? ? ? ? ? RT2]; subst; destruct RT2 as [(b & (B & _) & _ & ->)|(_ & _ & ->)]; lia. }
    clear - T0 RI. destruct ts as [|t ts]; [intros ? []|]. specialize (T0 t ts eq_refl). revert t T0 RI. induction ts as [|t2 ts IH]; intros t T0 RI x X.
    + destruct X as [<-|[]]; auto.
    + destruct RI as [R1 R2]. destruct X as [<-|X]; auto. apply (IH t2); auto. lia.
  - change (plan_loop join score ends tol n n 0 first = PlanOk cs) in H. congruence.
Qed.

Lemma plan_outcome : forall {N C} (join : N -> nat -> option C) score ends first n tol d,
  (d <= 0 -> survey_to_plan join score ends first n tol d = PlanAssertion) /\
  (0 < d -> n = 0%nat -> survey_to_plan join score ends first n tol d = PlanIndexError) /\
  (0 < d -> n = 1%nat -> survey_to_plan join score ends first n tol d = match join first 0%nat with Some c => PlanOk [c] | None => PlanRaised end) /\
  (0 < d -> n = 2%nat -> survey_to_plan join score ends first n tol d = PlanUnbound) /\
  (0 < d -> (3 <= n)%nat -> (forall a j, join a j <> None) -> exists cs, survey_to_plan join score ends first n tol d = PlanOk cs).
Proof.
  intros N C join score ends first n tol d. unfold survey_to_plan. split; [|split; [|split; [|split]]].
  - intros. destruct (Rlt_dec 0 d); [lra|auto].
  - intros D ->. destruct (Rlt_dec 0 d); [auto|lra].
  - intros D ->. destruct (Rlt_dec 0 d); [|lra]. cbn. destruct (join first 0%nat); auto. rewrite andb_false_r. reflexivity.
  - intros D ->. destruct (Rlt_dec 0 d); [|lra]. reflexivity.
  - intros D HN J. destruct (Rlt_dec 0 d); [|lra]. destruct n as [|n']; [lia|]. set (n := S n') in *.
    destruct (plan_progress join score ends tol n n 0 first) as [(l & ts & EL & _)|EL]; try lia; [exists l; exact EL|].
    exfalso. revert EL. clear D HN. generalize n at 2. intros fuel. revert first. generalize 0%nat. induction fuel as [|fuel IH]; intros s a E; cbn [plan_loop] in E; [discriminate|].
    destruct (get_section join score tol n s a) as [| |c i] eqn:EG; [|discriminate|].
    + unfold get_section in EG. revert EG. apply scan_raises. intros j _. apply J.
    + destruct (n - 1 <=? i)%nat; [discriminate|]. destruct (plan_loop join score ends tol n fuel i (ends c)) eqn:EL; try discriminate. eapply IH; eauto.
Qed.

(** the score of a section can be anything: only its steps are compared with the
    tolerance, and not in the last two stations *)
Lemma plan_fit_refuted : forall M tol d, 0 < tol -> 0 < d ->
  exists (join : nat -> nat -> option nat) score ends c, survey_to_plan join score ends 0%nat 3 tol d = PlanOk [c] /\
    (forall s j, exists x, score c s j = Some x) /\ join 0%nat 2%nat = Some c /\ score c 0%nat 2%nat = Some M.
Proof.
  intros M tol d HT HD. exists (fun _ j => Some j), (fun _ _ _ => Some M), (fun c => c), 2%nat.
  split; [|split; [eauto|auto]]. unfold survey_to_plan. destruct (Rlt_dec 0 d); [|lra]. cbn. rewrite andb_false_r. reflexivity.
Qed.
(** a jump at the first station tried: the section runs to station 2 and the next
    one counts from station 1 *)
Lemma plan_first_jump : forall {N C} (join : N -> nat -> option C) score tol n s a t next, (s + 4 < n)%nat ->
  jumps tol (Some 0) (fit join score s a (s + 2)) -> runs_to tol (fit join score s a) n s t next -> t = (s + 2)%nat /\ next = (s + 1)%nat.
Proof.
  intros N C join score tol n s a t next HN J R.
  assert (FJ : first_jump tol (fit join score s a) n s (s + 2)).
  { split; [lia|]. split; [|intros; lia]. replace (s + 2 - 1)%nat with (s + 1)%nat by lia.
    replace (fit join score s a (s + 1)) with (Some 0); auto. unfold fit. rewrite Nat.eqb_refl. auto. }
  destruct R as [(b & (B1 & B2 & B3) & -> & ->)|(NB & _)]; [|destruct (NB _ FJ)].
  destruct (Nat.eq_dec b (s + 2)); [lia|]. destruct FJ as (_ & FJ & _). destruct (B3 (s + 2)%nat); [lia|auto].
Qed.
