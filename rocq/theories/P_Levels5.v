(** All the legs of a survey. *)
Require Import Reals ZArith Bool String List Lra Lia Psatz.
Require Import Verif.Base Verif.NumPy Verif.P_Trig Verif.Spec Verif.Spec_Lists Verif.M_Utils
  Verif.P_Utils Verif.P_Utils2 Verif.P_Utils3 Verif.M_Connector
  Verif.M_Survey Verif.P_Survey Verif.P_Survey2
  Verif.P_Survey3 Verif.P_Survey4 Verif.P_Tvd Verif.P_Refine Verif.M_Levels Verif.P_Levels Verif.P_Levels2 Verif.P_Levels3
  Verif.Spec_Levels Verif.P_Levels4.
Import ListNotations.
Open Scope R_scope.

Lemma level_next : forall start step z, is_level start step z -> is_level start step (z + step) /\ is_level start step (z - step).
Proof.
  intros start step z (k & ->). split; [exists (k + 1)%Z; rewrite plus_IZR|exists (k - 1)%Z; rewrite minus_IZR]; ring.
Qed.
Lemma level_start : forall start step, is_level start step start.
Proof. intros. exists 0%Z. simpl. ring. Qed.
Lemma moderate_drawn : forall u v m m2, moderate_turn u v m m2 -> drawn u v m m2.
Proof.
  intros u v m m2 [E|(t & A & B & C & D & E)]; [left; auto|]. right. exists t. split; auto. split; auto. split; [|split; auto].
  - pose proof level_dls_pos as L. apply Rmult_le_reg_l with level_dls; auto.
    replace (level_dls * (30 / level_dls * t)) with (30 * t) by (field; lra).
    replace (level_dls * (m2 - m)) with ((m2 - m) * (PI / 180 / 100000000)); auto.
    unfold level_dls, radians. field.
  - rewrite Rabs_left; lra.
Qed.
Lemma opposite_half : forall p a b, 0 < pair_dogleg a b < PI ->
  opposite_depth (vz p) (dir a) (dir b) (st_md b - st_md a) (half_turn_z p a b).
Proof.
  intros p a b H. destruct (pair_dogleg_range a b) as [R C].
  destruct (bend_normal_spec (dir a) (dir b) (pair_dogleg a b)) as (N1 & N2 & N3); auto; try apply direction_unit.
  exists (pair_dogleg a b), (bend_normal (dir a) (dir b) (pair_dogleg a b)), ((st_md b - st_md a) / pair_dogleg a b).
  split; [split; auto|]. split; auto. split; [field; lra|]. split; auto. split; auto. split; auto.
  unfold half_turn_z, arc_point. rewrite sin_PI, cos_PI. destruct p, (dir a), (bend_normal _ _ _). unf. field. lra.
Qed.
Lemma drawn_dogleg : forall a b, drawn (dir a) (dir b) (st_md a) (st_md b) -> pair_dogleg a b < PI.
Proof.
  intros a b [E|(t & (A1 & A2) & B & _)].
  - rewrite (pair_dogleg_is a b 0); [apply PI_RGT_0|pose proof PI_RGT_0; lra|].
    rewrite E, cos_0. symmetry. apply direction_unit.
  - rewrite (pair_dogleg_is a b t); auto; lra.
Qed.

Section Whole.
Variables (s : survey) (sx sn : V3) (start step : R).
Hypothesis PL : placed s sx sn.
Hypothesis S0 : 0 < step.
Hypothesis SU : suits s start step.
Let lv := is_level start step.

Lemma rows_increasing : strictly_increasing (map st_md (sv_rows s)).
Proof.
  apply si_intro. intros i x y X Y. rewrite nth_error_map in X, Y.
  destruct (nth_error (sv_rows s) i) as [a|] eqn:A; [|discriminate]. destruct (nth_error (sv_rows s) (S i)) as [b|] eqn:B; [|discriminate].
  simpl in X, Y. injection X as <-. injection Y as <-.
  destruct (placed_len _ _ _ PL) as [_ LN]. assert (LL : (i < length (sv_rows s))%nat) by (apply nth_error_Some; congruence).
  destruct (nth_error_some_lt _ (sv_nev s) i) as [p P]; [lia|].
  destruct (SU i a b p A B P) as (W & _). apply apart_close in W. lra.
Qed.
Definition consec (x y : station * V3) : Prop :=
  exists k, nth_error (sv_rows s) k = Some (fst x) /\ nth_error (sv_rows s) (S k) = Some (fst y) /\
    nth_error (sv_nev s) k = Some (snd x) /\ nth_error (sv_nev s) (S k) = Some (snd y).
Lemma consec_tame : forall x y, consec x y -> tame lv (snd x) (fst x) (fst y) /\ snd y = leg_pos (snd x) (fst x) (fst y) (st_md (fst y) - st_md (fst x)).
Proof.
  intros [a p] [b q] (k & A & B & P & Q). simpl in *.
  destruct (SU k a b p A B P) as (W & M & O & I).
  assert (D := drawn_dogleg a b (moderate_drawn _ _ _ _ M)).
  assert (L : 0 < st_md b - st_md a) by (apply apart_close in W; lra).
  split; [|rewrite leg_pos_end by auto; eapply placed_steps; eauto].
  split; auto. split; auto. split; [apply moderate_drawn; auto|]. split.
  - intros z LZ T E. apply (O (half_turn_z p a b)); [apply opposite_half; auto|]. rewrite <- E. auto.
  - intros x Bx LZ. destruct (placed_lookup s sx sn k a b p (st_md a + x) PL rows_increasing A B P ltac:(lra)) as (n & E & _ & NP & NV & _).
    replace (st_md a + x - st_md a) with x in NP, NV by ring.
    destruct (I (st_md a + x) n _ ltac:(lra) E) as (W1 & M1). { rewrite NP. exact LZ. }
    split; auto. apply moderate_drawn. unfold leg_dir. rewrite <- NV. exact M1.
Qed.

Definition pnode (x : station * V3) : node := mkNode (st_md (fst x)) (snd x) (dir (fst x)) false.
Lemma pnode_at : forall x y, consec x y -> at_leg (snd x) (fst x) (fst y) 0 (pnode x) /\
  at_leg (snd x) (fst x) (fst y) (st_md (fst y) - st_md (fst x)) (pnode y).
Proof.
  intros x y C. destruct (consec_tame x y C) as ((D & W & _) & E).
  assert (L : 0 < st_md (fst y) - st_md (fst x)) by (apply apart_close in W; lra).
  split; (split; [|split]); simpl; try ring; auto.
  - rewrite leg_pos_0; auto. - rewrite leg_dir_0; auto. - rewrite leg_dir_end; auto.
Qed.

(** what one leg adds, and the level it ends with *)
Definition leg_adds (T : R) (x y : station * V3) (inner : list node) (T' : R) : Prop :=
  consec x y /\ lv T' /\
  Forall (inner_node lv (snd x) (fst x) (fst y) 0) inner /\ rising (st_md (fst x)) inner (st_md (fst y)) /\
  let z1 := vz (snd x) in let z2 := vz (snd y) in
    ((T < z1 /\ z2 <= T /\ T' < z2 <= T' + step /\
      (forall i : nat, z2 <= T - INR i * step -> exists n, In n (inner ++ [pnode y]) /\ vz (nd_pos n) = T - INR i * step) /\
      Forall (fun n => vz (nd_pos n) <= T) inner) \/
     (z1 < T + step /\ T + step <= z2 /\ T' <= z2 < T' + step /\
      (forall i : nat, T + INR (S i) * step <= z2 -> exists n, In n (inner ++ [pnode y]) /\ vz (nd_pos n) = T + INR (S i) * step) /\
      Forall (fun n => T + step <= vz (nd_pos n)) inner) \/
     (~ (T < z1 /\ z2 <= T) /\ ~ (z1 < T + step /\ T + step <= z2) /\ inner = [] /\ T' = T)).
Inductive run : R -> station * V3 -> list (station * V3) -> list (list node) -> Prop :=
| run_nil : forall T x, run T x [] []
| run_cons : forall T T' x y l g gs, leg_adds T x y g T' -> run T' y l gs -> run T x (y :: l) (g :: gs).
Fixpoint flatten (gs : list (list node)) (l : list (station * V3)) : list node :=
  match gs, l with g :: gs, y :: l => g ++ pnode y :: flatten gs l | _, _ => [] end.
Fixpoint chained (x : station * V3) (l : list (station * V3)) : Prop :=
  match l with [] => True | y :: r => consec x y /\ chained y r end.

Lemma legs_run : forall l x T done, chained x l -> lv T ->
  exists N gs, run T x l gs /\ forall fuel, (N <= fuel)%nat -> exists T',
    level_legs fuel step (map pnode l) (pnode x :: done) T = LegDone (rev (flatten gs l) ++ pnode x :: done) T'.
Proof.
  induction l as [|y l IH]; intros x T done CH LT.
  - exists 0%nat, []. split; [constructor|]. intros fuel _. exists T. reflexivity.
  - destruct CH as [C CH]. destruct (consec_tame x y C) as [TM _]. destruct (pnode_at x y C) as [AX AY].
    destruct (leg_whole lv step (snd x) (fst x) (fst y) (pnode x) (pnode y) done T S0 (level_next start step) TM AX AY eq_refl LT)
      as (N & inner & T' & LT' & RUN & F & RI & CASES).
    destruct (IH y T' (rev inner ++ pnode x :: done) CH LT') as (M & gs & RR & E).
    exists (N + M)%nat, (inner :: gs). split.
    + econstructor; [|exact RR]. split; [auto|]. split; [auto|]. split; [auto|]. split; [auto|]. exact CASES.
    + intros fuel LF. destruct (E fuel ltac:(lia)) as (T2 & E2). exists T2. cbn [map level_legs]. rewrite RUN by lia. rewrite E2.
      f_equal. cbn [flatten]. rewrite rev_app_distr. cbn [rev]. rewrite <- !app_assoc. reflexivity.
Qed.
End Whole.
