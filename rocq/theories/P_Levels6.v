(** The survey with stations at regular depths. *)
Require Import Reals ZArith Bool String List Lra Lia Psatz.
Require Import Verif.Base Verif.NumPy Verif.P_Trig Verif.Spec Verif.Spec_Lists Verif.M_Utils
  Verif.P_Utils Verif.P_Utils2 Verif.P_Utils3 Verif.M_Connector
  Verif.M_Survey Verif.P_Survey Verif.P_Survey2
  Verif.P_Survey3 Verif.P_Survey4 Verif.P_Tvd Verif.Spec_Refine Verif.P_Refine Verif.M_Levels Verif.P_Levels Verif.P_Levels2 Verif.P_Levels3
  Verif.Spec_Levels Verif.P_Levels4 Verif.P_Levels5.
Import ListNotations.
Open Scope R_scope.

Fixpoint ascending (x : R) (l : list node) : Prop :=
  match l with [] => True | n :: r => x < nd_md n /\ ascending (nd_md n) r end.
Definition linked (n m : node) : Prop := nd_pos m = vadd (nd_pos n) (step_between (node_station n) (node_station m)).
Fixpoint links (n : node) (l : list node) : Prop :=
  match l with [] => True | m :: r => linked n m /\ links m r end.
Lemma ascending_si : forall l x, ascending x l -> strictly_increasing (x :: map nd_md l).
Proof. induction l as [|n l IH]; intros x A; [exact I|]. destruct A as [A B]. simpl. split; auto. exact (IH _ B). Qed.
Lemma rising_app : forall g x t l, rising x g (nd_md t) -> ascending (nd_md t) l -> ascending x (g ++ t :: l).
Proof. induction g as [|n g IH]; intros x t l H A; simpl in *; [auto|]. destruct H. auto. Qed.
Lemma links_app : forall g n t l, links n (g ++ [t]) -> links t l -> links n (g ++ t :: l).
Proof. induction g as [|m g IH]; intros n t l H L; simpl in *; [tauto|]. destruct H. auto. Qed.
Lemma at_unit : forall p a b x n, at_leg p a b x n -> is_unit (nd_vec n).
Proof. intros p a b x n (_ & _ & V). rewrite V. apply direction_unit. Qed.

Lemma leg_linked : forall p a b x1 x2 n m, pair_dogleg a b < PI -> 0 < st_md b - st_md a -> 0 <= x1 <= x2 -> x2 <= st_md b - st_md a ->
  at_leg p a b x1 n -> at_leg p a b x2 m -> linked n m.
Proof.
  intros p a b x1 x2 n m D L B B2 A1 A2. unfold linked.
  destruct (node_station_dir n (at_unit _ _ _ _ _ A1)) as [D1 M1]. destruct (node_station_dir m (at_unit _ _ _ _ _ A2)) as [D2 M2].
  destruct A1 as (N1 & N2 & N3), A2 as (Q1 & Q2 & Q3).
  rewrite N2, Q2. symmetry. apply (leg_part p a b x1 x2); auto; congruence.
Qed.
Lemma leg_links : forall lv p a b t, pair_dogleg a b < PI -> 0 < st_md b - st_md a -> at_leg p a b (st_md b - st_md a) t ->
  forall inner x1 n, 0 <= x1 -> at_leg p a b x1 n -> Forall (inner_node lv p a b 0) inner -> rising (st_md a + x1) inner (st_md b) ->
  links n (inner ++ [t]).
Proof.
  intros lv p a b t D L AT. induction inner as [|m g IH]; intros x1 n X A F RI.
  - simpl in *. split; auto. apply (leg_linked p a b x1 (st_md b - st_md a)); auto; lra.
  - inversion F as [|? ? (x & Bx & AM & _) F']; subst. simpl in RI. destruct RI as [R1 R2].
    assert (EM := proj1 AM). rewrite EM in R1, R2.
    simpl. split; [apply (leg_linked p a b x1 x); auto; lra|]. apply (IH x); auto; lra.
Qed.

Section Facts.
Variables (s : survey) (sx sn : V3) (start step : R).
Hypothesis PL : placed s sx sn.
Hypothesis S0 : 0 < step.
Hypothesis SU : suits s start step.
Let lv := is_level start step.
Notation run := (run s start step).
Notation consec := (consec s).

Lemma run_ascending : forall T x l gs, run T x l gs -> ascending (st_md (fst x)) (flatten gs l).
Proof.
  intros T x l gs H. induction H as [|T T' x y l g gs A H IH]; [exact I|].
  destruct A as (_ & _ & _ & RI & _). simpl. apply rising_app; auto.
Qed.
Lemma run_links : forall T x l gs, run T x l gs -> links (pnode x) (flatten gs l).
Proof.
  intros T x l gs H. induction H as [|T T' x y l g gs A H IH]; [exact I|].
  destruct A as (C & _ & F & RI & _). simpl. destruct (pnode_at s sx sn start step PL SU x y C) as [AX AY].
  destruct (consec_tame s sx sn start step PL SU x y C) as ((D & W & _) & _). apply apart_close in W.
  apply links_app; auto. apply (leg_links lv (snd x) (fst x) (fst y)) with (x1 := 0); auto; try lra. rewrite Rplus_0_r. auto.
Qed.
Lemma run_flags : forall T x l gs, run T x l gs -> unmarked (map nd_interp (flatten gs l)) (flatten gs l) = map pnode l.
Proof.
  intros T x l gs H. induction H as [|T T' x y l g gs A H IH]; [reflexivity|].
  destruct A as (_ & _ & F & _). simpl. induction F as [|n g (xx & _ & _ & E & _) F IHF].
  - simpl. rewrite IH. reflexivity.
  - simpl. rewrite E. auto.
Qed.
Definition on_path (n : node) : Prop :=
  is_unit (nd_vec n) /\ exists n' h', survey_interpolate_md s (nd_md n) = NodeOk n' h' /\ nd_pos n' = nd_pos n /\ nd_vec n' = nd_vec n.
Lemma inner_on_path : forall x y n, consec x y -> inner_node lv (snd x) (fst x) (fst y) 0 n -> on_path n.
Proof.
  intros [a p] [b q] n (k & A & B & P & Q) (x & Bx & AT & _). simpl in *. split; [eapply at_unit; eauto|].
  destruct AT as (M & PP & V).
  destruct (placed_lookup s sx sn k a b p (nd_md n) PL (rows_increasing s sx sn start step PL SU) A B P ltac:(lra)) as (m & E & _ & NP & NV & _).
  eexists m, _. split; [exact E|].
  replace (nd_md n - st_md a) with x in NP, NV by lra. split; [rewrite NP, PP|rewrite NV, V]; reflexivity.
Qed.
Lemma run_on_path : (forall x, In x (combine (sv_rows s) (sv_nev s)) -> on_path (pnode x)) ->
  forall T x l gs, run T x l gs -> Forall (fun n => on_path n /\ (nd_interp n = true -> lv (vz (nd_pos n)))) (flatten gs l).
Proof.
  intros ST T x l gs H. induction H as [|T T' x y l g gs A H IH]; [constructor|].
  destruct A as (C & _ & F & _). simpl. apply Forall_app. split.
  - eapply Forall_impl; [|exact F]. intros n IN. split; [eapply inner_on_path; eauto|]. intros _.
    destruct IN as (z & _ & (_ & E & _) & _ & LZ). rewrite E. exact LZ.
  - constructor; auto. split; [|simpl; discriminate]. apply ST.
    destruct C as (k & _ & B & _ & Q). destruct y as [b q]; cbn [fst snd] in *.
    assert (E : forall (A B : Type) (l : list A) (m : list B) i a b, nth_error l i = Some a -> nth_error m i = Some b -> In (a, b) (combine l m)).
    { clear. induction l as [|u l IH]; intros [|v m] [|i] a b X Y; simpl in *; try discriminate; [left; congruence|right; eauto]. }
    apply (E _ _ _ _ (S k)); auto.
Qed.

(** ** which levels get a station *)
Lemma level_diff : forall T L, lv T -> lv L -> exists k : Z, L = T + IZR k * step.
Proof. intros T L (i & ->) (j & ->). exists (j - i)%Z. rewrite minus_IZR. ring. Qed.
Lemma level_below : forall T L, lv T -> lv L -> L < T + step -> exists i : nat, L = T - INR i * step.
Proof.
  intros T L LT LL B. destruct (level_diff T L LT LL) as (k & E). exists (Z.to_nat (- k)).
  assert (K : (k < 1)%Z). { apply lt_IZR. simpl. nra. }
  rewrite INR_IZR_INZ, Z2Nat.id by lia. rewrite opp_IZR, E. ring.
Qed.
Lemma level_above : forall T L, lv T -> lv L -> T < L -> exists i : nat, L = T + INR (S i) * step.
Proof.
  intros T L LT LL B. destruct (level_diff T L LT LL) as (k & E). exists (Z.to_nat (k - 1)).
  assert (K : (0 < k)%Z). { apply lt_IZR. simpl. nra. }
  rewrite S_INR, INR_IZR_INZ, Z2Nat.id by lia. rewrite minus_IZR, E. ring.
Qed.
Fixpoint through (x : station * V3) (l : list (station * V3)) : Prop :=
  match l with
  | y :: ((w :: _) as r) => (lv (vz (snd y)) -> (vz (snd x) < vz (snd y) < vz (snd w)) \/ (vz (snd w) < vz (snd y) < vz (snd x))) /\ through y r
  | _ => True
  end.
Definition ready (T : R) (x : station * V3) (l : list (station * V3)) : Prop :=
  T < vz (snd x) < T + step \/
  (vz (snd x) = T /\ match l with y :: _ => vz (snd x) < vz (snd y) | [] => True end) \/
  (vz (snd x) = T + step /\ match l with y :: _ => vz (snd y) < vz (snd x) | [] => True end).
Definition crosses (z1 z2 L : R) : Prop := z1 < L <= z2 \/ z2 <= L < z1.
Definition covers (g : list node) (x y : station * V3) : Prop :=
  forall L, lv L -> crosses (vz (snd x)) (vz (snd y)) L -> exists n, In n (g ++ [pnode y]) /\ vz (nd_pos n) = L.
Fixpoint covered (x : station * V3) (l : list (station * V3)) (gs : list (list node)) : Prop :=
  match l, gs with
  | y :: l, g :: gs => covers g x y /\ covered y l gs
  | _, _ => True
  end.
Lemma run_covers : forall T x l gs, run T x l gs -> lv T -> through x l -> ready T x l -> covered x l gs.
Proof.
  intros T x l gs H. induction H as [|T T' x y l g gs A H IH]; intros LT TH RD; [exact I|].
  destruct A as (C & LT' & F & RI & CASES). cbv zeta in CASES. cbn [covered].
  assert (TH' : through y l). { destruct l; [exact I|]. apply TH. }
  assert (NX : lv (vz (snd y)) -> match l with w :: _ => vz (snd x) < vz (snd y) < vz (snd w) \/ vz (snd w) < vz (snd y) < vz (snd x) | [] => True end).
  { destruct l; [auto|]. apply TH. }
  destruct CASES as [(U1 & U2 & U3 & CV & _)|[(D1 & D2 & D3 & CV & _)|(N1 & N2 & -> & ->)]].
  - split.
    + intros L LL CR. assert (BL : vz (snd y) <= L < vz (snd x)) by (unfold crosses in CR; lra).
      assert (LB : L < T + step) by (destruct RD as [R|[[R _]|[R _]]]; lra).
      destruct (level_below T L LT LL LB) as (i & ->). apply CV; lra.
    + apply IH; auto. unfold ready. destruct (Req_dec (vz (snd y)) (T' + step)) as [E|E]; [|left; lra].
      right; right. split; auto. assert (LY : lv (vz (snd y))) by (rewrite E; apply level_next; auto).
      specialize (NX LY). destruct l; auto. lra.
  - split.
    + intros L LL CR. assert (BL : vz (snd x) < L <= vz (snd y)) by (unfold crosses in CR; lra).
      assert (LB : T < L) by (destruct RD as [R|[[R _]|[R _]]]; lra).
      destruct (level_above T L LT LL LB) as (i & ->). apply CV; lra.
    + apply IH; auto. unfold ready. destruct (Req_dec (vz (snd y)) T') as [E|E]; [|left; lra].
      right; left. split; auto. assert (LY : lv (vz (snd y))) by (rewrite E; auto).
      specialize (NX LY). destruct l; auto. lra.
  - assert (B : T < vz (snd y) < T + step).
    { destruct (Rle_dec (vz (snd y)) T), (Rle_dec (T + step) (vz (snd y))), (Rlt_dec T (vz (snd x))), (Rlt_dec (vz (snd x)) (T + step));
        destruct RD as [R|[[R R2]|[R R2]]]; try lra; exfalso; first [apply N1; split; lra | apply N2; split; lra]. }
    split; [|apply IH; auto; left; auto].
    intros L LL CR. exfalso. unfold crosses in CR. destruct (level_diff T L LT LL) as (k & E).
    assert (BL : T < L < T + step) by (destruct RD as [R|[[R _]|[R _]]]; lra).
    assert (K1 : (0 < k)%Z) by (apply lt_IZR; simpl; nra). assert (K2 : (k < 1)%Z) by (apply lt_IZR; simpl; nra). lia.
Qed.

(** ** wells on which little or nothing is added *)
Fixpoint monotone (le : R -> R -> Prop) (x : station * V3) (l : list (station * V3)) : Prop :=
  match l with [] => True | y :: r => le (vz (snd x)) (vz (snd y)) /\ monotone le y r end.
Lemma run_above : forall T x l gs, run T x l gs -> monotone Rle x l -> T + step <= vz (snd x) -> Forall (fun g => g = []) gs.
Proof.
  intros T x l gs H. induction H as [|T T' x y l g gs A H IH]; intros M B; [constructor|].
  destruct M as [M1 M2]. destruct A as (_ & _ & _ & _ & CASES). cbv zeta in CASES.
  destruct CASES as [(U1 & U2 & _)|[(D1 & D2 & _)|(N1 & N2 & -> & ->)]]; try (exfalso; lra).
  constructor; auto. apply IH; auto. lra.
Qed.
Lemma run_climbing : forall T x l gs, run T x l gs -> monotone Rge x l -> vz (snd x) <= T -> Forall (fun g => g = []) gs.
Proof.
  intros T x l gs H. induction H as [|T T' x y l g gs A H IH]; intros M B; [constructor|].
  destruct M as [M1 M2]. destruct A as (_ & _ & _ & _ & CASES). cbv zeta in CASES.
  destruct CASES as [(U1 & U2 & _)|[(D1 & D2 & _)|(N1 & N2 & -> & ->)]]; try (exfalso; lra).
  constructor; auto. apply IH; auto. lra.
Qed.
Lemma run_beyond : forall T0 T x l gs, run T x l gs -> T0 <= T -> monotone Rle x l ->
  Forall (Forall (fun n => T0 + step <= vz (nd_pos n))) gs.
Proof.
  intros T0 T x l gs H. induction H as [|T T' x y l g gs A H IH]; intros B M; [constructor|].
  destruct M as [M1 M2]. destruct A as (_ & _ & _ & _ & CASES). cbv zeta in CASES.
  destruct CASES as [(U1 & U2 & _)|[(D1 & D2 & D3 & _ & DB)|(N1 & N2 & -> & ->)]]; try (exfalso; lra).
  - constructor; [|apply IH; auto; lra]. eapply Forall_impl; [|exact DB]. cbv beta. intros; lra.
  - constructor; auto.
Qed.
End Facts.
