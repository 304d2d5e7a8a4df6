(** The loop of one leg. *)
Require Import Reals ZArith Bool String List Lra Lia Psatz.
Require Import Verif.Base Verif.NumPy Verif.P_Trig Verif.Spec Verif.Spec_Lists Verif.M_Utils
  Verif.P_Utils Verif.P_Utils2 Verif.P_Utils3 Verif.M_Connector
  Verif.M_Survey Verif.P_Survey Verif.P_Survey2
  Verif.P_Survey3 Verif.P_Survey4 Verif.P_Tvd Verif.M_Levels Verif.P_Levels Verif.P_Levels2 Verif.P_Levels3.
Import ListNotations.
Open Scope R_scope.

Lemma sinusoid_continuous : forall c0 c1 c2 k, continuity (fun x => c0 + c1 * sin (x * k) + c2 * (1 - cos (x * k))).
Proof. intros. reg. Qed.
Lemma leg_z_form : forall p a b, pair_dogleg a b < PI -> 0 < st_md b - st_md a ->
  exists f, continuity f /\ forall x, 0 <= x <= st_md b - st_md a -> leg_z p a b x = f x.
Proof.
  intros p a b Ht Hm. destruct (pair_dogleg_range a b) as [[T0 _] _].
  destruct (Req_dec (pair_dogleg a b) 0) as [Z|NZ].
  - exists (fun x => vz p + x * vz (dir a)). split; [reg|].
    intros x _. unfold leg_z. rewrite leg_pos_straight by auto. destruct p, (dir a). reflexivity.
  - set (n := bend_normal (dir a) (dir b) (pair_dogleg a b)). set (r := (st_md b - st_md a) / pair_dogleg a b).
    exists (fun x => vz p + (r * vz (dir a)) * sin (x * (pair_dogleg a b / (st_md b - st_md a)))
             + (r * vz n) * (1 - cos (x * (pair_dogleg a b / (st_md b - st_md a))))).
    split; [apply sinusoid_continuous|].
    intros x Bx. unfold leg_z. rewrite leg_pos_arc by (auto; lra). fold n r. unfold arc_point.
    destruct p, (dir a), n. unf. ring.
Qed.
Lemma ivt_down : forall f x y T, continuity f -> x <= y -> T <= f x -> f y <= T -> exists z, x <= z <= y /\ f z = T.
Proof.
  intros f x y T C L A B.
  destruct (Req_dec (f x) T) as [E|E]; [exists x; split; [lra|auto]|].
  destruct (Req_dec (f y) T) as [E2|E2]; [exists y; split; [lra|auto]|].
  destruct (IVT (fun v => T - f v) x y) as (z & Bz & Ez); try lra.
  - apply continuity_minus; auto. apply continuity_const. intros u v. reflexivity.
  - destruct (Req_dec x y) as [Q|Q]; [rewrite Q in *; lra|lra].
  - exists z. split; [auto|lra].
Qed.
Lemma leg_ivt : forall p a b T x y, pair_dogleg a b < PI -> 0 < st_md b - st_md a ->
  0 <= x -> x <= y <= st_md b - st_md a ->
  (T <= leg_z p a b x /\ leg_z p a b y <= T) \/ (leg_z p a b x <= T /\ T <= leg_z p a b y) ->
  exists z, x <= z <= y /\ leg_z p a b z = T.
Proof.
  intros p a b T x y Ht Hm X Y H. destruct (leg_z_form p a b Ht Hm) as (f & C & F).
  rewrite !F in H by lra.
  destruct H as [[A B]|[A B]].
  - destruct (ivt_down f x y T C ltac:(lra) A B) as (z & Bz & Ez). exists z. split; auto. rewrite F; auto; lra.
  - destruct (ivt_down (fun v => - f v) x y (- T)) as (z & Bz & Ez); try lra.
    { apply continuity_opp; auto. }
    exists z. split; auto. rewrite F; lra.
Qed.

(** ** one leg *)
Definition apart (x m : R) : Prop := 1 / 10000 + 1 / 100000 * Rabs m < m - x.
Definition tame (lv : R -> Prop) (p : V3) (a b : station) : Prop :=
  pair_dogleg a b < PI /\ apart (st_md a) (st_md b) /\ drawn (dir a) (dir b) (st_md a) (st_md b) /\
  (forall z, lv z -> 0 < pair_dogleg a b -> z <> half_turn_z p a b) /\
  (forall x, 0 < x < st_md b - st_md a -> lv (leg_z p a b x) ->
     apart (st_md a + x) (st_md b) /\ drawn (leg_dir a b x) (dir b) (st_md a + x) (st_md b)).
Definition at_leg (p : V3) (a b : station) (x : R) (n : node) : Prop :=
  nd_md n = st_md a + x /\ nd_pos n = leg_pos p a b x /\ nd_vec n = leg_dir a b x.
Definition inner_node (lv : R -> Prop) (p : V3) (a b : station) (x1 : R) (n : node) : Prop :=
  exists x, x1 < x < st_md b - st_md a /\ at_leg p a b x n /\ nd_interp n = true /\ lv (leg_z p a b x).
Fixpoint rising (x : R) (l : list node) (last : R) : Prop :=
  match l with [] => x < last | n :: r => x < nd_md n /\ rising (nd_md n) r last end.

Lemma apart_close : forall x m, apart x m -> close_depths x m = false /\ 1 / 10000 < m - x.
Proof.
  intros x m A. unfold apart in A. pose proof (Rabs_pos m).
  split; [|lra]. unfold close_depths. destruct (Rle_dec _ _) as [L|]; auto.
  rewrite Rabs_left in L by lra. lra.
Qed.
Lemma close_self : forall m, close_depths m m = true.
Proof.
  intro m. unfold close_depths. destruct (Rle_dec _ _) as [|N]; auto. exfalso. apply N.
  unfold Rminus. rewrite Rplus_opp_r, Rabs_R0. pose proof (Rabs_pos m). lra.
Qed.
Lemma node_eq : forall n m, nd_md n = nd_md m -> nd_pos n = nd_pos m -> nd_vec n = nd_vec m -> nd_interp n = nd_interp m -> n = m.
Proof. intros [] []; simpl; intros; subst; reflexivity. Qed.

Section Leg.
Variables (lv : R -> Prop) (step : R) (p : V3) (a b : station) (origin target : node).
Hypothesis S0 : 0 < step.
Hypothesis LV : forall z, lv z -> lv (z + step) /\ lv (z - step).
Hypothesis TM : tame lv p a b.
Hypothesis OR : at_leg p a b 0 origin.
Hypothesis TG : at_leg p a b (st_md b - st_md a) target.
Hypothesis TI : nd_interp target = false.
Let dl := st_md b - st_md a.
Let z2 := leg_z p a b dl.

Lemma leg_len : 0 < dl /\ 1 / 10000 < dl.
Proof. destruct TM as (_ & A & _). apply apart_close in A. unfold dl. lra. Qed.
Lemma leg_facts : forall x1 n, 0 <= x1 < dl -> (x1 = 0 \/ lv (leg_z p a b x1)) -> at_leg p a b x1 n ->
  close_depths (nd_md n) (nd_md target) = false /\ vz (nd_pos n) = leg_z p a b x1 /\ vz (nd_pos target) = z2 /\
  forall T, lv T -> (exists x0, x1 <= x0 <= dl /\ leg_z p a b x0 = T) -> (forall x, 0 <= x <= x1 -> leg_z p a b x <> T) ->
    exists m x, get_node_tvd n target T origin = Some m /\ x1 < x <= dl /\ at_leg p a b x (marked true m) /\
      leg_z p a b x = T /\ forall y, 0 <= y < x -> leg_z p a b y <> T.
Proof.
  intros x1 n B XL (N1 & N2 & N3). pose proof leg_len as [L _].
  destruct TM as (Ht & A & D & HT & G). destruct OR as (O1 & O2 & O3), TG as (G1 & G2 & G3).
  assert (AD : apart (st_md a + x1) (st_md b) /\ drawn (leg_dir a b x1) (dir b) (st_md a + x1) (st_md b)).
  { destruct (Req_dec x1 0) as [->|NE].
    - rewrite Rplus_0_r, leg_dir_0; auto.
    - destruct XL as [|XL]; [contradiction|]. apply G; auto. fold dl. lra. }
  destruct AD as [A1 D1]. destruct (apart_close _ _ A1) as [C1 C2].
  assert (TM2 : nd_md target = st_md b) by (rewrite G1; ring).
  split; [rewrite N1, TM2; auto|]. split; [rewrite N2; reflexivity|]. split; [rewrite G2; reflexivity|].
  intros T LT X NX.
  destruct (node_tvd_found p a b x1 T origin n target) as (m & x & E & Bx & F1 & F2 & F3 & F4 & F5); auto; try lra.
  - rewrite O2. apply leg_pos_0; auto.
  - rewrite O3. apply leg_dir_0; auto.
  - rewrite G3. apply leg_dir_end; auto.
  - exists m, x. split; auto. split; auto. split; [repeat split; auto|]. split; auto.
Qed.

Definition outcome (x1 : R) (node1 : node) (done : list node) (T : R) (inner : list node) (T' : R) (r : leg_result) : Prop :=
  r = LegDone (target :: rev inner ++ node1 :: done) T' /\
  Forall (inner_node lv p a b x1) inner /\ rising (st_md a + x1) inner (st_md b).

Lemma marked_target : forall m, at_leg p a b dl (marked true m) -> marked false (marked true m) = target.
Proof.
  intros m (A1 & A2 & A3). destruct TG as (G1 & G2 & G3). apply node_eq; cbn in *.
  rewrite A1, G1; auto. rewrite A2, G2; auto. rewrite A3, G3; auto. auto.
Qed.
(** after a level strictly inside the leg beyond which there is no other *)
Lemma leg_finish : forall f x n done T, 0 <= x < dl -> lv (leg_z p a b x) -> at_leg p a b x n ->
  ~ (T < leg_z p a b x /\ z2 <= T) -> ~ (leg_z p a b x < T + step /\ T + step <= z2) ->
  level_leg (S f) step origin target n done T = LegDone (target :: n :: done) T.
Proof.
  intros f x n done T B L A U D. destruct (leg_facts x n B (or_intror L) A) as (C & Z1 & Z2 & _).
  cbn [level_leg]. rewrite C, Z1, Z2.
  destruct (Rlt_dec T (leg_z p a b x)).
  - destruct (Rle_dec z2 T); [exfalso; apply U; auto|].
    destruct (Rlt_dec (leg_z p a b x) (T + step)); [destruct (Rle_dec (T + step) z2); [exfalso; apply D; auto|]|]; reflexivity.
  - destruct (Rlt_dec (leg_z p a b x) (T + step)); [destruct (Rle_dec (T + step) z2); [exfalso; apply D; auto|]|]; reflexivity.
Qed.
Lemma leg_hit_end : forall f m done T, at_leg p a b dl (marked true m) ->
  level_leg (S f) step origin target (marked true m) done T = LegDone (target :: done) T.
Proof.
  intros f m done T A. cbn [level_leg].
  assert (E : nd_md (marked true m) = nd_md target) by (rewrite (proj1 A), (proj1 TG); reflexivity).
  rewrite E, close_self. rewrite marked_target; auto.
Qed.

Lemma leg_up : forall k T x1 node1 done, T - z2 < INR k * step -> lv T -> 0 <= x1 < dl ->
  (x1 = 0 \/ lv (leg_z p a b x1)) -> at_leg p a b x1 node1 ->
  (forall y, 0 <= y <= x1 -> T < leg_z p a b y) -> z2 <= T ->
  exists N inner T' j, (forall fuel, (N <= fuel)%nat -> outcome x1 node1 done T inner T' (level_leg fuel step origin target node1 done T)) /\
    T' = T - INR (S j) * step /\ T' < z2 <= T' + step /\
    (forall i, (i <= j)%nat -> exists n, In n (inner ++ [target]) /\ vz (nd_pos n) = T - INR i * step) /\
    Forall (fun n => vz (nd_pos n) <= T) inner.
Proof.
  induction k as [|k IH]; intros T x1 node1 done BK LT B XL A1 UP ZT; [simpl in BK; lra|].
  destruct (leg_facts x1 node1 B XL A1) as (C & Z1 & Z2 & FD). pose proof leg_len as [L0 _].
  assert (Ht : pair_dogleg a b < PI) by apply TM.
  destruct (FD T LT) as (m & x & GE & Bx & AM & ZX & FX).
  { apply leg_ivt; auto; try (fold dl; lra). left. split; [apply Rlt_le, UP; lra|exact ZT]. }
  { intros y By E. specialize (UP y By). lra. }
  assert (UPX : forall y, 0 <= y < x -> T < leg_z p a b y).
  { intros y By. destruct (Rle_dec y x1) as [|NY]; [apply UP; lra|].
    destruct (Rlt_dec T (leg_z p a b y)); auto. exfalso.
    destruct (leg_ivt p a b T x1 y Ht L0 ltac:(lra) ltac:(fold dl; lra)) as (w & Bw & Ew).
    { left. split; [apply Rlt_le, UP; lra|lra]. }
    apply (FX w); auto; lra. }
  assert (STEP : forall f, level_leg (S f) step origin target node1 done T =
     level_leg f step origin target (marked true m) (node1 :: done) (T - step)).
  { intro f. cbn [level_leg]. rewrite C, Z1, Z2. destruct (Rlt_dec T (leg_z p a b x1)) as [_|N]; [|exfalso; apply N, UP; lra].
    destruct (Rle_dec z2 T); [|contradiction]. rewrite GE. reflexivity. }
  destruct (Req_dec x dl) as [->|NX].
  - exists 2%nat, [], (T - step), 0%nat. split; [|split; [simpl; ring|split; [|split]]].
    + intros fuel F. destruct fuel as [|[|f]]; try lia. rewrite STEP, leg_hit_end by auto.
      split; [reflexivity|]. split; [constructor|]. simpl. fold dl in L0. unfold dl in *. lra.
    + unfold z2. rewrite ZX. lra.
    + intros [|i] F; [|lia]. exists target. split; [simpl; auto|]. rewrite Z2. unfold z2. rewrite ZX. simpl. ring.
    + constructor.
  - assert (BX : 0 <= x < dl) by lra.
    assert (LX : lv (leg_z p a b x)) by (rewrite ZX; auto).
    assert (IN : inner_node lv p a b x1 (marked true m)).
    { exists x. split; [fold dl; lra|]. auto. }
    assert (MDX : nd_md (marked true m) = st_md a + x) by apply AM.
    destruct (Rle_dec z2 (T - step)) as [GO|STOP].
    + destruct (IH (T - step) x (marked true m) (node1 :: done)) as (N & inner & T' & j & OUT & ET & BT & CV & DB); auto.
      { rewrite S_INR in BK. lra. } { apply LV; auto. }
      { intros y By. destruct (Req_dec y x) as [->|]; [rewrite ZX; lra|]. assert (T < leg_z p a b y) by (apply UPX; lra). lra. }
      exists (S N), (marked true m :: inner), T', (S j). split; [|split; [|split; [|split]]].
      * intros fuel F. destruct fuel as [|f]; [lia|]. rewrite STEP.
        destruct (OUT f ltac:(lia)) as (O1 & O2 & O3). rewrite O1. split; [|split].
        -- cbn [rev]. rewrite <- !app_assoc. reflexivity.
        -- constructor; auto. eapply Forall_impl; [|exact O2]. intros n (y & By & Y). exists y. split; [lra|auto].
        -- cbn [rising]. rewrite MDX. split; [lra|auto].
      * rewrite ET, !S_INR. ring.
      * auto.
      * intros [|i] F.
        -- exists (marked true m). split; [left; auto|]. rewrite (proj1 (proj2 AM)). unfold leg_z in ZX. rewrite ZX. simpl. ring.
        -- destruct (CV i ltac:(lia)) as (n & In1 & Zn). exists n. split; [right; auto|]. rewrite Zn, S_INR. ring.
      * constructor; [rewrite (proj1 (proj2 AM)); unfold leg_z in ZX; rewrite ZX; lra|]. eapply Forall_impl; [|exact DB]. cbv beta. intros; lra.
    + exists 2%nat, [marked true m], (T - step), 0%nat. split; [|split; [simpl; ring|split; [|split]]].
      * intros fuel F. destruct fuel as [|[|f]]; try lia. rewrite STEP.
        rewrite (leg_finish f x); auto; [|rewrite ZX; lra|rewrite ZX; lra].
        split; [reflexivity|]. split; [repeat constructor; auto|]. cbn [rising]. rewrite MDX. split; [lra|unfold dl in *; lra].
      * lra.
      * intros [|i] F; [|lia]. exists (marked true m). split; [left; auto|]. rewrite (proj1 (proj2 AM)). unfold leg_z in ZX. rewrite ZX. simpl. ring.
      * constructor; [rewrite (proj1 (proj2 AM)); unfold leg_z in ZX; rewrite ZX; lra|constructor].
Qed.

Lemma leg_down : forall k T x1 node1 done, z2 - (T + step) < INR k * step -> lv T -> 0 <= x1 < dl ->
  (x1 = 0 \/ lv (leg_z p a b x1)) -> at_leg p a b x1 node1 ->
  (forall y, 0 <= y <= x1 -> leg_z p a b y < T + step) -> T + step <= z2 ->
  exists N inner T' j, (forall fuel, (N <= fuel)%nat -> outcome x1 node1 done T inner T' (level_leg fuel step origin target node1 done T)) /\
    T' = T + INR (S j) * step /\ T' <= z2 < T' + step /\
    (forall i, (i <= j)%nat -> exists n, In n (inner ++ [target]) /\ vz (nd_pos n) = T + INR (S i) * step) /\
    Forall (fun n => T + step <= vz (nd_pos n)) inner.
Proof.
  induction k as [|k IH]; intros T x1 node1 done BK LT B XL A1 DN ZT; [simpl in BK; lra|].
  destruct (leg_facts x1 node1 B XL A1) as (C & Z1 & Z2 & FD). pose proof leg_len as [L0 _].
  assert (Ht : pair_dogleg a b < PI) by apply TM.
  destruct (LV T LT) as [LT1 _].
  destruct (FD (T + step) LT1) as (m & x & GE & Bx & AM & ZX & FX).
  { apply leg_ivt; auto; try (fold dl; lra). right. split; [apply Rlt_le, DN; lra|exact ZT]. }
  { intros y By E. specialize (DN y By). lra. }
  assert (DNX : forall y, 0 <= y < x -> leg_z p a b y < T + step).
  { intros y By. destruct (Rle_dec y x1) as [|NY]; [apply DN; lra|].
    destruct (Rlt_dec (leg_z p a b y) (T + step)); auto. exfalso.
    destruct (leg_ivt p a b (T + step) x1 y Ht L0 ltac:(lra) ltac:(fold dl; lra)) as (w & Bw & Ew).
    { right. split; [apply Rlt_le, DN; lra|lra]. }
    apply (FX w); auto; lra. }
  assert (STEP : forall f, level_leg (S f) step origin target node1 done T =
     level_leg f step origin target (marked true m) (node1 :: done) (T + step)).
  { intro f. cbn [level_leg]. rewrite C, Z1, Z2.
    destruct (Rle_dec z2 T); [lra|].
    replace (if Rlt_dec T (leg_z p a b x1) then false else false) with false by (destruct (Rlt_dec _ _); auto).
    destruct (Rlt_dec (leg_z p a b x1) (T + step)) as [_|N]; [|exfalso; apply N, DN; lra].
    destruct (Rle_dec (T + step) z2); [|contradiction]. rewrite GE. reflexivity. }
  destruct (Req_dec x dl) as [->|NX].
  - exists 2%nat, [], (T + step), 0%nat. split; [|split; [simpl; ring|split; [|split]]].
    + intros fuel F. destruct fuel as [|[|f]]; try lia. rewrite STEP, leg_hit_end by auto.
      split; [reflexivity|]. split; [constructor|]. simpl. unfold dl in *. lra.
    + unfold z2. rewrite ZX. lra.
    + intros [|i] F; [|lia]. exists target. split; [simpl; auto|]. rewrite Z2. unfold z2. rewrite ZX. simpl. ring.
    + constructor.
  - assert (BX : 0 <= x < dl) by lra.
    assert (LX : lv (leg_z p a b x)) by (rewrite ZX; auto).
    assert (IN : inner_node lv p a b x1 (marked true m)).
    { exists x. split; [fold dl; lra|]. auto. }
    assert (MDX : nd_md (marked true m) = st_md a + x) by apply AM.
    destruct (Rle_dec (T + step + step) z2) as [GO|STOP].
    + destruct (IH (T + step) x (marked true m) (node1 :: done)) as (N & inner & T' & j & OUT & ET & BT & CV & DB); auto.
      { rewrite S_INR in BK. lra. }
      { intros y By. destruct (Req_dec y x) as [->|]; [rewrite ZX; lra|]. assert (leg_z p a b y < T + step) by (apply DNX; lra). lra. }
      exists (S N), (marked true m :: inner), T', (S j). split; [|split; [|split; [|split]]].
      * intros fuel F. destruct fuel as [|f]; [lia|]. rewrite STEP.
        destruct (OUT f ltac:(lia)) as (O1 & O2 & O3). rewrite O1. split; [|split].
        -- cbn [rev]. rewrite <- !app_assoc. reflexivity.
        -- constructor; auto. eapply Forall_impl; [|exact O2]. intros n (y & By & Y). exists y. split; [lra|auto].
        -- cbn [rising]. rewrite MDX. split; [lra|auto].
      * rewrite ET, !S_INR. ring.
      * auto.
      * intros [|i] F.
        -- exists (marked true m). split; [left; auto|]. rewrite (proj1 (proj2 AM)). unfold leg_z in ZX. rewrite ZX. simpl. ring.
        -- destruct (CV i ltac:(lia)) as (n & In1 & Zn). exists n. split; [right; auto|]. rewrite Zn, !S_INR. ring.
      * constructor; [rewrite (proj1 (proj2 AM)); unfold leg_z in ZX; rewrite ZX; lra|]. eapply Forall_impl; [|exact DB]. cbv beta. intros; lra.
    + exists 2%nat, [marked true m], (T + step), 0%nat. split; [|split; [simpl; ring|split; [|split]]].
      * intros fuel F. destruct fuel as [|[|f]]; try lia. rewrite STEP.
        rewrite (leg_finish f x); auto; [|rewrite ZX; lra|rewrite ZX; lra].
        split; [reflexivity|]. split; [repeat constructor; auto|]. cbn [rising]. rewrite MDX. split; [lra|unfold dl in *; lra].
      * lra.
      * intros [|i] F; [|lia]. exists (marked true m). split; [left; auto|]. rewrite (proj1 (proj2 AM)). unfold leg_z in ZX. rewrite ZX. simpl. ring.
      * constructor; [rewrite (proj1 (proj2 AM)); unfold leg_z in ZX; rewrite ZX; lra|constructor].
Qed.
End Leg.

Lemma INR_unbounded : forall x, exists k : nat, x < INR k.
Proof.
  intro x. exists (Z.to_nat (up (Rabs x))). destruct (archimed (Rabs x)) as [A _]. pose proof (Rle_abs x). pose proof (Rabs_pos x).
  rewrite INR_IZR_INZ, Z2Nat.id; [lra|]. apply le_IZR. simpl. lra.
Qed.
Lemma classic_up : forall T z1 z2, (T < z1 /\ z2 <= T) \/ ~ (T < z1 /\ z2 <= T).
Proof. intros. destruct (Rlt_dec T z1), (Rle_dec z2 T); tauto. Qed.
Lemma classic_down : forall T z1 z2, (z1 < T /\ T <= z2) \/ ~ (z1 < T /\ T <= z2).
Proof. intros. destruct (Rlt_dec z1 T), (Rle_dec T z2); tauto. Qed.
(** one whole leg, from its first station *)
Lemma leg_whole : forall (lv : R -> Prop) step p a b origin target done T, 0 < step ->
  (forall z, lv z -> lv (z + step) /\ lv (z - step)) -> tame lv p a b ->
  at_leg p a b 0 origin -> at_leg p a b (st_md b - st_md a) target -> nd_interp target = false -> lv T ->
  exists N inner T', lv T' /\
    (forall fuel, (N <= fuel)%nat -> level_leg fuel step origin target origin done T = LegDone (target :: rev inner ++ origin :: done) T') /\
    Forall (inner_node lv p a b 0) inner /\ rising (st_md a) inner (st_md b) /\
    let z1 := vz p in let z2 := vz (nd_pos target) in
    ((T < z1 /\ z2 <= T /\ T' < z2 <= T' + step /\
      (forall i : nat, z2 <= T - INR i * step -> exists n, In n (inner ++ [target]) /\ vz (nd_pos n) = T - INR i * step) /\
      Forall (fun n => vz (nd_pos n) <= T) inner) \/
     (z1 < T + step /\ T + step <= z2 /\ T' <= z2 < T' + step /\
      (forall i : nat, T + INR (S i) * step <= z2 -> exists n, In n (inner ++ [target]) /\ vz (nd_pos n) = T + INR (S i) * step) /\
      Forall (fun n => T + step <= vz (nd_pos n)) inner) \/
     (~ (T < z1 /\ z2 <= T) /\ ~ (z1 < T + step /\ T + step <= z2) /\ inner = [] /\ T' = T)).
Proof.
  intros lv step p a b origin target done T S0 LV TM OR TG TI LT.
  destruct (leg_len lv p a b TM) as [L0 _].
  destruct (leg_facts lv p a b origin target TM OR TG 0 origin ltac:(lra) (or_introl eq_refl) OR) as (C & Z1 & Z2 & _).
  assert (Ht : pair_dogleg a b < PI) by apply TM.
  assert (ZP : leg_z p a b 0 = vz p) by (unfold leg_z; rewrite leg_pos_0; auto).
  assert (LVN : forall (j : nat) z, lv z -> lv (z - INR j * step) /\ lv (z + INR j * step)).
  { induction j as [|j IH]; intros z Lz.
    - simpl. replace (z - 0 * step) with z by ring. replace (z + 0 * step) with z by ring. auto.
    - destruct (IH z Lz) as [I1 I2]. rewrite S_INR.
      replace (z - (INR j + 1) * step) with (z - INR j * step - step) by ring.
      replace (z + (INR j + 1) * step) with (z + INR j * step + step) by ring. split; apply LV; auto. }
  assert (Y0 : forall y, 0 <= y <= 0 -> y = 0) by (intros; lra).
  cbv zeta. rewrite Z2.
  destruct (classic_up T (vz p) (leg_z p a b (st_md b - st_md a))) as [[U1 U2]|NU].
  - destruct (INR_unbounded ((T - leg_z p a b (st_md b - st_md a)) / step)) as [k K].
    assert (BK : T - leg_z p a b (st_md b - st_md a) < INR k * step).
    { apply Rmult_lt_compat_r with (r := step) in K; auto. unfold Rdiv in K. rewrite Rmult_assoc, Rinv_l, Rmult_1_r in K by lra. lra. }
    destruct (leg_up lv step p a b origin target S0 LV TM OR TG TI k T 0 origin done BK LT ltac:(lra) (or_introl eq_refl) OR) as
      (N & inner & T' & j & OUT & ET & BT & CV & DB); auto.
    { intros y By. rewrite (Y0 y By), ZP. auto. }
    exists N, inner, T'. destruct (OUT N (le_n N)) as (_ & F1 & F2). rewrite Rplus_0_r in F2.
    split; [rewrite ET; apply LVN; auto|]. split; [intros fuel F; apply OUT; auto|]. split; [auto|]. split; [auto|].
    left. split; [auto|]. split; [auto|]. split; [auto|]. split; [|auto]. intros i Bi. apply CV.
    destruct (le_lt_dec i j) as [|G]; auto. exfalso.
    assert (INR (S j) <= INR i) by (apply le_INR; lia). nra.
  - destruct (classic_down (T + step) (vz p) (leg_z p a b (st_md b - st_md a))) as [[D1 D2]|ND].
    + destruct (INR_unbounded ((leg_z p a b (st_md b - st_md a) - (T + step)) / step)) as [k K].
      assert (BK : leg_z p a b (st_md b - st_md a) - (T + step) < INR k * step).
      { apply Rmult_lt_compat_r with (r := step) in K; auto. unfold Rdiv in K. rewrite Rmult_assoc, Rinv_l, Rmult_1_r in K by lra. lra. }
      destruct (leg_down lv step p a b origin target S0 LV TM OR TG TI k T 0 origin done BK LT ltac:(lra) (or_introl eq_refl) OR) as
        (N & inner & T' & j & OUT & ET & BT & CV & DB); auto.
      { intros y By. rewrite (Y0 y By), ZP. auto. }
      exists N, inner, T'. destruct (OUT N (le_n N)) as (_ & F1 & F2). rewrite Rplus_0_r in F2.
      split; [rewrite ET; apply LVN; auto|]. split; [intros fuel F; apply OUT; auto|]. split; [auto|]. split; [auto|].
      right; left. split; [auto|]. split; [auto|]. split; [auto|]. split; [|auto]. intros i Bi. apply CV.
      destruct (le_lt_dec i j) as [|G]; auto. exfalso.
      assert (INR (S (S j)) <= INR (S i)) by (apply le_INR; lia). rewrite (S_INR (S j)) in H. nra.
    + exists 1%nat, [], T. split; [auto|]. split; [|split; [constructor|split; [simpl; lra|right; right; auto]]].
      intros fuel F. destruct fuel as [|f]; [lia|]. cbn [level_leg]. rewrite C, Z1, Z2, ZP.
      destruct (Rlt_dec T (vz p)); [destruct (Rle_dec _ T); [exfalso; apply NU; auto|]|];
        (destruct (Rlt_dec (vz p) (T + step)); [destruct (Rle_dec (T + step) _); [exfalso; apply ND; auto|]|]; reflexivity).
Qed.
