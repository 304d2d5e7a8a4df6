(** Tortuosity indices. *)
Require Import Reals ZArith Bool String List Lra Lia Psatz.
Require Import Verif.Base Verif.NumPy Verif.Spec Verif.Spec_Lists Verif.Spec_Rates Verif.M_Utils Verif.M_Survey Verif.M_Connector Verif.M_Rates Verif.M_Sections Verif.Spec_Sections.
Require Import Verif.P_Trig Verif.P_Utils Verif.P_Utils2 Verif.P_Survey Verif.P_Survey2 Verif.P_Survey3 Verif.P_Survey5 Verif.P_Rates Verif.P_Rates2 Verif.P_Splice3 Verif.P_Sections.
Import ListNotations.
Open Scope R_scope.

(** ** the section of a station *)
Lemma ascending_tail : forall a l, ascending (a :: l) -> ascending l.
Proof. intros a [|b l] H; simpl in *; tauto. Qed.
Lemma ascending_up : forall l a, ascending (a :: l) -> forall m, In m l -> (a < m)%nat.
Proof. induction l as [|b l IH]; intros a A m M; [destruct M|]. destruct A as [A1 A2]. destruct M as [<-|M]; auto. pose proof (IH b A2 m M). lia. Qed.
Lemma filter_none : forall (A : Type) (p : A -> bool) l, (forall x, In x l -> p x = false) -> filter p l = [].
Proof. induction l as [|a l IH]; intro H; auto. simpl. rewrite H by (left; auto). apply IH. intros; apply H; right; auto. Qed.
Lemma filter_all : forall (A : Type) (p : A -> bool) l, (forall x, In x l -> p x = true) -> filter p l = l.
Proof. induction l as [|a l IH]; intro H; auto. simpl. rewrite H by (left; auto). f_equal. apply IH. intros; apply H; right; auto. Qed.
Lemma number_before_cons : forall a l k, ascending (a :: l) ->
  number_before (a :: l) k = if Nat.ltb a k then S (number_before l k) else 0%nat.
Proof.
  intros a l k A. unfold number_before. simpl. destruct (Nat.ltb a k) eqn:E; auto.
  rewrite filter_none; auto. intros x X. apply Nat.ltb_ge. apply Nat.ltb_ge in E. pose proof (ascending_up _ _ A x X). lia.
Qed.
Lemma last_before_nth : forall l a k, ascending (a :: l) -> (a < k)%nat ->
  exists n i, number_before (a :: l) k = S n /\ nth_error (a :: l) n = Some i /\ last_before (a :: l) k i.
Proof.
  induction l as [|b l IH]; intros a k A K.
  - exists 0%nat, a. rewrite number_before_cons by auto. apply Nat.ltb_lt in K. rewrite K. split; auto. split; auto.
    split; [left; auto|]. apply Nat.ltb_lt in K. split; auto. intros j [<-|[]] _. lia.
  - rewrite number_before_cons by auto. pose proof K as K'. apply Nat.ltb_lt in K'. rewrite K'.
    destruct (Nat.lt_ge_cases b k) as [BK|BK].
    + destruct (IH b k (ascending_tail _ _ A) BK) as (n & i & N & I & (L1 & L2 & L3)).
      exists (S n), i. split; [congruence|]. split; [exact I|]. split; [right; auto|]. split; auto.
      intros j [<-|J] JK; [|auto]. destruct A as [A _]. specialize (L3 b (or_introl eq_refl) BK). lia.
    + exists 0%nat, a. split. { rewrite number_before_cons by (eapply ascending_tail; eauto). apply Nat.ltb_ge in BK. rewrite BK. auto. }
      split; auto. split; [left; auto|]. split; auto. intros j [<-|J] JK; [lia|].
      destruct J as [<-|J]; [lia|]. pose proof (ascending_up _ _ (ascending_tail _ _ A) j J). lia.
Qed.
Lemma last_before_unique : forall l k i j, last_before l k i -> last_before l k j -> i = j.
Proof. intros l k i j (I1 & I2 & I3) (J1 & J2 & J3). pose proof (I3 j J1 J2). pose proof (J3 i I1 I2). lia. Qed.
Lemma summed_unique : forall l b k v w, summed l b k v -> summed l b k w -> v = w.
Proof.
  intros l b k v w H. revert w. induction H as [|i k v L H IH]; intros w W.
  - inversion W as [|i k v L H]; subst; auto. destruct L as (_ & L & _). lia.
  - inversion W as [|i' k' v' L' H']; subst. { destruct L as (_ & L & _). lia. }
    rewrite (last_before_unique _ _ _ _ L' L) in *. f_equal. auto.
Qed.
Lemma summed_total : forall l b k, ascending (0%nat :: l) -> exists v, summed (0%nat :: l) b k v.
Proof.
  intros l b k A. induction k as [k IH] using (well_founded_induction lt_wf).
  destruct k as [|k]; [exists 0; constructor|].
  destruct (last_before_nth l 0 (S k) A ltac:(lia)) as (n & i & _ & _ & L). pose proof L as (_ & L' & _).
  destruct (IH i L') as [v V]. eexists. econstructor; eauto.
Qed.

(** ** searchsorted *)
Lemma ss_number : forall (f : nat -> R) l k, (forall i j, (i < j <= Nat.max k (list_max l))%nat -> f i < f j) -> ascending l ->
  searchsorted_left (map f l) (f k) = number_before l k.
Proof.
  induction l as [|a l IH]; intros k M A; auto. cbn [map searchsorted_left].
  rewrite number_before_cons by auto.
  assert (M' : forall i j, (i < j <= Nat.max k (list_max l))%nat -> f i < f j) by (intros i j H; apply M; simpl; lia).
  destruct (Nat.ltb a k) eqn:E.
  - apply Nat.ltb_lt in E. destruct (Rlt_dec (f a) (f k)) as [|N]; [f_equal; apply IH; auto; eapply ascending_tail; eauto|].
    exfalso. apply N. apply M. simpl. lia.
  - apply Nat.ltb_ge in E. destruct (Rlt_dec (f a) (f k)) as [L|]; auto. exfalso.
    destruct (Nat.eq_dec a k) as [->|]; [lra|]. assert (f k < f a) by (apply M; simpl; lia). lra.
Qed.

(** ** the accumulated list *)
Lemma filter_seq : forall (p : nat -> bool) e s d, (s + d <= e)%nat -> (forall k, (1 <= k <= e)%nat -> p k = true <-> (s < k <= s + d)%nat) ->
  filter p (seq 1 e) = seq (S s) d.
Proof.
  intros p e s d L P. replace e with (s + (d + (e - s - d)))%nat by lia. rewrite !seq_app, !filter_app.
  rewrite filter_none, filter_all, filter_none; [simpl; apply app_nil_r| | |].
  - intros x X. apply in_seq in X. destruct (p x) eqn:E; auto. apply P in E; lia.
  - intros x X. apply in_seq in X. apply P; lia.
  - intros x X. apply in_seq in X. destruct (p x) eqn:E; auto. apply P in E; lia.
Qed.
Lemma filter_map_fst : forall (num : nat -> nat) (x : nat -> ext) n l,
  filter (fun p => Nat.eqb (fst p) n) (map (fun k => (num k, x k)) l) = map (fun k => (num k, x k)) (filter (fun k => Nat.eqb (num k) n) l).
Proof. induction l as [|a l IH]; auto. simpl. destruct (Nat.eqb (num a) n); simpl; congruence. Qed.
Lemma last_map_seq : forall (f : nat -> ext) s d x, last (map f (seq s (S d))) x = f (s + d)%nat.
Proof. intros f s d x. rewrite seq_S, map_app. simpl. apply last_last. Qed.

Lemma accumulate_sections : forall (starts : list nat) (b : nat -> nat -> R) (V : nat -> R) (e : nat) (num : nat -> nat) (x : nat -> ext),
  (forall k i, (1 <= k <= e)%nat -> last_before starts k i -> x k = Fin (b i k) /\ V k = V i + b i k) ->
  forall l s0 n a pre, starts = pre ++ s0 :: l -> ascending starts -> (forall m, In m starts -> (m < e)%nat) ->
  (forall k, (1 <= k <= s0)%nat -> (num k < n)%nat) -> 
  (forall k, (s0 < k <= e)%nat -> num k = (n + number_before l k)%nat) ->
  accumulate (seq n (S (length l))) (map (fun k => (num k, x k)) (seq 1 e)) (Fin (V s0)) a
  = Some (a ++ map (fun k => Fin (V k)) (seq (S s0) (e - s0))).
Proof.
  intros starts b V e num x HX. induction l as [|s1 l IH]; intros s0 n a pre ES ASC LE N1 N2.
  - assert (S0 : (s0 < e)%nat) by (apply LE; rewrite ES; apply in_app_iff; right; left; auto).
    assert (BEF : forall k, (s0 < k <= e)%nat -> last_before starts k s0).
    { intros k K. split; [rewrite ES; apply in_app_iff; right; left; auto|]. split; [lia|]. intros j J _. rewrite ES in J.
      apply in_app_iff in J. destruct J as [J|[<-|[]]]; [|lia].
      clear - ASC ES J. rewrite ES in ASC. clear ES. induction pre as [|p pre IHp]; [destruct J|]. destruct J as [<-|J].
      - assert (p < s0)%nat; [|lia]. apply (ascending_up _ _ ASC). apply in_app_iff; right; left; auto.
      - apply IHp; auto. eapply ascending_tail; eauto. }
    cbn [length seq accumulate]. rewrite filter_map_fst.
    rewrite (filter_seq _ e s0 (e - s0)).
    2: lia.
    2:{ intros k K. rewrite Nat.eqb_eq. destruct (Nat.lt_ge_cases s0 k) as [C|C]; [rewrite N2 by lia; unfold number_before; simpl; lia|pose proof (N1 k ltac:(lia)); lia]. }
    rewrite !map_map. cbn [snd].
    assert (E : map (fun k => eadd (x k) (Fin (V s0))) (seq (S s0) (e - s0)) = map (fun k => Fin (V k)) (seq (S s0) (e - s0))).
    { apply map_ext_in. intros k K. apply in_seq in K. destruct (HX k s0 ltac:(lia) (BEF k ltac:(lia))) as [-> ->]. simpl. f_equal. ring. }
    rewrite E. destruct (a ++ _) eqn:Z; auto. exfalso. apply app_eq_nil in Z. destruct Z as [_ Z]. apply map_eq_nil in Z.
    replace (e - s0)%nat with (S (e - s0 - 1)) in Z by lia. discriminate.
  - assert (AS2 : ascending (s0 :: s1 :: l)).
    { clear - ES ASC. rewrite ES in ASC. clear ES. induction pre as [|p pre IHp]; auto. apply IHp. eapply ascending_tail; eauto. }
    pose proof AS2 as [S01 AS3].
    assert (S1e : (s1 < e)%nat) by (apply LE; rewrite ES; apply in_app_iff; right; right; left; auto).
    assert (BEF : forall k, (s0 < k <= s1)%nat -> last_before starts k s0).
    { intros k K. split; [rewrite ES; apply in_app_iff; right; left; auto|]. split; [lia|]. intros j J JK. rewrite ES in J.
      apply in_app_iff in J. destruct J as [J|[<-|J]]; [|lia|].
      - clear - ASC ES J. rewrite ES in ASC. clear ES. induction pre as [|p pre IHp]; [destruct J|]. destruct J as [<-|J].
        + assert (p < s0)%nat; [|lia]. apply (ascending_up _ _ ASC). apply in_app_iff; right; left; auto.
        + apply IHp; auto. eapply ascending_tail; eauto.
      - assert (s1 <= j)%nat; [|lia]. destruct J as [<-|J]; [lia|]. pose proof (ascending_up _ _ AS3 j J). lia. }
    change (seq n (S (length (s1 :: l)))) with (n :: seq (S n) (S (length l))). cbn [accumulate]. rewrite filter_map_fst.
    rewrite (filter_seq _ e s0 (s1 - s0)).
    2: lia.
    2:{ intros k K. rewrite Nat.eqb_eq. destruct (Nat.lt_ge_cases s0 k) as [C|C]; [|pose proof (N1 k ltac:(lia)); lia].
        rewrite N2 by lia. rewrite number_before_cons by auto. destruct (Nat.ltb s1 k) eqn:Q; [apply Nat.ltb_lt in Q|apply Nat.ltb_ge in Q]; lia. }
    rewrite !map_map. cbn [snd].
    assert (E : map (fun k => eadd (x k) (Fin (V s0))) (seq (S s0) (s1 - s0)) = map (fun k => Fin (V k)) (seq (S s0) (s1 - s0))).
    { apply map_ext_in. intros k K. apply in_seq in K. destruct (HX k s0 ltac:(lia) (BEF k ltac:(lia))) as [-> ->]. simpl. f_equal. ring. }
    rewrite E. set (a' := a ++ _). 
    assert (LA : forall d, last a' d = Fin (V s1)).
    { intro d. unfold a'. replace (s1 - s0)%nat with (S (s1 - s0 - 1)) by lia. rewrite seq_S, map_app, app_assoc. simpl. rewrite last_last.
      do 2 f_equal. lia. }
    destruct a' as [|y a''] eqn:Z.
    { exfalso. specialize (LA NaN). discriminate. }
    rewrite LA. rewrite <- Z. unfold a' in Z. 
    rewrite (IH s1 (S n) a' (pre ++ [s0])).
    + unfold a'. rewrite <- app_assoc, <- map_app. do 3 f_equal. replace (e - s0)%nat with ((s1 - s0) + (e - s1))%nat by lia.
      rewrite seq_app. do 2 f_equal. lia.
    + rewrite <- app_assoc. exact ES.
    + exact ASC.
    + exact LE.
    + intros k K. destruct (Nat.le_gt_cases k s0) as [C|C]; [pose proof (N1 k ltac:(lia)); lia|].
      rewrite N2 by lia. rewrite number_before_cons by auto. assert (Q : Nat.ltb s1 k = false) by (apply Nat.ltb_ge; lia). rewrite Q. lia.
    + intros k K. rewrite N2 by lia. rewrite number_before_cons by auto. assert (Q : Nat.ltb s1 k = true) by (apply Nat.ltb_lt; lia). rewrite Q. lia.
Qed.

Lemma map_nth_seq : forall (A : Type) (l : list A) d, l = map (fun k => nth k l d) (seq 0 (length l)).
Proof.
  intros A l d. induction l as [|a l IH]; auto. simpl. f_equal. rewrite <- seq_shift, map_map. exact IH.
Qed.
Lemma tl_map_seq : forall (A : Type) (l : list A) d, tl l = map (fun k => nth k l d) (seq 1 (length l - 1)).
Proof.
  intros A [|a l] d; auto. simpl tl. cbn [length]. replace (S (length l) - 1)%nat with (length l) by lia.
  rewrite <- seq_shift, map_map. apply map_nth_seq.
Qed.
Lemma combine_maps : forall (A B C : Type) (f : A -> B) (g : A -> C) l, combine (map f l) (map g l) = map (fun x => (f x, g x)) l.
Proof. induction l as [|a l IH]; auto. simpl. congruence. Qed.
Lemma list_max_lt : forall l e, (forall m, In m l -> (m < e)%nat) -> (list_max l <= e)%nat.
Proof. intros l e H. apply list_max_le. apply Forall_forall. intros x X. specialize (H x X). lia. Qed.

Lemma ti_starts_facts : forall s rtol dt, (2 <= length (sv_rows s))%nat ->
  ascending (ti_starts s rtol dt) /\ (forall m, In m (ti_starts s rtol dt) -> (m < length (sv_rows s) - 1)%nat).
Proof.
  intros s rtol dt L. unfold ti_starts. split; [apply breaks_ascending|].
  intros m [<-|H]; [lia|]. apply breaks_bound in H. rewrite pairwise_length, section_data_length in H; lia.
Qed.

Lemma indices_values : forall h rows deg sx sn unit s g f gr fr rtol dt coeff,
  Survey h rows deg sx sn unit = Some s -> strictly_increasing (map st_md (sv_rows s)) ->
  (forall k i, (1 <= k < length (sv_rows s))%nat -> last_before (ti_starts s rtol dt) k i -> 
     g (along s i k / coeff) (chord s i k / coeff) = Fin (gr i k)) ->
  (forall k, (1 <= k < length (sv_rows s))%nat -> f (along s 0 k / coeff) = Fin (fr k)) ->
  exists l, indices g f s rtol dt coeff = Some l /\ length l = length (sv_rows s) /\ nth_error l 0 = Some (Fin 0) /\
    forall k, (1 <= k < length (sv_rows s))%nat ->
      let n := INR (number_before (ti_starts s rtol dt) k) in
      exists v, summed (ti_starts s rtol dt) gr k v /\ nth_error l k = Some (Fin (n / (n + 1) * fr k * v)).
Proof.
  intros h rows deg sx sn unit s g f gr fr rtol dt coeff HS INC HG HF.
  destruct (Survey_stations _ _ _ _ _ _ _ HS) as (HH & L0 & _ & _ & _ & _ & _ & LN & LP & _).
  assert (A : exists s, Survey h rows deg sx sn unit = Some s) by eauto. apply Survey_accepts in A. destruct A as (_ & _ & L).
  assert (L2 : (2 <= length (sv_rows s))%nat) by lia.
  destruct (ti_starts_facts s rtol dt L2) as [ASC LE].
  set (starts := ti_starts s rtol dt) in *. set (N := length (sv_rows s)) in *.
  assert (MD : forall i j, (i < j < N)%nat -> depth_at s i < depth_at s j).
  { intros i j K. unfold depth_at. apply (incr_lt (map st_md (sv_rows s)) i j); auto; try lia; rewrite nth_error_map;
      rewrite (nth_error_nth' _ (mkSt 0 0 0)) by (fold N; lia); reflexivity. }
  assert (MDS : mds_of s = map (depth_at s) (seq 0 N)).
  { unfold mds_of. rewrite (map_nth_seq _ (sv_rows s) (mkSt 0 0 0)) at 1. rewrite map_map. reflexivity. }
  assert (TMD : tl (mds_of s) = map (depth_at s) (seq 1 (N - 1))).
  { rewrite MDS. destruct N as [|N']; [lia|]. simpl. rewrite Nat.sub_0_r. reflexivity. }
  assert (NMD : forall k, (k < N)%nat -> nth k (mds_of s) 0 = depth_at s k).
  { intros k K. rewrite MDS. rewrite (nth_indep _ 0 (depth_at s 0)) by (rewrite map_length, seq_length; lia). rewrite map_nth, seq_nth by lia. reflexivity. }
  assert (MST : map (fun k => nth k (mds_of s) 0) starts = map (depth_at s) starts).
  { apply map_ext_in. intros k K. apply NMD. specialize (LE k K). lia. }
  assert (NUM : ti_numbers s starts = map (number_before starts) (seq 1 (N - 1))).
  { unfold ti_numbers. cbv zeta. rewrite MST, TMD, map_map. apply map_ext_in. intros k K. apply in_seq in K. apply ss_number; auto.
    intros i j IJ. apply MD. pose proof (list_max_lt starts (N - 1)%nat LE). lia. }
  assert (TP : tl (sv_pos_nev s) = map (fun k => nth k (sv_pos_nev s) vzero) (seq 1 (N - 1))).
  { rewrite (tl_map_seq _ (sv_pos_nev s) vzero). do 2 f_equal. unfold N. lia. }
  assert (ST : starts = 0%nat :: tl starts) by reflexivity.
  assert (LAST : forall k, (1 <= k)%nat -> exists n i, number_before starts k = S n /\ nth_error starts n = Some i /\ last_before starts k i).
  { intros k K. rewrite ST. apply last_before_nth; [rewrite <- ST; auto|lia]. }
  set (x := fun k => match number_before starts k with O => NaN | S n => let i := nth n starts 0%nat in g (along s i k / coeff) (chord s i k / coeff) end).
  assert (LENS : map (fun p => let '(n, lc, lx) := p in (n, g lc lx)) (ti_lengths s starts coeff) = map (fun k => (number_before starts k, x k)) (seq 1 (N - 1))).
  { unfold ti_lengths. cbv zeta. rewrite NUM, MST, TMD, TP, !combine_maps, !map_map. apply map_ext_in. intros k K. apply in_seq in K.
    destruct (LAST k ltac:(lia)) as (n & i & E1 & E2 & E3). unfold x. rewrite E1. cbn [before_index].
    assert (NL : (n < length starts)%nat) by (apply nth_error_Some; congruence).
    assert (Ni : nth n starts 0%nat = i) by (apply nth_error_nth; auto).
    rewrite Ni. f_equal. unfold along, chord.
    rewrite (nth_indep _ 0 (depth_at s 0)) by (rewrite map_length; auto). rewrite map_nth, Ni.
    rewrite (nth_indep (map (fun k0 => nth k0 (sv_pos_nev s) vzero) starts) vzero ((fun k0 => nth k0 (sv_pos_nev s) vzero) 0%nat)) by (rewrite map_length; auto).
    rewrite (map_nth (fun k0 => nth k0 (sv_pos_nev s) vzero)), Ni. reflexivity. }
  assert (VE : exists V : nat -> R, forall k, (k < N)%nat -> summed starts gr k (V k)).
  { assert (forall m, exists V : nat -> R, forall k, (k < m)%nat -> summed starts gr k (V k)).
    { induction m as [|m [V IH]]; [exists (fun _ => 0); intros; lia|].
      destruct (summed_total (tl starts) gr m) as [v Hv]; [rewrite <- ST; auto|].
      exists (fun k => if Nat.eqb k m then v else V k). intros k K. destruct (Nat.eqb k m) eqn:E.
      - apply Nat.eqb_eq in E. subst. rewrite ST. exact Hv.
      - apply Nat.eqb_neq in E. apply IH. lia. }
    apply H. }
  destruct VE as [V HV].
  assert (V0 : V 0%nat = 0). { apply (summed_unique starts gr 0); [apply HV; lia|constructor]. }
  assert (HX : forall k i, (1 <= k <= N - 1)%nat -> last_before starts k i -> x k = Fin (gr i k) /\ V k = V i + gr i k).
  { intros k i K LB. split.
    - destruct (LAST k ltac:(lia)) as (n & i' & E1 & E2 & E3). unfold x. rewrite E1. rewrite (nth_error_nth _ _ _ E2).
      rewrite (last_before_unique _ _ _ _ E3 LB). cbv zeta. apply HG; [lia|auto].
    - apply (summed_unique starts gr k); [apply HV; lia|]. apply summed_next; auto. apply HV. destruct LB as (_ & LB & _). lia. }
  unfold indices. cbv zeta. fold starts. rewrite LENS.
  pose proof (accumulate_sections starts gr V (N - 1) (number_before starts) x HX (tl starts) 0 1 [] [] ST ASC LE) as AC.
  rewrite V0 in AC. change (seq 1 (length starts)) with (seq 1 (S (length (tl starts)))). rewrite AC; clear AC.
  2:{ intros; lia. }
  2:{ intros k K. change (number_before starts k) with (number_before (0%nat :: tl starts) k). rewrite number_before_cons by (rewrite <- ST; auto). assert (Q : Nat.ltb 0 k = true) by (apply Nat.ltb_lt; lia). rewrite Q. lia. }
  cbn [app]. rewrite !map_length, !seq_length, Nat.sub_0_r, Nat.eqb_refl.
  eexists. split; [reflexivity|]. rewrite TMD, map_map. cbn [fst].
  rewrite !combine_maps, map_map.
  split. { cbn [length]. rewrite map_length, seq_length. lia. } split; [reflexivity|].
  intros k K. cbv zeta. exists (V k). split; [apply HV; lia|].
  destruct k as [|k]; [lia|]. cbn [nth_error]. rewrite nth_error_map.
  assert (SQ : nth_error (seq 1 (N - 1)) k = Some (S k)).
  { rewrite (nth_error_nth' _ 0%nat) by (rewrite seq_length; lia). rewrite seq_nth by lia. reflexivity. }
  rewrite SQ. cbn [option_map]. f_equal.
  assert (HD : hd 0 (mds_of s) = depth_at s 0).
  { rewrite MDS. destruct N; [lia|]. reflexivity. }
  rewrite HD. fold (along s 0 (S k)). rewrite HF by lia. cbn [emul]. rewrite S_INR. reflexivity.
Qed.
