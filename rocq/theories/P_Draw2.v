(** The rows drawn from one connection and from a chain of them. *)
Require Import Reals ZArith Bool String List Lra Lia Psatz Sorted.
Require Import Verif.Base Verif.NumPy Verif.P_Trig Verif.Spec Verif.Spec_Lists Verif.M_Utils
  Verif.P_Utils Verif.P_Utils2 Verif.P_Utils3 Verif.M_Connector Verif.Spec_Connector Verif.P_Connector6 Verif.P_Connector7 Verif.P_Connector8
  Verif.M_Survey Verif.P_Survey Verif.P_Survey2
  Verif.P_Survey3 Verif.P_Survey4 Verif.M_Levels Verif.P_Levels2 Verif.M_Draw Verif.Spec_Draw Verif.P_Draw.
Import ListNotations.
Open Scope R_scope.

Definition mults (step : option R) (x : R) : Prop := match step with None => False | Some s => multiple s x end.
Definition ogrid (step : option R) (a b : R) (marks l : list R) : Prop :=
  StronglySorted Rle l /\ forall x, In x l <-> (In x marks \/ (a < x < b /\ mults step x)).
Lemma ogrid_some : forall s a b m l, wgrid s a b m l -> ogrid (Some s) a b m l.
Proof. auto. Qed.
Lemma ogrid_app : forall st a b c m1 m2 l1 l2, a <= b <= c ->
  ogrid st a b m1 l1 -> ogrid st b c m2 l2 -> In b (m1 ++ m2) ->
  (forall x, In x m1 -> x <= b) -> (forall x, In x m2 -> b <= x) ->
  ogrid st a c (m1 ++ m2) (l1 ++ l2).
Proof.
  intros st a b c m1 m2 l1 l2 B [S1 I1] [S2 I2] Ib L1 L2. split.
  - apply ss_app; auto. intros x y Ix Iy. apply I1 in Ix. apply I2 in Iy.
    assert (x <= b) by (destruct Ix as [Ix|Ix]; [auto|lra]).
    assert (b <= y) by (destruct Iy as [Iy|Iy]; [auto|lra]). lra.
  - intro x. rewrite in_app_iff, I1, I2, in_app_iff. rewrite in_app_iff in Ib. split.
    + intros [[H|[H M]]|[H|[H M]]]; auto; right; split; auto; lra.
    + intros [[H|H]|[H M]]; auto.
      destruct (Rtotal_order x b) as [Q|[->|Q]].
      * left. right. split; auto. lra.
      * tauto.
      * right. right. split; auto. lra.
Qed.
Lemma offsets_range : forall a len step e o, pos_step step -> 0 <= len -> In o (offsets a len step e) -> 0 <= o <= len.
Proof.
  intros a len step e o P L I. destruct step as [s|].
  - pose proof (offsets_weak a len s e (P s eq_refl) L) as [_ W].
    assert (J : In (o + a) (map (fun x => x + a) (offsets a len (Some s) e))) by (apply (in_map (fun x => x + a)); auto).
    apply W in J. destruct J as [J|J]; [|lra]. destruct e; cbn in J; intuition lra.
  - unfold offsets in I. destruct e; cbn in I; intuition lra.
Qed.
Lemma curve_rows : forall c n r step e x d, bends c n r -> pos_step step ->
  In (x, d) (interpolate_curve (k_md1 c) (k_vec1 c) (k_vec_target c) (k_dist_curve c) (k_dogleg c) step e) ->
  k_md1 c <= x <= k_md1 c + k_dist_curve c /\ d = arc_tangent (k_vec1 c) n ((x - k_md1 c) / r).
Proof.
  intros c n r step e x d (U & N & O & R0 & D & SN & DC & E & Q & _) P I.
  assert (DP : 0 < k_dist_curve c) by nra.
  unfold interpolate_curve in I. destruct (Req_EM_T (k_dist_curve c) 0); [lra|].
  apply in_map_iff in I. destruct I as (o & EO & I). injection EO as <- <-.
  rewrite Rabs_pos_eq in I by lra. apply offsets_range in I; auto; [|lra]. split; [lra|].
  assert (V : is_unit (k_vec_target c)) by (rewrite E; apply arc_unit; auto).
  assert (A : angle_between (k_vec1 c) (k_vec_target c) (k_dogleg c)).
  { split; [lra|]. rewrite E.
    replace (k_vec1 c) with (arc_tangent (k_vec1 c) n 0) at 1
      by (unfold arc_tangent; rewrite sin_0, cos_0; destruct (k_vec1 c), n; unf; apply V3_eq; simpl; ring).
    rewrite arc_dot by auto. f_equal. ring. }
  destruct (rodrigues_arc _ _ _ U V A D SN) as (n' & N1 & N2 & N3 & N4).
  replace n' with n in N4.
  2: { apply (arc_normal_unique (k_vec1 c) n n' (k_dogleg c)); [lra|]. rewrite <- E, <- N3. reflexivity. }
  rewrite N4. f_equal. rewrite DC. field. lra.
Qed.
Lemma hold_rows : forall m v m2 step e x d, pos_step step -> m <= m2 -> In (x, d) (interpolate_hold m v m2 step e) ->
  m <= x <= m2 /\ d = v.
Proof.
  intros m v m2 step e x d P L I. unfold interpolate_hold in I. apply in_map_iff in I.
  destruct I as (o & EO & I). injection EO as <- <-. apply offsets_range in I; auto; [|lra]. split; [lra|auto].
Qed.
Lemma section_on : forall c step x d, sound c -> pos_step step -> In (x, d) (interpolate_section c step) ->
  exists q, on_connection c x q d.
Proof.
  intros c step x d S P I. destruct (hold_or c) as [M|M].
  - unfold interpolate_section in I. rewrite M in I. pose proof (sound_lt c S).
    apply hold_rows in I; auto; [|lra]. destruct I as (B & ->).
    unfold on_connection. rewrite M. eauto.
  - destruct (sound_bends c S M) as (n & r & H).
    assert (CU : forall e, In (x, d) (interpolate_curve (k_md1 c) (k_vec1 c) (k_vec_target c) (k_dist_curve c) (k_dogleg c) step e) ->
       exists q, on_connection c x q d).
    { intros e J. apply (curve_rows c n r) in J; auto. destruct J as (B & E).
      assert (LL : k_md1 c + k_dist_curve c <= k_md_target c) by apply H.
      destruct (on_exists c x S ltac:(lra)) as (q & d' & A). exists q. replace d with d'; auto.
      apply (on_bend c n r) in A; auto. destruct A as (_ & A & _). destruct A as (_ & ->); [lra|]. auto. }
    assert (HO : forall m2, k_md2 c = Some m2 -> In (x, d) (interpolate_hold m2 (k_vec_target c) (k_md_target c) step true) ->
       exists q, on_connection c x q d).
    { intros m2 E J. assert (EM : m2 = k_md1 c + k_dist_curve c).
      { destruct H as (_ & _ & _ & _ & _ & _ & _ & _ & _ & _ & _ & K). rewrite E in K. auto. }
      assert (LL : k_md1 c + k_dist_curve c <= k_md_target c) by apply H.
      assert (DP : 0 < k_dist_curve c) by (destruct H as (_ & _ & _ & R0 & D & _ & DC & _); nra).
      apply hold_rows in J; auto; [|lra]. destruct J as (B & ->).
      destruct (on_exists c x S ltac:(lra)) as (q & d' & A). exists q. replace (k_vec_target c) with d'; auto.
      apply (on_bend c n r) in A; auto. destruct A as (_ & _ & A). destruct A as (_ & ->); [lra|]. auto. }
    unfold interpolate_section in I.
    destruct (k_method c); try congruence; destruct (k_md2 c) as [m2|] eqn:E2; try (destruct I; fail);
      try (eapply CU; eassumption); apply in_app_or in I; destruct I as [I|I]; eauto.
Qed.
Lemma section_depths : forall c step, sound c -> pos_step step ->
  ogrid step (k_md1 c) (k_md_target c) (marks c) (map fst (interpolate_section c step)).
Proof.
  intros c step S P. pose proof (sound_wf c S) as W. destruct step as [s|].
  - apply ogrid_some. apply section_weak; auto.
  - assert (ND : k_method c <> Hold -> 0 < k_dist_curve c /\ k_md1 c + k_dist_curve c <= k_md_target c).
    { intro M. destruct (sound_bends c S M) as (n & r & H). split; [destruct H as (_ & _ & _ & R0 & D & _ & DC & _); nra|apply H]. }
    assert (E : map fst (interpolate_section c None) = marks c).
    { unfold interpolate_section, marks, interpolate_hold, interpolate_curve, offsets.
      pose proof (sound_lt c S). unfold wf_conn in W.
      destruct (k_method c); try (destruct (ND ltac:(discriminate)) as [DP LL]; destruct (Req_EM_T (k_dist_curve c) 0); [lra|]);
        destruct (k_md2 c); try (destruct W; fail); cbn; rewrite ?Rabs_pos_eq by lra; repeat (f_equal; try lra). }
    rewrite E. split.
    + pose proof (sound_lt c S). unfold marks, wf_conn in *.
      destruct (k_method c); try (destruct (ND ltac:(discriminate)) as [DP LL]);
        destruct (k_md2 c); try (destruct W; fail);
        repeat first [apply SSorted_nil | apply SSorted_cons | apply Forall_nil | apply Forall_cons]; lra.
    + intro x. cbn. tauto.
Qed.

(** ** chains *)
Definition on_chain (cs : list conn) (x : R) (q d : V3) : Prop := exists c, In c cs /\ on_connection c x q d.
Lemma joined_tail : forall c cs, joined (c :: cs) -> joined cs.
Proof. intros c cs J a b (pre & post & E). apply J. exists (c :: pre), post. rewrite E. reflexivity. Qed.
Lemma joined_head : forall c c' cs, joined (c :: c' :: cs) ->
  k_pos1 c' = k_pos_target c /\ k_vec1 c' = k_vec_target c /\ k_md1 c' = k_md_target c.
Proof. intros c c' cs J. apply J. exists [], cs. reflexivity. Qed.
Lemma chain_after : forall cs c, joined (c :: cs) -> (forall k, In k (c :: cs) -> sound k) ->
  forall k, In k cs -> k_md_target c <= k_md1 k.
Proof.
  induction cs as [|c' cs IH]; intros c J S k I; [destruct I|].
  destruct (joined_head _ _ _ J) as (_ & _ & E). destruct I as [<-|I]; [lra|].
  pose proof (IH c' (joined_tail _ _ J) (fun k I => S k (or_intror I)) k I).
  pose proof (sound_lt c' (S c' (or_intror (or_introl eq_refl)))). lra.
Qed.
Lemma chain_unique : forall cs, joined cs -> (forall k, In k cs -> sound k) -> forall x q d q' d',
  on_chain cs x q d -> on_chain cs x q' d' -> q = q' /\ d = d'.
Proof.
  induction cs as [|c cs IH]; intros J S x q d q' d' (a & Ia & A) (b & Ib & B); [destruct Ia|].
  assert (CR : forall k y e z f, In k cs -> on_connection c x y e -> on_connection k x z f -> y = z /\ e = f).
  { intros k y e z f Ik Y Z. pose proof (chain_after cs c J S k Ik) as L.
    assert (BY : k_md1 c <= x <= k_md_target c) by apply Y. assert (BZ : k_md1 k <= x <= k_md_target k) by apply Z.
    destruct cs as [|c' cs]; [destruct Ik|]. destruct (joined_head _ _ _ J) as (E1 & E2 & E3).
    assert (Sc' : sound c') by (apply S; right; left; auto).
    assert (XE : x = k_md_target c) by lra.
    assert (YE : y = k_pos_target c /\ e = k_vec_target c).
    { apply (on_unique c x); auto. apply S; left; auto. rewrite XE. apply on_end. apply S; left; auto. }
    assert (ZE : z = k_pos1 c' /\ f = k_vec1 c').
    { apply (IH (joined_tail _ _ J) (fun k I => S k (or_intror I)) x).
      - exists k. auto.
      - exists c'. split; [left; auto|]. rewrite XE, <- E3. apply on_start; auto. }
    destruct YE, ZE. split; congruence. }
  destruct Ia as [<-|Ia], Ib as [<-|Ib].
  - eapply on_unique; eauto. apply S; left; auto.
  - eauto.
  - destruct (CR a q' d' q d Ia B A). auto.
  - apply (IH (joined_tail _ _ J) (fun k I => S k (or_intror I)) x); [exists a; auto|exists b; auto].
Qed.
Definition chain_end (cs : list conn) : R := match rev cs with [] => 0 | c :: _ => k_md_target c end.
Lemma chain_end_cons : forall c cs, chain_end (c :: cs) = match cs with [] => k_md_target c | _ => chain_end cs end.
Proof.
  intros c cs. unfold chain_end. cbn. destruct cs as [|c' cs]; [reflexivity|].
  destruct (rev (c' :: cs)) as [|y l] eqn:E; [|reflexivity].
  apply (f_equal (@List.length _)) in E. rewrite rev_length in E. discriminate.
Qed.
Lemma chain_end_in : forall cs, cs <> [] -> exists c, In c cs /\ chain_end cs = k_md_target c.
Proof.
  intros cs N. unfold chain_end. destruct (rev cs) as [|y l] eqn:E.
  - apply (f_equal (@List.length _)) in E. rewrite rev_length in E. destruct cs; [congruence|discriminate].
  - exists y. split; auto. apply in_rev. rewrite E. left; auto.
Qed.
Lemma chain_end_max : forall cs c k, joined (c :: cs) -> (forall k, In k (c :: cs) -> sound k) -> In k (c :: cs) ->
  k_md1 c <= k_md1 k /\ k_md_target k <= chain_end (c :: cs).
Proof.
  induction cs as [|c' cs IH]; intros c k J S I.
  - destruct I as [<-|[]]. cbn. lra.
  - rewrite chain_end_cons. pose proof (sound_lt c (S c (or_introl eq_refl))) as L.
    destruct (joined_head _ _ _ J) as (_ & _ & E).
    pose proof (IH c') as IH'. specialize (fun k => IH' k (joined_tail _ _ J) (fun k I => S k (or_intror I))).
    destruct I as [<-|I].
    + destruct (IH' c' (or_introl eq_refl)). pose proof (sound_lt c' (S c' (or_intror (or_introl eq_refl)))). lra.
    + destruct (IH' k I). lra.
Qed.
Lemma marks_ends : forall c, In (k_md1 c) (marks c) /\ In (k_md_target c) (marks c).
Proof. intro c. unfold marks. destruct (k_method c), (k_md2 c); cbn; auto. Qed.
Lemma marks_in : forall c x, sound c -> (In x (marks c) <-> x = k_md1 c \/ x = k_md_target c \/ k_md2 c = Some x).
Proof.
  intros c x S. destruct (hold_or c) as [M|M].
  - destruct S as (_ & _ & S). rewrite M in S. destruct S as (_ & E & _). unfold marks. rewrite M, E. cbn.
    split; intros; intuition (try discriminate; auto).
  - destruct (sound_bends c S M) as (n & r & H). destruct S as (_ & _ & S). unfold marks.
    destruct (k_method c); try congruence; try (destruct S; fail);
      destruct S as (? & ? & ? & ? & ? & ? & ? & ? & K); destruct (k_md2 c); try (destruct K; fail); cbn;
      split; intros; intuition (try discriminate; auto; try congruence).
Qed.
Lemma marks_range : forall c x, sound c -> In x (marks c) -> k_md1 c <= x <= k_md_target c.
Proof.
  intros c x S I. pose proof (sound_lt c S).
  destruct (section_weak c 1 ltac:(lra) (sound_wf c S)) as (_ & B & _). auto.
Qed.
Lemma chain_depths : forall step cs c, pos_step step -> joined (c :: cs) -> (forall k, In k (c :: cs) -> sound k) ->
  ogrid step (k_md1 c) (chain_end (c :: cs)) (flat_map marks (c :: cs)) (map fst (interpolate_well (c :: cs) step)).
Proof.
  intros step cs. induction cs as [|c' cs IH]; intros c P J S.
  - unfold interpolate_well. cbn [flat_map]. rewrite !app_nil_r. apply section_depths; auto. apply S; left; auto.
  - destruct (joined_head _ _ _ J) as (_ & _ & E).
    pose proof (IH c' P (joined_tail _ _ J) (fun k I => S k (or_intror I))) as G. rewrite E in G.
    pose proof (sound_lt c (S c (or_introl eq_refl))) as L.
    rewrite chain_end_cons. change (interpolate_well (c :: c' :: cs) step) with (interpolate_section c step ++ interpolate_well (c' :: cs) step).
    rewrite map_app. change (flat_map marks (c :: c' :: cs)) with (marks c ++ flat_map marks (c' :: cs)).
    apply (ogrid_app step _ (k_md_target c)); auto.
    + split; [lra|]. rewrite <- E. pose proof (sound_lt c' (S c' (or_intror (or_introl eq_refl)))).
      destruct (chain_end_max cs c' c' (joined_tail _ _ J) (fun k I => S k (or_intror I)) (or_introl eq_refl)). lra.
    + apply section_depths; auto. apply S; left; auto.
    + apply in_or_app. left. apply marks_ends.
    + intros x I. apply marks_range in I; [lra|]. apply S; left; auto.
    + intros x I. apply in_flat_map in I. destruct I as (k & Ik & I).
      assert (Sk : sound k) by (apply S; right; auto). apply marks_range in I; auto.
      destruct (chain_end_max cs c' k (joined_tail _ _ J) (fun k I => S k (or_intror I)) Ik). lra.
Qed.
Lemma chain_on : forall step cs x d, pos_step step -> (forall k, In k cs -> sound k) -> In (x, d) (interpolate_well cs step) ->
  exists q, on_chain cs x q d.
Proof.
  intros step cs x d P S I. unfold interpolate_well in I. apply in_flat_map in I. destruct I as (c & Ic & I).
  destruct (section_on c step x d (S c Ic) P I) as (q & A). exists q, c. auto.
Qed.
Lemma drawn_marks : forall step cs c x, joined (c :: cs) -> (forall k, In k (c :: cs) -> sound k) ->
  (drawn_depth step (c :: cs) x <-> In x (flat_map marks (c :: cs)) \/ (k_md1 c < x < chain_end (c :: cs) /\ mults step x)).
Proof.
  intros step cs c x J S. unfold drawn_depth, connection_end. split.
  - intros [(k & I & H)|[(k & I & H)|(s & a & b & -> & Ia & Ib & L & M)]].
    + left. apply in_flat_map. exists k. split; auto. apply marks_in; auto. tauto.
    + left. apply in_flat_map. exists k. split; auto. apply marks_in; auto.
    + right. split; auto. pose proof (chain_end_max cs c a J S Ia). pose proof (chain_end_max cs c b J S Ib). lra.
  - intros [I|[L M]].
    + apply in_flat_map in I. destruct I as (k & Ik & I). apply marks_in in I; auto.
      destruct I as [I|[I|I]]; [left|left|right; left]; exists k; auto.
    + right. right. destruct step as [s|]; [|destruct M].
      destruct (chain_end_in (c :: cs) ltac:(discriminate)) as (k & Ik & E). rewrite E in L.
      exists s, c, k. repeat split; try lra; auto. left; auto.
Qed.
