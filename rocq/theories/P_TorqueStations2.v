(** Proofs about the survey on which torque and drag is calculated: every station
    lies where the given survey is at its depth. *)
Require Import Reals ZArith Bool String List Lra Lia Permutation.
Require Import Verif.Base Verif.NumPy Verif.P_Trig Verif.Spec Verif.Spec_Lists Verif.M_Utils Verif.P_Utils Verif.P_Utils2
  Verif.M_Architecture Verif.M_Survey Verif.P_Survey Verif.P_Survey2 Verif.P_Survey3 Verif.P_Survey4 Verif.P_Survey5
  Verif.P_Levels Verif.P_Levels2 Verif.P_Refine Verif.M_TorqueStations Verif.Spec_TorqueStations Verif.P_TorqueStations.
Import ListNotations.
Open Scope R_scope.

Definition course (s : survey) (st : station) : Prop :=
  exists n h', survey_interpolate_md s (st_md st) = NodeOk n h' /\ nd_vec n = dir st.

Section Given.
  Variables (h : header) (rows : list row) (deg : bool) (sx sn : V3) (unit : string) (s : survey).
  Hypothesis HS : Survey h rows deg sx sn unit = Some s.
  Hypothesis Hinc : strictly_increasing (map st_md (sv_rows s)).
  Hypothesis Hbend : forall i a b, nth_error (sv_rows s) i = Some a -> nth_error (sv_rows s) (S i) = Some b ->
     get_dogleg (st_inc a) (st_azi a) (st_inc b) (st_azi b) < PI.
  Variables (first last : station).
  Hypothesis Hfirst : nth_error (sv_rows s) 0 = Some first.
  Hypothesis Hlast : nth_error (sv_rows s) (pred (length (sv_rows s))) = Some last.

  Lemma station_course : forall a, In a (sv_rows s) -> course s a.
  Proof.
    intros a I. apply In_nth_error in I. destruct I as (k & K).
    destruct (Survey_xyz_len _ _ _ _ _ _ _ HS) as [_ LN].
    assert (Lk : (k < length (sv_rows s))%nat) by (apply nth_error_Some; congruence).
    destruct (nth_error_some_lt _ (sv_nev s) k) as [p P]; [lia|].
    destruct (md_lookup_station _ _ _ _ _ _ _ k a p HS Hinc Hbend K P) as (n & h' & E & _ & _ & V & _).
    exists n, h'. split; auto.
  Qed.
  Lemma first_least : forall a, In a (sv_rows s) -> st_md first <= st_md a.
  Proof.
    intros a I. apply In_nth_error in I. destruct I as (k & K). destruct k as [|k].
    - assert (a = first) by congruence. subst. lra.
    - left. apply (si_lt (map st_md (sv_rows s)) 0 (S k)); auto; try lia; rewrite nth_error_map.
      + rewrite Hfirst. reflexivity.
      + rewrite K. reflexivity.
  Qed.
  Lemma md_inj : forall a b, In a (sv_rows s) -> In b (sv_rows s) -> st_md a = st_md b -> a = b.
  Proof.
    intros a b A B E. apply In_nth_error in A. apply In_nth_error in B. destruct A as (i & A). destruct B as (j & B).
    destruct (Nat.lt_trichotomy i j) as [L|[L|L]].
    - exfalso. assert (st_md a < st_md b); [|lra].
      apply (si_lt (map st_md (sv_rows s)) i j); auto; rewrite nth_error_map, ?A, ?B; reflexivity.
    - subst. congruence.
    - exfalso. assert (st_md b < st_md a); [|lra].
      apply (si_lt (map st_md (sv_rows s)) j i); auto; rewrite nth_error_map, ?A, ?B; reflexivity.
  Qed.
  Lemma interpolated_station : forall d, d <= st_md last ->
    exists t a0 st, interpolate_md s d = MdSurvey t (set_grid (sv_header s)) /\ sv_rows t = [a0; st] /\
      st_md st = Rmax d (st_md first) /\ course s st.
  Proof.
    intros d Hd.
    destruct (interpolate_md_inside _ _ _ _ _ _ _ HS Hinc d first last Hfirst Hlast Hd)
      as (k & a & b & xyz & nev & n & h' & A & B & X & N & Q & I & J & M & P & V & _).
    pose proof Q as Q0. unfold survey_interpolate_md in Q.
    destruct (interpolate_md s d) as [| |t h1] eqn:E; try discriminate.
    destruct (node_of t) as [n'|] eqn:NT; [|discriminate]. injection Q; intros; subst n' h'.
    assert (H1 : h1 = set_grid (sv_header s) /\ length (sv_rows t) = 2%nat).
    { unfold interpolate_md in E. destruct (_ <=? _)%nat; [discriminate|].
      destruct (match searchsorted_left _ _ with O => _ | S j => _ end) as [idx x].
      destruct (interpolate_at s x idx) as [[r hh]|] eqn:IA; [|discriminate]. injection E; intros; subst r hh.
      unfold interpolate_at in IA.
      destruct (nth_error (sv_rows s) idx); [|discriminate]. destruct (nth_error (sv_rows s) (S idx)); [|discriminate].
      destruct (nth_error (sv_xyz s) idx); [|discriminate]. destruct (nth_error (sv_nev s) idx); [|discriminate].
      destruct (interp_angles _ _ _).
      match type of IA with context [Survey ?a ?b ?c ?d ?e ?f] => destruct (Survey a b c d e f) eqn:SS end; [|discriminate].
      apply Survey_inv in SS. destruct SS as (_ & _ & _ & LL & _).
      injection IA; intros; subst. split; [reflexivity|]. simpl. exact LL. }
    destruct H1 as [H1 L2]. subst h1.
    destruct (sv_rows t) as [|a0 [|st [|]]] eqn:RT; try discriminate.
    unfold node_of in NT. rewrite RT in NT. simpl in NT.
    destruct (sv_nev t) as [|? [|q ?]]; try discriminate. destruct (sv_interpolated t) as [|? [|? ?]]; try discriminate.
    assert (VN : nd_vec n = dir st /\ nd_md n = st_md st).
    { injection NT; intros; subst n. simpl. rewrite get_vec_spec by lra. auto. }
    destruct VN as [VN MN].
    exists t, a0, st. split; [reflexivity|]. split; [exact RT|]. split; [congruence|].
    destruct (Rle_lt_dec (st_md first) d) as [F|F].
    - rewrite Rmax_left in M by auto. exists n, (set_grid (sv_header s)). split; auto. rewrite <- MN, M. auto.
    - rewrite Rmax_right in M, V, I by lra.
      assert (FA : st_md first <= st_md a) by (apply first_least; eapply nth_error_In; eauto).
      assert (EA : st_md a = st_md first) by (destruct J; lra).
      replace (st_md first - st_md a) with 0 in V by lra.
      rewrite (proj1 (interp_at_start a b vzero (Hbend _ _ _ A B) (md_step_pos _ Hinc _ _ _ A B))) in V.
      destruct (station_course a) as (n2 & h2 & E2 & V2); [eapply nth_error_In; eauto|].
      exists n2, h2. rewrite <- MN, M, <- EA. split; auto. congruence.
  Qed.
  Lemma beyond_last : forall d, st_md last < d -> interpolate_md s d = MdNone.
  Proof.
    intros d Hd. pose proof (interpolate_md_beyond s Hinc d last Hlast Hd) as Q.
    unfold survey_interpolate_md in Q. destruct (interpolate_md s d); auto; [discriminate|]. destruct (node_of s0); discriminate.
  Qed.

  (** the queue for given sections *)
  Lemma queue_ok : forall l hd0, (hd0 = sv_header s \/ hd0 = set_grid (sv_header s)) ->
    (exists ds, map s_bottom l = map Some ds /\ Forall (fun d => d <= st_md last) ds) ->
    forall ds, map s_bottom l = map Some ds ->
    exists q added, queue s hd0 l = (inl q, if absent (map st_md (sv_rows s)) ds then hd0 else set_grid (sv_header s)) /\
      last_stations q = Some added /\
      map st_md added = map (fun d => Rmax d (st_md first)) (absent (map st_md (sv_rows s)) ds) /\ Forall (course s) added.
  Proof.
    induction l as [|v l IH]; intros hd0 HH (ds' & E' & F') ds E.
    - destruct ds; [|discriminate]. exists [], []. simpl. auto.
    - destruct ds as [|d ds]; [discriminate|]. simpl in E. injection E; intros E2 E1. clear E.
      destruct ds' as [|d' ds']; [discriminate|]. simpl in E'. injection E'; intros E4 E3. clear E'.
      assert (d' = d) by congruence. subst d'. inversion F'; subst. clear F'.
      simpl queue. rewrite E1. simpl absent.
      destruct (in_dec Req_EM_T d (map st_md (sv_rows s))) as [I|I].
      + rewrite (proj2 (among_iff _ _) I). apply IH; auto. exists ds'. auto.
      + destruct (among d (map st_md (sv_rows s))) eqn:AM; [apply among_iff in AM; contradiction|].
        destruct (interpolated_station d H1) as (t & a0 & st & ET & RT & MT & CT). rewrite ET.
        destruct (IH (set_grid (sv_header s)) (or_intror eq_refl) ltac:(exists ds'; auto) ds E2) as (q & added & Q1 & Q2 & Q3 & Q4).
        rewrite Q1. exists (Some t :: q), (st :: added). split; [destruct (absent _ ds); reflexivity|].
        simpl last_stations. rewrite RT, Q2. simpl. split; auto. rewrite MT, Q3. split; auto.
  Qed.
  Lemma queue_fails : forall l hd0, (hd0 = sv_header s \/ hd0 = set_grid (sv_header s)) ->
    ~ (exists ds, map s_bottom l = map Some ds /\ Forall (fun d => d <= st_md last) ds) ->
    match queue s hd0 l with (inr _, _) => True | (inl q, _) => last_stations q = None end.
  Proof.
    induction l as [|v l IH]; intros hd0 HH NE.
    - exfalso. apply NE. exists []. auto.
    - simpl. destruct (s_bottom v) as [d|] eqn:EB; auto.
      destruct (Rle_lt_dec d (st_md last)) as [L|L].
      + assert (NE' : ~ (exists ds, map s_bottom l = map Some ds /\ Forall (fun d => d <= st_md last) ds)).
        { intros (ds & A & B). apply NE. exists (d :: ds). simpl. rewrite EB, A. auto. }
        destruct (among d _); [apply IH; auto|].
        destruct (interpolated_station d L) as (t & a0 & st & ET & RT & _). rewrite ET.
        specialize (IH (set_grid (sv_header s)) (or_intror eq_refl) NE').
        destruct (queue s (set_grid (sv_header s)) l) as [[q|e] h2]; auto. simpl. rewrite RT, IH. reflexivity.
      + destruct (among d _) eqn:AM.
        { exfalso. apply among_iff in AM. apply in_map_iff in AM. destruct AM as (a & A & IA). subst d.
          apply In_nth_error in IA. destruct IA as (k & K). assert (Lk : (k < length (sv_rows s))%nat) by (apply nth_error_Some; congruence).
          destruct (Nat.eq_dec k (pred (length (sv_rows s)))) as [->|NK]; [assert (a = last) by congruence; subst; lra|].
          assert (st_md a < st_md last); [|lra].
          apply (si_lt (map st_md (sv_rows s)) k (pred (length (sv_rows s)))); auto; try lia; rewrite nth_error_map, ?K, ?Hlast; reflexivity. }
        rewrite (beyond_last d L). destruct (queue s hd0 l) as [[q|e] h2]; auto.
  Qed.
End Given.
