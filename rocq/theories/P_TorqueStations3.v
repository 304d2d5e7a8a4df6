(** Proofs about the survey on which torque and drag is calculated: its stations,
    positions and failures. *)
Require Import Reals ZArith Bool String List Lra Lia Permutation.
Require Import Verif.Base Verif.NumPy Verif.P_Trig Verif.Spec Verif.Spec_Lists Verif.M_Utils Verif.P_Utils Verif.P_Utils2
  Verif.M_Architecture Verif.M_Survey Verif.P_Survey Verif.P_Survey2 Verif.P_Survey3 Verif.P_Survey4 Verif.P_Survey5
  Verif.P_Levels Verif.P_Levels2 Verif.P_Refine Verif.M_TorqueStations Verif.Spec_TorqueStations Verif.P_TorqueStations Verif.P_TorqueStations2.
Import ListNotations.
Open Scope R_scope.

Section Path.
  Variables (h : header) (rows : list row) (deg : bool) (sx sn : V3) (s : survey).
  Hypothesis HS : Survey h rows deg sx sn "meters" = Some s.
  Hypothesis Hinc : strictly_increasing (map st_md (sv_rows s)).
  Hypothesis Hbend : forall i a b, nth_error (sv_rows s) i = Some a -> nth_error (sv_rows s) (S i) = Some b ->
     get_dogleg (st_inc a) (st_azi a) (st_inc b) (st_azi b) < PI.
  Variables (first last : station).
  Hypothesis Hfirst : nth_error (sv_rows s) 0 = Some first.
  Hypothesis Hlast : nth_error (sv_rows s) (pred (length (sv_rows s))) = Some last.

  Lemma leg_query : forall k a b p x, nth_error (sv_rows s) k = Some a -> nth_error (sv_rows s) (S k) = Some b ->
    nth_error (sv_nev s) k = Some p -> 0 <= x <= st_md b - st_md a ->
    exists n h', survey_interpolate_md s (st_md a + x) = NodeOk n h' /\ nd_pos n = leg_pos p a b x /\ nd_vec n = leg_dir a b x.
  Proof.
    intros k a b p x A B P X.
    pose proof (Hbend _ _ _ A B) as BD. fold (pair_dogleg a b) in BD.
    assert (ST : 0 < st_md b - st_md a) by (eapply md_step_pos; eauto).
    destruct (Survey_xyz_len _ _ _ _ _ _ _ HS) as [_ LN].
    destruct (Req_dec x 0) as [->|X0].
    - rewrite Rplus_0_r. destruct (md_lookup_station _ _ _ _ _ _ _ k a p HS Hinc Hbend A P) as (n & h' & E & _ & PP & V & _).
      exists n, h'. rewrite leg_pos_0, leg_dir_0 by auto. auto.
    - destruct (Req_dec x (st_md b - st_md a)) as [->|X1].
      + replace (st_md a + (st_md b - st_md a)) with (st_md b) by ring.
        assert (Lk : (S k < length (sv_rows s))%nat) by (apply nth_error_Some; congruence).
        destruct (nth_error_some_lt _ (sv_nev s) (S k)) as [q Q]; [lia|].
        destruct (md_lookup_station _ _ _ _ _ _ _ (S k) b q HS Hinc Hbend B Q) as (n & h' & E & _ & PP & V & _).
        exists n, h'. rewrite leg_pos_end, leg_dir_end by auto. split; auto. split; auto. rewrite PP.
        apply (Survey_nev_step _ _ _ _ _ _ _ k a b p q HS); auto.
      + destruct (placed_lookup s sx sn k a b p (st_md a + x) (placed_survey _ _ _ _ _ _ HS) Hinc A B P ltac:(lra))
          as (n & E & _ & PP & V & _).
        replace (st_md a + x - st_md a) with x in PP, V by ring. exists n. eexists. split; [exact E|]. auto.
  Qed.

  Lemma leg_exists : forall d, st_md first <= d < st_md last -> exists k a b,
    nth_error (sv_rows s) k = Some a /\ nth_error (sv_rows s) (S k) = Some b /\ st_md a <= d < st_md b.
  Proof.
    intros d.
    assert (G : forall l f k0, nth_error l 0 = Some f -> (forall i x, nth_error l i = Some x -> nth_error (sv_rows s) (k0 + i) = Some x) ->
      forall z, nth_error l (pred (length l)) = Some z -> st_md f <= d < st_md z ->
      exists k a b, nth_error (sv_rows s) k = Some a /\ nth_error (sv_rows s) (S k) = Some b /\ st_md a <= d < st_md b).
    { induction l as [|a l IH]; intros f k0 F G z Z D; [discriminate|]. simpl in F. injection F; intro; subst a.
      destruct l as [|b l].
      - simpl in Z. assert (z = f) by congruence. subst. lra.
      - destruct (Rlt_le_dec d (st_md b)).
        + exists (k0 + 0)%nat, f, b. split; [apply G; auto|]. split; [|lra]. replace (S (k0 + 0)) with (k0 + 1)%nat by lia. apply G. reflexivity.
        + apply (IH b (S k0)) with (z := z); auto.
          * intros i x X. replace (S k0 + i)%nat with (k0 + S i)%nat by lia. apply G. exact X.
          * lra. }
    intro D. apply (G (sv_rows s) first 0%nat Hfirst ltac:(auto) last Hlast D).
  Qed.
  Lemma last_greatest : forall a, In a (sv_rows s) -> st_md a <= st_md last.
  Proof.
    intros a IA. apply In_nth_error in IA. destruct IA as (k & K). assert (Lk : (k < length (sv_rows s))%nat) by (apply nth_error_Some; congruence).
    destruct (Nat.eq_dec k (pred (length (sv_rows s)))) as [->|NK]; [assert (a = last) by congruence; subst; lra|].
    left. apply (si_lt (map st_md (sv_rows s)) k (pred (length (sv_rows s)))); auto; try lia; rewrite nth_error_map, ?K, ?Hlast; reflexivity.
  Qed.

  (** a survey made of stations on the course, with all the given ones *)
  Variables (t : survey) (h' : header) (trows : list row).
  Hypothesis HT : Survey h' trows false vzero vzero "meters" = Some t.
  Hypothesis Tcourse : Forall (course s) (sv_rows t).
  Hypothesis Tall : incl (sv_rows s) (sv_rows t).
  Hypothesis Tsort : never_decreasing (map st_md (sv_rows t)).
  Hypothesis Trange : forall a, In a (sv_rows t) -> st_md first <= st_md a <= st_md last.

  Lemma common_leg : forall i x y, nth_error (sv_rows t) i = Some x -> nth_error (sv_rows t) (S i) = Some y ->
    exists k a b, nth_error (sv_rows s) k = Some a /\ nth_error (sv_rows s) (S k) = Some b /\
      st_md a <= st_md x <= st_md y /\ st_md y <= st_md b.
  Proof.
    intros i x y X Y.
    assert (XY : st_md x <= st_md y).
    { apply (nd_le (map st_md (sv_rows t)) i (S i)); auto; rewrite nth_error_map, ?X, ?Y; reflexivity. }
    destruct (Trange x) as [X1 X2]; [eapply nth_error_In; eauto|]. destruct (Trange y) as [Y1 Y2]; [eapply nth_error_In; eauto|].
    destruct (Rlt_le_dec (st_md x) (st_md last)) as [L|L].
    - destruct (leg_exists (st_md x) ltac:(lra)) as (k & a & b & A & B & D). exists k, a, b. split; auto. split; auto. split; [lra|].
      destruct (nd_gap (map st_md (sv_rows t)) i (st_md x) (st_md y) (st_md b)); auto; try lra.
      + rewrite nth_error_map, X. reflexivity.
      + rewrite nth_error_map, Y. reflexivity.
      + apply in_map. apply Tall. eapply nth_error_In; eauto.
    - assert (L2 : (2 <= length (sv_rows s))%nat) by (apply Survey_inv in HS; tauto).
      destruct (nth_error_some_lt _ (sv_rows s) (pred (pred (length (sv_rows s))))) as [a A]; [lia|].
      exists (pred (pred (length (sv_rows s)))), a, last. split; auto.
      replace (S (pred (pred (length (sv_rows s))))) with (pred (length (sv_rows s))) by lia. split; auto.
      assert (st_md a <= st_md last) by (apply last_greatest; eapply nth_error_In; eauto). lra.
  Qed.
  Lemma start_shifted : exists x n hn, nth_error (sv_rows t) 0 = Some x /\ survey_interpolate_md s (st_md x) = NodeOk n hn /\
    nd_vec n = dir x /\ nd_pos n = sn /\ nth_error (sv_nev t) 0 = Some vzero.
  Proof.
    assert (L2 : (2 <= length (sv_rows t))%nat) by (apply Survey_inv in HT; tauto).
    destruct (nth_error_some_lt _ (sv_rows t) 0) as [x X]; [lia|].
    assert (E : st_md x = st_md first).
    { destruct (Trange x) as [X1 _]; [eapply nth_error_In; eauto|].
      assert (I : In first (sv_rows t)) by (apply Tall; eapply nth_error_In; eauto).
      apply In_nth_error in I. destruct I as (k & K).
      assert (st_md x <= st_md first); [|lra].
      apply (nd_le (map st_md (sv_rows t)) 0 k); auto; try lia; rewrite nth_error_map, ?X, ?K; reflexivity. }
    destruct (Survey_intervals _ _ _ _ _ _ _ HT) as (_ & N0 & _).
    destruct (Survey_intervals _ _ _ _ _ _ _ HS) as (_ & S0 & _).
    destruct (md_lookup_station _ _ _ _ _ _ _ 0 first sn HS Hinc Hbend Hfirst S0) as (n & hn & Q & _ & P & V & _).
    rewrite Forall_forall in Tcourse. destruct (Tcourse x) as (n' & hn' & Q' & V'); [eapply nth_error_In; eauto|].
    rewrite E in Q'. assert (n' = n) by congruence. subst n'.
    exists x, n, hn. rewrite E. auto.
  Qed.
  Lemma merged_positions : forall i x q, nth_error (sv_rows t) i = Some x -> nth_error (sv_nev t) i = Some q ->
    exists n hn, survey_interpolate_md s (st_md x) = NodeOk n hn /\ nd_vec n = dir x /\ q = vsub (nd_pos n) sn.
  Proof.
    destruct (Survey_xyz_len _ _ _ _ _ _ _ HT) as [_ LN]. destruct (Survey_xyz_len _ _ _ _ _ _ _ HS) as [_ LS].
    induction i as [|i IH]; intros x q X Q.
    - destruct start_shifted as (x' & n & hn & X' & E & V & P & N). assert (x' = x) by congruence. subst x'.
      exists n, hn. split; auto. split; auto. assert (q = vzero) by congruence. subst q. rewrite P. generalize sn. intros []; unf; apply V3_eq; simpl; ring.
    - assert (Li : (S i < length (sv_rows t))%nat) by (apply nth_error_Some; congruence).
      destruct (nth_error_some_lt _ (sv_rows t) i) as [w W]; [lia|].
      destruct (nth_error_some_lt _ (sv_nev t) i) as [q0 Q0]; [lia|].
      destruct (IH w q0 W Q0) as (n0 & hn0 & E0 & V0 & P0).
      destruct (common_leg i w x W X) as (k & a & b & A & B & D1 & D2).
      assert (Lk : (S k < length (sv_rows s))%nat) by (apply nth_error_Some; congruence).
      destruct (nth_error_some_lt _ (sv_nev s) k) as [p P]; [lia|].
      destruct (leg_query k a b p (st_md w - st_md a) A B P ltac:(lra)) as (n1 & h1 & E1 & P1 & V1).
      destruct (leg_query k a b p (st_md x - st_md a) A B P ltac:(lra)) as (n2 & h2 & E2 & P2 & V2).
      replace (st_md a + (st_md w - st_md a)) with (st_md w) in E1 by ring.
      replace (st_md a + (st_md x - st_md a)) with (st_md x) in E2 by ring.
      assert (n1 = n0) by congruence. subst n1.
      rewrite Forall_forall in Tcourse. destruct (Tcourse x) as (n3 & h3 & E3 & V3'); [eapply nth_error_In; eauto|].
      assert (n3 = n2) by congruence. subst n3.
      exists n2, h2. split; auto. split; auto.
      rewrite (Survey_nev_step _ _ _ _ _ _ _ i w x q0 q HT W X Q0 Q).
      pose proof (proj2 (leg_part p a b (st_md w - st_md a) (st_md x - st_md a) w x (Hbend _ _ _ A B)
        ltac:(eapply md_step_pos; eauto) ltac:(lra) ltac:(lra) ltac:(lra) ltac:(congruence) ltac:(lra) ltac:(congruence))) as LP.
      rewrite P2, <- LP, P0, P1. generalize sn, (leg_pos p a b (st_md w - st_md a)), (step_between w x). intros [] [] []. unf. apply V3_eq; simpl; ring.
  Qed.
End Path.

Lemma station_row_back : forall a, (let '(md, inc, azi) := station_row a in mkSt md inc azi) = a.
Proof. intros []. reflexivity. Qed.
Lemma grid_rows : forall h l sx sn unit s, h_ref h = RefGrid -> Survey h l false sx sn unit = Some s ->
  sv_rows s = map (fun r : row => let '(md, inc, azi) := r in mkSt md inc azi) l.
Proof.
  intros h l sx sn unit s G H. rewrite (Survey_rows _ _ _ _ _ _ _ H). apply map_ext. intros [[m i] z]. rewrite G. reflexivity.
Qed.

Lemma merged_survey : forall h rows deg sx sn s wb st t h' first last,
  Survey h rows deg sx sn "meters" = Some s ->
  strictly_increasing (map st_md (sv_rows s)) ->
  (forall i a b, nth_error (sv_rows s) i = Some a -> nth_error (sv_rows s) (S i) = Some b ->
     get_dogleg (st_inc a) (st_azi a) (st_inc b) (st_azi b) < PI) ->
  nth_error (sv_rows s) 0 = Some first -> nth_error (sv_rows s) (pred (length (sv_rows s))) = Some last ->
  add_survey_points s wb st = (inl t, h') ->
  sv_header t = h' /\ never_decreasing (map st_md (sv_rows t)) /\ incl (sv_rows s) (sv_rows t) /\
  (exists bottoms, map (fun x => s_bottom (snd x)) (a_sections wb ++ a_sections st) = map Some bottoms /\
     Permutation (map st_md (sv_rows t))
       (map st_md (sv_rows s) ++ map (Rmax (st_md first)) (absent (map st_md (sv_rows s)) bottoms))) /\
  length (sv_nev t) = length (sv_rows t) /\
  forall i a q, nth_error (sv_rows t) i = Some a -> nth_error (sv_nev t) i = Some q ->
    exists n hn, survey_interpolate_md s (st_md a) = NodeOk n hn /\
      nd_vec n = direction_nev (st_inc a) (st_azi a) /\ q = vsub (nd_pos n) sn.
Proof.
  intros h rows deg sx sn s wb st t h' first last HS Hinc Hbend HF HL H.
  unfold add_survey_points in H. rewrite <- map_app in H.
  set (l := map snd (a_sections wb ++ a_sections st)) in *.
  destruct (Classical_Prop.classic (exists ds, map s_bottom l = map Some ds /\ Forall (fun d => d <= st_md last) ds)) as [EX|NE].
  2: { exfalso. pose proof (queue_fails _ _ _ _ _ _ _ HS Hinc Hbend first last HF HL l (sv_header s) (or_introl eq_refl) NE) as F.
       destruct (queue s (sv_header s) l) as [[q|e] hq]; [|discriminate]. rewrite F in H. discriminate. }
  destruct EX as (ds & ED & FD).
  destruct (queue_ok _ _ _ _ _ _ _ HS Hinc Hbend first last HF HL l (sv_header s) (or_introl eq_refl) ltac:(eauto) ds ED) as (q & added & Q1 & Q2 & Q3 & Q4).
  rewrite Q1, Q2 in H.
  match type of H with context [Survey ?a ?b ?c ?d ?e ?f] => destruct (Survey a b c d e f) as [t0|] eqn:HT end; [|discriminate].
  injection H; intros H1 H2. subst t0.
  pose proof (Survey_inv _ _ _ _ _ _ _ HT) as (_ & SH & _).
  assert (RT : sv_rows t = map (fun r : row => let '(md, inc, azi) := r in mkSt md inc azi) (sorted_rows (map station_row (sv_rows s) ++ map station_row added))).
  { eapply grid_rows; [|exact HT]. reflexivity. }
  assert (PM : Permutation (sv_rows t) (sv_rows s ++ added)).
  { rewrite RT, sorted_perm, <- map_app, map_map. rewrite (map_ext _ (fun a => a) station_row_back), map_id. auto. }
  assert (NDT : never_decreasing (map st_md (sv_rows t))).
  { rewrite RT, map_map. rewrite (map_ext _ rmd) by (intros [[m i] z]; reflexivity). apply sorted_nd. }
  assert (ALL : incl (sv_rows s) (sv_rows t)).
  { intros a I. apply (Permutation_in a (Permutation_sym PM)). apply in_or_app. auto. }
  assert (TC : Forall (course s) (sv_rows t)).
  { apply Forall_forall. intros a I. apply (Permutation_in a PM) in I. apply in_app_or in I. destruct I as [I|I].
    - eapply station_course; eauto.
    - rewrite Forall_forall in Q4. auto. }
  assert (FL : st_md first <= st_md last) by (eapply last_greatest; eauto; eapply nth_error_In; eauto).
  assert (AD : forall d, In d (absent (map st_md (sv_rows s)) ds) -> In d ds).
  { clear. induction ds as [|d ds IH]; simpl; auto. intros x. destruct (in_dec _ _ _); simpl; firstorder. }
  assert (TR : forall a, In a (sv_rows t) -> st_md first <= st_md a <= st_md last).
  { intros a I. apply (Permutation_in a PM) in I. apply in_app_or in I. destruct I as [I|I].
    - split; [eapply first_least; eauto|eapply last_greatest; eauto].
    - apply (in_map st_md) in I. rewrite Q3 in I. apply in_map_iff in I. destruct I as (d & E & I). rewrite <- E.
      rewrite Forall_forall in FD. specialize (FD d (AD d I)). split; [apply Rmax_r|apply Rmax_lub; auto]. }
  split; [congruence|]. split; auto. split; auto. split.
  { exists ds. split; [rewrite <- ED; unfold l; rewrite map_map; reflexivity|].
    rewrite PM, map_app, Q3. rewrite (map_ext (fun d => Rmax d (st_md first)) (Rmax (st_md first))) by (intro; apply Rmax_comm). auto. }
  split. { apply (Survey_xyz_len _ _ _ _ _ _ _ HT). }
  intros i a q0 A Q0.
  exact (merged_positions h rows deg sx sn s HS Hinc Hbend first last HF HL t _ _ HT TC ALL NDT TR i a q0 A Q0).
Qed.

(** success and failure, and the header left behind *)
Lemma merged_outcome : forall h rows deg sx sn unit s wb st first last,
  Survey h rows deg sx sn unit = Some s ->
  strictly_increasing (map st_md (sv_rows s)) ->
  (forall i a b, nth_error (sv_rows s) i = Some a -> nth_error (sv_rows s) (S i) = Some b ->
     get_dogleg (st_inc a) (st_azi a) (st_inc b) (st_azi b) < PI) ->
  nth_error (sv_rows s) 0 = Some first -> nth_error (sv_rows s) (pred (length (sv_rows s))) = Some last ->
  let reachable := exists bottoms, map (fun x => s_bottom (snd x)) (a_sections wb ++ a_sections st) = map Some bottoms /\
     Forall (fun d => d <= st_md last) bottoms in
  ((exists t, fst (add_survey_points s wb st) = inl t) <-> unit = "meters"%string /\ reachable) /\
  (reachable -> snd (add_survey_points s wb st) =
     mkHeader RefGrid (h_convergence h) (h_declination h) (h_gsf h) (h_vs_azimuth h) (h_unit h)).
Proof.
  intros h rows deg sx sn unit s wb st first last HS Hinc Hbend HF HL reachable.
  pose proof (Survey_inv _ _ _ _ _ _ _ HS) as (U & SH & L2 & _ & UU & _).
  unfold add_survey_points. rewrite <- map_app.
  set (l := map snd (a_sections wb ++ a_sections st)).
  assert (RE : reachable <-> exists ds, map s_bottom l = map Some ds /\ Forall (fun d => d <= st_md last) ds).
  { unfold reachable, l. split; intros (ds & A & B); exists ds; split; auto; rewrite <- A, map_map; reflexivity. }
  destruct (Classical_Prop.classic reachable) as [EX|NE].
  2: { split; [|tauto]. split; [|tauto]. intros (t & T). exfalso. rewrite RE in NE.
       pose proof (queue_fails _ _ _ _ _ _ _ HS Hinc Hbend first last HF HL l (sv_header s) (or_introl eq_refl) NE) as F.
       destruct (queue s (sv_header s) l) as [[q|e] hq]; [|discriminate]. rewrite F in T. discriminate. }
  pose proof EX as EX'. rewrite RE in EX. destruct EX as (ds & ED & FD).
  destruct (queue_ok _ _ _ _ _ _ _ HS Hinc Hbend first last HF HL l (sv_header s) (or_introl eq_refl) ltac:(eauto) ds ED) as (q & added & Q1 & Q2 & Q3 & Q4).
  rewrite Q1, Q2.
  set (hq := if absent _ ds then sv_header s else set_grid (sv_header s)).
  assert (SG : set_grid hq = mkHeader RefGrid (h_convergence h) (h_declination h) (h_gsf h) (h_vs_azimuth h) (h_unit h)).
  { unfold hq. destruct (absent _ ds); unfold set_grid; simpl; rewrite SH; reflexivity. }
  set (rr := sorted_rows _).
  assert (LR : (2 <= length rr)%nat).
  { unfold rr. rewrite (Permutation_length (sorted_perm _)), app_length, !map_length. lia. }
  split.
  - destruct (Survey (set_grid hq) rr false vzero vzero "meters") as [t|] eqn:HT; simpl; rewrite ?HT; simpl.
    + assert (unit = "meters"%string).
      { apply Survey_inv in HT. destruct HT as (UT & _). rewrite SG in UT. simpl in UT. congruence. }
      split; [tauto|]. eauto.
    + split; [intros (t & T); discriminate|]. intros (UM & _). exfalso.
      assert (K : exists s0, Survey (set_grid hq) rr false vzero vzero "meters" = Some s0).
      { apply Survey_accepts. rewrite SG. simpl. split; [congruence|auto]. }
      destruct K as (s0 & K). congruence.
  - intros _. destruct (Survey (set_grid hq) rr false vzero vzero "meters") eqn:HT; simpl; rewrite ?HT; simpl; exact SG.
Qed.

Lemma first_at_spec : forall x l k, first_at x l = Some k <->
  nth_error l k = Some x /\ forall j y, (j < k)%nat -> nth_error l j = Some y -> y <> x.
Proof.
  induction l as [|y l IH]; intro k; simpl.
  - split; [discriminate|]. intros [H _]. destruct k; discriminate.
  - destruct (Req_EM_T y x) as [->|N].
    + split.
      * intro H. injection H; intro; subst k. split; auto. intros; lia.
      * intros [A B]. destruct k; auto. exfalso. apply (B 0%nat x); auto. lia.
    + destruct k as [|k].
      * split; [destruct (first_at x l); discriminate|]. intros [A _]. simpl in A. congruence.
      * destruct (first_at x l) as [j|] eqn:E; simpl.
        -- split.
           ++ intro H. injection H; intro; subst j. destruct (proj1 (IH k) eq_refl) as [A B]. split; auto.
              intros [|j] z L Z; simpl in Z; [congruence|]. apply (B j z); auto. lia.
           ++ intros [A B]. do 2 f_equal. enough (Some j = Some k) by congruence. apply IH. split; auto. intros i z L Z. apply (B (S i) z); auto. lia.
        -- split; [discriminate|]. intros [A B]. exfalso. enough (None = Some k) by discriminate. apply IH. split; auto. intros i z L Z. apply (B (S i) z); auto. lia.
Qed.
Lemma index_of_bottom : forall t b k, never_decreasing (map st_md (sv_rows t)) ->
  string_index t b = Some k <->
  exists j, k = S j /\ nth_error (map st_md (sv_rows t)) j = Some b /\
    forall i d, nth_error (map st_md (sv_rows t)) i = Some d -> (i < j)%nat <-> d < b.
Proof.
  intros t b k ND. unfold string_index. set (l := map st_md (sv_rows t)) in *. split.
  - destruct (first_at b l) as [j|] eqn:E; [|discriminate]. simpl. intro H. injection H; intro; subst k.
    apply first_at_spec in E. destruct E as [A B]. exists j. split; auto. split; auto. intros i d D. split.
    + intro L. assert (d <= b) by (apply (nd_le l i j); auto; lia). specialize (B i d L D). lra.
    + intro L. destruct (Nat.lt_ge_cases i j); auto. assert (b <= d) by (apply (nd_le l j i); auto). lra.
  - intros (j & -> & A & B). replace (first_at b l) with (Some j); auto. symmetry. apply first_at_spec. split; auto.
    intros i d L D E. subst. apply (B i b) in L; auto. lra.
Qed.
