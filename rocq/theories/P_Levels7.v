(** interpolate_survey_tvd, whole. *)
Require Import Reals ZArith Bool String List Lra Lia Psatz.
Require Import Verif.Base Verif.NumPy Verif.P_Trig Verif.Spec Verif.Spec_Lists Verif.M_Utils
  Verif.P_Utils Verif.P_Utils2 Verif.P_Utils3 Verif.M_Connector
  Verif.M_Survey Verif.P_Survey Verif.P_Survey2
  Verif.P_Survey3 Verif.P_Survey4 Verif.P_Tvd Verif.Spec_Refine Verif.P_Refine Verif.P_Refine3 Verif.M_Levels Verif.P_Levels Verif.P_Levels2 Verif.P_Levels3
  Verif.Spec_Levels Verif.P_Levels4 Verif.P_Levels5 Verif.P_Levels6.
Import ListNotations.
Open Scope R_scope.

Lemma combine_nth : forall (A B : Type) (l : list A) (m : list B) i a b, nth_error (combine l m) i = Some (a, b) <->
  nth_error l i = Some a /\ nth_error m i = Some b.
Proof.
  induction l as [|u l IH]; intros [|v m] [|i] a b; simpl.
  - split; [discriminate|intros [X _]; discriminate].
  - split; [discriminate|intros [X _]; discriminate].
  - split; [discriminate|intros [X _]; discriminate].
  - split; [discriminate|intros [X _]; discriminate].
  - split; [discriminate|intros [_ X]; discriminate].
  - split; [discriminate|intros [_ X]; discriminate].
  - split; [intro X; injection X as <- <-; auto|intros [X Y]; congruence].
  - apply IH.
Qed.
Lemma chained_suffix : forall s l x k, (forall i y, nth_error (x :: l) i = Some y -> nth_error (combine (sv_rows s) (sv_nev s)) (k + i) = Some y) ->
  chained s x l.
Proof.
  intros s. induction l as [|y l IH]; intros x k H; [exact I|].
  split.
  - exists k. pose proof (H 0%nat x eq_refl) as HX. pose proof (H 1%nat y eq_refl) as HY.
    rewrite Nat.add_0_r in HX. rewrite Nat.add_1_r in HY. destruct x, y.
    apply combine_nth in HX. apply combine_nth in HY. simpl. tauto.
  - apply (IH y (S k)). intros i z E. rewrite <- (H (S i) z E). f_equal. lia.
Qed.

Section Result.
Variables (h : header) (rows : list row) (deg : bool) (sx sn : V3) (s : survey) (start : option R) (step : R).
Hypothesis HS : Survey h rows deg sx sn "meters" = Some s.
Hypothesis S0 : 0 < step.
Definition first_level : R := match start with Some v => v | None => vz sn end.
Hypothesis SU : suits s first_level step.

Lemma survey_placed : placed s sx sn.
Proof. eapply placed_survey; eauto. Qed.
Lemma survey_pts : exists a l, combine (sv_rows s) (sv_nev s) = (a, sn) :: l /\ nth_error (sv_rows s) 0 = Some a /\ nth_error (sv_nev s) 0 = Some sn /\
  (1 <= length l)%nat /\ map fst ((a, sn) :: l) = sv_rows s /\ map snd ((a, sn) :: l) = sv_nev s.
Proof.
  pose proof survey_placed as PL. destruct (placed_len _ _ _ PL) as [_ LN]. destruct (placed_hd _ _ _ PL) as [_ HN].
  destruct PL as (_ & _ & L & _).
  assert (MF : forall (A B : Type) (l : list A) (m : list B), length l = length m -> map fst (combine l m) = l /\ map snd (combine l m) = m).
  { clear. induction l as [|u l IH]; intros [|v m] E; simpl in *; try discriminate; auto. destruct (IH m ltac:(lia)) as [-> ->]. auto. }
  destruct (sv_rows s) as [|a r]; [simpl in L; lia|]. destruct (sv_nev s) as [|p q]; [simpl in LN; lia|].
  simpl in HN. subst p. exists a, (combine r q). simpl in *. destruct (MF _ _ r q ltac:(lia)) as [-> ->].
  repeat split; auto. rewrite combine_length. lia.
Qed.
Lemma survey_turns : forall i a b, nth_error (sv_rows s) i = Some a -> nth_error (sv_rows s) (S i) = Some b ->
     get_dogleg (st_inc a) (st_azi a) (st_inc b) (st_azi b) < PI.
Proof.
  intros i a b A B. destruct (placed_len _ _ _ survey_placed) as [_ LN].
  assert (LL : (i < length (sv_rows s))%nat) by (apply nth_error_Some; congruence).
  destruct (nth_error_some_lt _ (sv_nev s) i) as [p P]; [lia|].
  destruct (SU i a b p A B P) as (_ & M & _). exact (drawn_dogleg a b (moderate_drawn _ _ _ _ M)).
Qed.
Lemma survey_rises : strictly_increasing (map st_md (sv_rows s)).
Proof. exact (rows_increasing s sx sn first_level step survey_placed SU). Qed.
Lemma station_node : forall x, In x (combine (sv_rows s) (sv_nev s)) ->
  exists h', survey_interpolate_md s (st_md (fst x)) = NodeOk (pnode x) h'.
Proof.
  intros [a p] IN. apply In_nth_error in IN. destruct IN as [i IN]. apply combine_nth in IN. destruct IN as [A P].
  destruct (md_lookup_station _ _ _ _ _ _ _ i a p HS survey_rises survey_turns A P) as (n & h' & E & M & PP & V & F).
  exists h'. simpl. rewrite E. f_equal. apply node_eq; auto.
Qed.
Lemma targets_are : forall l, incl l (combine (sv_rows s) (sv_nev s)) ->
  target_nodes s (map st_md (map fst l)) = Some (map pnode l).
Proof.
  induction l as [|x l IH]; intros IN; [reflexivity|]. simpl.
  destruct (station_node x) as [h' E]; [apply IN; left; auto|]. rewrite E, IH; auto. intros y Y. apply IN. right. auto.
Qed.

Definition level_points (nodes : list node) (r : survey) : Prop :=
  sv_rows r = map node_station nodes /\ sv_interpolated r = map nd_interp nodes /\ sv_nev r = map (fun n => vsub (nd_pos n) sn) nodes.
Lemma links_nev : forall r nodes n0, placed r vzero vzero -> sv_rows r = map node_station (n0 :: nodes) -> links n0 nodes ->
  sv_nev r = map (fun n => vsub (nd_pos n) (nd_pos n0)) (n0 :: nodes).
Proof.
  intros r nodes n0 PR RR LK.
  assert (ST : forall k p, nth_error (sv_nev r) k = Some p -> exists n, nth_error (n0 :: nodes) k = Some n /\ p = vsub (nd_pos n) (nd_pos n0)).
  { destruct (placed_len _ _ _ PR) as [_ LN]. rewrite RR, map_length in LN.
    assert (CN : forall k a b, nth_error (n0 :: nodes) k = Some a -> nth_error (n0 :: nodes) (S k) = Some b -> linked a b).
    { clear -LK. revert n0 LK. induction nodes as [|m l IH]; intros n0 LK [|k] a b A B; simpl in *; try discriminate; try (destruct k; discriminate).
      - injection A as <-. injection B as <-. tauto.
      - destruct LK as [_ LK]. apply (IH m LK k); auto. }
    induction k as [|k IH]; intros p P.
    - exists n0. split; auto. destruct (placed_hd _ _ _ PR) as [_ HN]. destruct (sv_nev r); [discriminate|]. simpl in *. injection P as <-. subst v.
      destruct (nd_pos n0). unf. apply V3_eq; simpl; ring.
    - assert (LL : (S k < length (sv_nev r))%nat) by (apply nth_error_Some; congruence).
      destruct (nth_error_some_lt _ (sv_nev r) k) as [q Q]; [lia|]. destruct (IH q Q) as (n & N & E).
      destruct (nth_error_some_lt _ (n0 :: nodes) (S k)) as [m M]; [rewrite <- LN; exact LL|].
      exists m. split; auto.
      rewrite (placed_steps r vzero vzero k (node_station n) (node_station m) q p PR); auto.
      + rewrite (CN k n m N M), E. set (d := step_between _ _). clearbody d. destruct (nd_pos n), (nd_pos n0), d. unf. apply V3_eq; simpl; ring.
      + rewrite RR, nth_error_map, N. reflexivity.
      + rewrite RR, nth_error_map, M. reflexivity. }
  destruct (placed_len _ _ _ PR) as [_ LN]. rewrite RR, map_length in LN.
  apply list_ext. intro k. destruct (nth_error (sv_nev r) k) as [p|] eqn:P.
  - destruct (ST k p P) as (n & N & ->). rewrite nth_error_map, N. reflexivity.
  - symmetry. apply nth_error_None. apply nth_error_None in P. rewrite map_length. lia.
Qed.

Lemma levels_run : exists a l gs r N,
  combine (sv_rows s) (sv_nev s) = (a, sn) :: l /\ run s first_level step first_level (a, sn) l gs /\
  level_points (pnode (a, sn) :: flatten gs l) r /\
  forall fuel, (N <= fuel)%nat -> interpolate_survey_tvd fuel s start step = LevelsOk r.
Proof.
  pose proof survey_placed as PL.
  destruct survey_pts as (a & l & CE & A0 & P0 & LL & MF & MS).
  assert (CH : chained s (a, sn) l). { apply (chained_suffix s l (a, sn) 0). intros i y E. rewrite CE. exact E. }
  destruct (legs_run s sx sn first_level step PL S0 SU l (a, sn) first_level [] CH (level_start _ _)) as (N & gs & RUN & EX).
  set (nodes := pnode (a, sn) :: flatten gs l).
  assert (UM : h_unit h = "meters"%string). { apply Survey_inv in HS. destruct HS as (U & _). auto. }
  assert (HH : sv_header s = h). { apply Survey_inv in HS. tauto. }
  assert (LN : (2 <= length nodes)%nat).
  { destruct l; [simpl in LL; lia|]. inversion RUN; subst. unfold nodes. simpl. rewrite app_length. simpl. lia. }
  set (hg := mkHeader RefGrid (h_convergence h) (h_declination h) (h_gsf h) (h_vs_azimuth h) (h_unit h)).
  destruct (Survey_total hg (map (fun n => let st := node_station n in (st_md st, st_inc st, st_azi st)) nodes) false vzero vzero) as [r HR].
  { left. exact UM. } { rewrite map_length. auto. }
  change (h_unit hg) with (h_unit h) in HR. rewrite UM in HR.
  assert (RR : sv_rows r = map node_station nodes).
  { rewrite (Survey_rows _ _ _ _ _ _ _ HR), map_map. apply map_ext. intro n. cbn. destruct (node_station n). reflexivity. }
  exists a, l, gs, (mkSurvey (sv_header r) (sv_rows r) (sv_azi_true r) (sv_azi_mag r) (sv_dogleg r)
                          (sv_delta_md r) (sv_xyz r) (sv_nev r) (sv_pos_nev r) (map nd_interp nodes)), N.
  split; auto. split; auto. split.
  - split; [exact RR|]. split; [reflexivity|]. cbn [sv_nev].
    apply (links_nev r (flatten gs l) (pnode (a, sn))); auto.
    + eapply placed_survey; eauto.
    + eapply run_links; eauto.
  - intros fuel LF. destruct (EX fuel LF) as (T' & E). unfold interpolate_survey_tvd, level_nodes, first_node.
    rewrite A0, P0. rewrite <- MF. cbn [map tl fst]. rewrite targets_are.
    + assert (GV : mkNode (st_md a) sn (get_vec true 1 (st_inc a) (st_azi a)) false = pnode (a, sn)).
      { unfold pnode. cbn [fst snd]. f_equal. rewrite get_vec_spec by lra. reflexivity. }
      rewrite GV. cbn [pnode nd_pos snd]. fold first_level. rewrite E.
      rewrite rev_app_distr, rev_involutive. cbn [rev app]. fold nodes. unfold levels_survey. rewrite HH.
      fold hg.
      cbv zeta in HR. rewrite HR. reflexivity.
    + intros y Y. rewrite CE. right. auto.
Qed.
End Result.
