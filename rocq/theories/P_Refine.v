(** Proofs about stations added to a survey (IscwsaClearance.get_sf_mins). *)
Require Import Reals ZArith Bool String List Lra Lia Psatz.
Require Import Verif.Base Verif.NumPy Verif.P_Trig Verif.Spec Verif.Spec_Lists Verif.M_Utils Verif.P_Utils Verif.P_Utils2
  Verif.M_Survey Verif.P_Survey Verif.P_Survey2 Verif.P_Survey3 Verif.M_Error Verif.M_Clearance Verif.P_Clearance2 Verif.M_MaxCurve Verif.M_Refine.
Import ListNotations.
Open Scope R_scope.

(** ** lists *)
Lemma insert_nth_lt : forall A (l : list A) i x j, (j < i)%nat -> (i <= length l)%nat -> nth_error (insert_at i x l) j = nth_error l j.
Proof.
  intros A l i x j H L. unfold insert_at. rewrite nth_error_app1 by (rewrite firstn_length; lia).
  revert l i H L. induction j; intros [|a l] [|i] H L; simpl in *; try lia; auto. apply IHj; lia.
Qed.
Lemma insert_nth_eq : forall A (l : list A) i x, (i <= length l)%nat -> nth_error (insert_at i x l) i = Some x.
Proof.
  intros A l i x L. unfold insert_at. rewrite nth_error_app2 by (rewrite firstn_length; lia).
  rewrite firstn_length, Nat.min_l by lia. rewrite Nat.sub_diag. reflexivity.
Qed.
Lemma insert_nth_gt : forall A (l : list A) i x j, (i <= j)%nat -> (i <= length l)%nat -> nth_error (insert_at i x l) (S j) = nth_error l j.
Proof.
  intros A l i x j H L. unfold insert_at. rewrite nth_error_app2 by (rewrite firstn_length; lia).
  rewrite firstn_length, Nat.min_l by lia. replace (S j - i)%nat with (S (j - i)) by lia. simpl.
  rewrite nth_error_skipn. f_equal. lia.
Qed.
Lemma insert_length : forall A (l : list A) i x, (i <= length l)%nat -> length (insert_at i x l) = S (length l).
Proof. intros A l i x L. unfold insert_at. rewrite app_length. simpl. rewrite firstn_length, skipn_length. lia. Qed.
Lemma insert_cons : forall A (a : A) l i x, insert_at (S i) x (a :: l) = a :: insert_at i x l.
Proof. reflexivity. Qed.
Lemma insert_split : forall A (pre post : list A) x, insert_at (length pre) x (pre ++ post) = pre ++ x :: post.
Proof. induction pre; intros; [reflexivity|]. simpl app. simpl length. rewrite insert_cons, IHpre. reflexivity. Qed.
Lemma insert_map : forall A B (f : A -> B) l i x, map f (insert_at i x l) = insert_at i (f x) (map f l).
Proof. intros. unfold insert_at. rewrite map_app. simpl. rewrite firstn_map, skipn_map. reflexivity. Qed.
Lemma remove_insert : forall A (l : list A) l' i q, without_entry i l' = l -> nth_error l' i = Some q -> l' = insert_at i q l.
Proof.
  intros A l l'. revert l. induction l' as [|a r IH]; intros l i q W N; [destruct i; discriminate|].
  destruct i; simpl in *; [injection N as <-; subst; reflexivity|].
  destruct l; [discriminate|]. injection W as <- W. rewrite insert_cons. f_equal. eauto.
Qed.
Lemma skipn_insert : forall A (l : list A) i x, (i <= length l)%nat -> skipn (S i) (insert_at i x l) = skipn i l.
Proof.
  intros A l i x L. revert l L. induction i; intros l L; [reflexivity|]. destruct l; [simpl in L; lia|].
  rewrite insert_cons. simpl in L. exact (IHi l ltac:(lia)).
Qed.
Lemma split_two : forall A (l : list A) k a b, nth_error l k = Some a -> nth_error l (S k) = Some b ->
  exists pre post, l = pre ++ a :: b :: post /\ length pre = k.
Proof.
  induction l as [|c l IH]; intros [|k] a b H H'; simpl in *; try discriminate.
  - destruct l; [discriminate|]. exists [], l. injection H as ->. simpl in H'. injection H' as ->. auto.
  - destruct (IH k a b H H') as (pre & post & -> & L). exists (c :: pre), post. simpl. auto.
Qed.

(** ** strictly increasing lists *)
Lemma si_tail : forall a l, strictly_increasing (a :: l) -> strictly_increasing l.
Proof. intros a [|b l] H; [exact I|]. apply H. Qed.
Lemma si_lt : forall l i j a b, strictly_increasing l -> nth_error l i = Some a -> nth_error l j = Some b -> (i < j)%nat -> a < b.
Proof.
  induction l as [|c l IH]; intros i j a b H A B L; [destruct i; discriminate|].
  destruct j; [lia|]. simpl in B. destruct i.
  - simpl in A. injection A as <-. destruct l as [|d l]; [destruct j; discriminate|].
    destruct H as [H1 H2]. destruct j; [simpl in B; injection B as <-; auto|].
    apply Rlt_trans with d; auto. apply (IH 0%nat (S j) d b); auto. lia.
  - simpl in A. apply (IH i j a b); auto. apply si_tail with c; auto. lia.
Qed.
Lemma si_intro : forall l, (forall i a b, nth_error l i = Some a -> nth_error l (S i) = Some b -> a < b) -> strictly_increasing l.
Proof.
  induction l as [|a l IH]; intro H; [exact I|]. destruct l as [|b l]; [exact I|].
  split; [apply (H 0%nat); reflexivity|]. apply IH. intros i c d. apply (H (S i)).
Qed.
Lemma si_insert : forall l k x a b, strictly_increasing l -> nth_error l k = Some a -> nth_error l (S k) = Some b -> a < x < b ->
  strictly_increasing (insert_at (S k) x l).
Proof.
  intros l k x a b H A B X. assert (Lk : (S k < length l)%nat) by (apply nth_error_Some; congruence).
  apply si_intro. intros i u v U V.
  destruct (Nat.lt_trichotomy i k) as [L|[L|L]].
  - rewrite insert_nth_lt in U, V by lia. apply (si_lt l i (S i)); auto.
  - subst i. rewrite insert_nth_lt in U by lia. rewrite insert_nth_eq in V by lia. injection V as <-. rewrite A in U. injection U as <-. lra.
  - destruct i; [lia|]. rewrite insert_nth_gt in V by lia. destruct (Nat.eq_dec i k) as [->|N].
    + rewrite insert_nth_eq in U by lia. injection U as <-. rewrite B in V. injection V as <-. lra.
    + rewrite insert_nth_gt in U by lia. apply (si_lt l i (S i)); auto.
Qed.
Lemma ss_left_between : forall l k a b v, strictly_increasing l -> nth_error l k = Some a -> nth_error l (S k) = Some b ->
  a < v < b -> searchsorted_left l v = S k.
Proof.
  induction l as [|c l IH]; intros k a b v H A B V; [destruct k; discriminate|]. simpl. destruct k.
  - simpl in A. injection A as ->. destruct l as [|d l]; [discriminate|]. simpl in B. injection B as ->.
    destruct (Rlt_dec a v); [|lra]. simpl. destruct (Rlt_dec b v); [lra|reflexivity].
  - destruct (Rlt_dec c v) as [L|L]; [f_equal; apply (IH k a b v); auto; apply si_tail with c; auto|].
    exfalso. simpl in A. pose proof (si_lt (c :: l) 0 (S k) c a H eq_refl A). assert (c < a) by (apply H0; lia). lra.
Qed.
Lemma ss_right_between : forall l k a b v, strictly_increasing l -> nth_error l k = Some a -> nth_error l (S k) = Some b ->
  a < v < b -> searchsorted_right l v = S k.
Proof.
  induction l as [|c l IH]; intros k a b v H A B V; [destruct k; discriminate|]. simpl. destruct k.
  - simpl in A. injection A as ->. destruct l as [|d l]; [discriminate|]. simpl in B. injection B as ->.
    destruct (Rle_dec a v); [|lra]. simpl. destruct (Rle_dec b v); [lra|reflexivity].
  - destruct (Rle_dec c v) as [L|L]; [f_equal; apply (IH k a b v); auto; apply si_tail with c; auto|].
    exfalso. simpl in A. pose proof (si_lt (c :: l) 0 (S k) c a H eq_refl A). assert (c < a) by (apply H0; lia). lra.
Qed.

(** ** one added station *)
Lemma dogleg_dir : forall a b a' b', dir a = dir a' -> dir b = dir b' -> pair_dogleg a b = pair_dogleg a' b'.
Proof.
  intros a b a' b' A B. unfold pair_dogleg.
  destruct (dogleg_angle (st_inc a) (st_azi a) (st_inc b) (st_azi b)) as [R1 C1].
  destruct (dogleg_angle (st_inc a') (st_azi a') (st_inc b') (st_azi b')) as [R2 C2].
  apply cos_inj_0_PI; auto. rewrite C1, C2. unfold dir in A, B. rewrite A, B. reflexivity.
Qed.
Lemma step_dir : forall a b a' b', dir a = dir a' -> dir b = dir b' -> st_md a = st_md a' -> st_md b = st_md b' ->
  step_between a b = step_between a' b'.
Proof. intros a b a' b' A B C D. rewrite !step_between_disp, A, B, C, D, (dogleg_dir a b a' b'); auto. Qed.

Definition placed (s : survey) (sx sn : V3) : Prop :=
  sv_xyz s = mc_list (sv_rows s) sx /\ sv_nev s = map (nev_of sx sn) (mc_list (sv_rows s) sx) /\
  (2 <= length (sv_rows s))%nat /\ (h_unit (sv_header s) = "meters")%string.
Definition bends_ok (l : list station) : Prop :=
  forall i a b, nth_error l i = Some a -> nth_error l (S i) = Some b -> pair_dogleg a b < PI.

Lemma placed_survey : forall h rows deg sx sn s, Survey h rows deg sx sn "meters" = Some s -> placed s sx sn.
Proof.
  intros h rows deg sx sn s H. apply Survey_inv in H. destruct H as (U & HH & L & _ & _ & X & N & _).
  repeat split; auto. rewrite HH. auto.
Qed.
Lemma placed_len : forall s sx sn, placed s sx sn -> length (sv_xyz s) = length (sv_rows s) /\ length (sv_nev s) = length (sv_rows s).
Proof. intros s sx sn (X & N & L & _). rewrite X, N, map_length, !mc_list_length by lia. auto. Qed.

Lemma grid_rows_back : forall h l sx sn unit s, Survey (grid_reference h) (rows_of l) false sx sn unit = Some s -> sv_rows s = l.
Proof.
  intros h l sx sn unit s H. rewrite (Survey_rows _ _ _ _ _ _ _ H). unfold rows_of. rewrite map_map. simpl.
  rewrite <- (map_id l) at 2. apply map_ext. intros [m i a]. reflexivity.
Qed.
(** a station list, its start and its unit give the positions *)
Lemma rebuilt : forall h l sx sn, (h_unit h = "meters")%string -> (2 <= length l)%nat ->
  exists s, Survey (grid_reference h) (rows_of l) false sx sn "meters" = Some s /\ placed s sx sn /\ sv_rows s = l /\ sv_header s = grid_reference h.
Proof.
  intros h l sx sn U L.
  destruct (Survey_total (grid_reference h) (rows_of l) false sx sn) as [s HS].
  { left. exact U. }
  { unfold rows_of. rewrite map_length. auto. }
  simpl in HS. rewrite U in HS. exists s. split; auto. split; [eapply placed_survey; eauto|].
  split; [eapply grid_rows_back; eauto|]. apply Survey_inv in HS. tauto.
Qed.
Lemma placed_steps : forall s sx sn k a b p q, placed s sx sn ->
  nth_error (sv_rows s) k = Some a -> nth_error (sv_rows s) (S k) = Some b ->
  nth_error (sv_nev s) k = Some p -> nth_error (sv_nev s) (S k) = Some q -> q = vadd p (step_between a b).
Proof.
  intros s sx sn k a b p q (X & N & L & U) A B P Q.
  destruct (rebuilt (sv_header s) (sv_rows s) sx sn U L) as (z & HZ & (X' & N' & _ & _) & R & _).
  apply (Survey_nev_step _ _ _ _ _ _ _ k a b p q HZ); rewrite ?R, ?N', ?R, <- ?N; auto.
Qed.
Lemma placed_hd : forall s sx sn, placed s sx sn -> hd vzero (sv_xyz s) = sx /\ hd vzero (sv_nev s) = sn.
Proof.
  intros s sx sn (X & N & L & U). rewrite X, N. destruct (sv_rows s) as [|a l]; [simpl in L; lia|].
  rewrite mc_list_path. simpl. split; [destruct l; reflexivity|]. destruct l; simpl in L; [lia|].
  simpl. unfold nev_of, get_nev. unf. destruct sx, sn. apply V3_eq; simpl; ring.
Qed.
Lemma placed_lookup : forall s sx sn k a b p md, placed s sx sn -> strictly_increasing (map st_md (sv_rows s)) ->
  nth_error (sv_rows s) k = Some a -> nth_error (sv_rows s) (S k) = Some b -> nth_error (sv_nev s) k = Some p ->
  st_md a < md < st_md b ->
  exists n, survey_interpolate_md s md = NodeOk n (grid_reference (sv_header s)) /\ nd_md n = md /\
    nd_pos n = interpolate_pos_nev p a b (md - st_md a) /\ nd_vec n = dir (interp_station a b (md - st_md a)) /\ nd_interp n = true.
Proof.
  intros s sx sn k a b p md HP HI A B P M.
  assert (Lk : (S k < length (sv_rows s))%nat) by (apply nth_error_Some; congruence).
  destruct (placed_len _ _ _ HP) as [LX LN].
  destruct (nth_error_some_lt _ (sv_xyz s) k) as [xyz X]; [lia|].
  destruct HP as (_ & _ & _ & U).
  destruct (interpolate_at_node s (md - st_md a) k a b xyz p A B X P (or_introl U)) as (r & h & n & I & N & H & D & PP & V & F).
  assert (MA : nth_error (map st_md (sv_rows s)) k = Some (st_md a)) by (rewrite nth_error_map, A; reflexivity).
  assert (MB : nth_error (map st_md (sv_rows s)) (S k) = Some (st_md b)) by (rewrite nth_error_map, B; reflexivity).
  exists n. unfold survey_interpolate_md, interpolate_md. rewrite (ss_left_between _ k _ _ md HI MA MB M), map_length.
  destruct (Nat.leb_spec (length (sv_rows s)) (S k)); [lia|].
  rewrite (nth_error_nth (map st_md (sv_rows s)) k 0 MA), I, N, H, D, PP, V. repeat split; auto; [ring|].
  destruct (nd_interp n); auto. exfalso. destruct F as [F _]. specialize (F eq_refl). lra.
Qed.

Lemma add_one : forall s cov rad sx sn k a b p md rb, placed s sx sn -> strictly_increasing (map st_md (sv_rows s)) ->
  bends_ok (sv_rows s) ->
  nth_error (sv_rows s) k = Some a -> nth_error (sv_rows s) (S k) = Some b -> nth_error (sv_nev s) k = Some p ->
  nth_error rad (S k) = Some rb -> st_md a < md < st_md b ->
  exists s' m q, add_station (mkWell s cov rad) md = Some (mkWell s' (insert_at (S k) mzero cov) (insert_at (S k) rb rad)) /\
    placed s' sx sn /\ sv_header s' = grid_reference (sv_header s) /\
    sv_rows s' = insert_at (S k) m (sv_rows s) /\ sv_nev s' = insert_at (S k) q (sv_nev s) /\
    sv_interpolated s' = insert_at (S k) true (sv_interpolated s) /\
    st_md m = md /\ dir m = dir (interp_station a b (md - st_md a)) /\ q = interpolate_pos_nev p a b (md - st_md a) /\
    strictly_increasing (map st_md (sv_rows s')) /\ bends_ok (sv_rows s').
Proof.
  intros s cov rad sx sn k a b p md rb HP HI HB A B P RB M.
  destruct (placed_lookup s sx sn k a b p md HP HI A B P M) as (n & LK & N1 & N2 & N3 & _).
  destruct (placed_hd _ _ _ HP) as [HX HN]. destruct (placed_len _ _ _ HP) as [LX LN].
  assert (MA : nth_error (map st_md (sv_rows s)) k = Some (st_md a)) by (rewrite nth_error_map, A; reflexivity).
  assert (MB : nth_error (map st_md (sv_rows s)) (S k) = Some (st_md b)) by (rewrite nth_error_map, B; reflexivity).
  assert (Lk : (S k < length (sv_rows s))%nat) by (apply nth_error_Some; congruence).
  set (x := md - st_md a) in *. set (j := interp_station a b x) in *.
  assert (UJ : is_unit (dir j)) by apply direction_unit.
  assert (GA := get_angles_direction (dir j) (unit_nonzero _ UJ)). rewrite (vunit_unit _ UJ) in GA.
  destruct (get_angles true (dir j)) as [inc azi] eqn:G.
  set (m := mkSt md inc azi).
  destruct (rebuilt (sv_header s) (insert_at (S k) m (sv_rows s)) sx sn) as (z & HZ & PZ & RZ & ZH).
  { apply HP. }
  { rewrite insert_length; lia. }
  assert (DJ : dir m = dir j) by exact GA.
  assert (Ht : pair_dogleg a b < PI) by (apply (HB k); auto).
  assert (JM : st_md j = md). { unfold j, interp_station. destruct (interp_angles a b x). simpl. unfold x. ring. }
  assert (SP : vadd (step_between a m) (step_between m b) = step_between a b).
  { rewrite (step_dir a m a j), (step_dir m b j b) by auto. apply step_split; auto; unfold x; lra. }
  assert (NR : sv_nev z = insert_at (S k) (interpolate_pos_nev p a b x) (sv_nev s)).
  { destruct (split_two _ _ _ _ _ A B) as (pre & post & E & LP).
    assert (E' : insert_at (S k) m (sv_rows s) = pre ++ a :: m :: b :: post).
    { rewrite E. replace (pre ++ a :: b :: post) with ((pre ++ [a]) ++ b :: post) by (rewrite <- app_assoc; reflexivity).
      replace (S k) with (length (pre ++ [a])) by (rewrite app_length; simpl; lia).
      rewrite insert_split, <- app_assoc. reflexivity. }
    destruct PZ as (_ & NZ & _ & _). destruct HP as (_ & NS & _ & _).
    assert (W : without_entry (S k) (sv_nev z) = sv_nev s).
    { rewrite NZ, NS, RZ, E', E. rewrite (mc_insert pre a m b post sx SP), LP.
      generalize (mc_list (pre ++ a :: m :: b :: post) sx). generalize (S k). clear.
      intros i l. revert i. induction l; intros [|i]; simpl; auto. f_equal. apply IHl. }
    destruct (nth_error_some_lt _ (sv_nev z) (S k)) as [q Q].
    { destruct (placed_len _ _ _ (placed_survey _ _ _ _ _ _ HZ)) as [_ L2]. rewrite L2, RZ, insert_length; lia. }
    assert (Q0 : nth_error (sv_nev z) k = Some p).
    { rewrite (remove_insert _ _ _ _ _ W Q). rewrite insert_nth_lt by lia. auto. }
    rewrite (remove_insert _ _ _ _ _ W Q). f_equal.
    rewrite (placed_steps z sx sn k a m p q (placed_survey _ _ _ _ _ _ HZ)); auto.
    - rewrite interpolate_pos_nev_step. f_equal. apply step_dir; auto.
    - rewrite RZ, insert_nth_lt by lia. auto.
    - rewrite RZ, insert_nth_eq by lia. auto. }
  exists (mkSurvey (sv_header z) (sv_rows z) (sv_azi_true z) (sv_azi_mag z) (sv_dogleg z)
            (sv_delta_md z) (sv_xyz z) (sv_nev z) (sv_pos_nev z) (insert_at (S k) true (sv_interpolated s))), m, (interpolate_pos_nev p a b x).
  split.
  { unfold add_station. cbn [w_survey w_cov w_radius]. rewrite LK, (ss_right_between _ k _ _ md HI MA MB M), N3, N1, (vunit_unit _ UJ), G, RB, HX, HN.
    replace (grid_reference (grid_reference (sv_header s))) with (grid_reference (sv_header s)) by reflexivity.
    replace (insert_at (S k) (md, inc, azi) (rows_of (sv_rows s))) with (rows_of (insert_at (S k) m (sv_rows s))) by (unfold rows_of; rewrite insert_map; reflexivity).
    rewrite HZ. reflexivity. }
  simpl. split; [exact PZ|]. split; auto. split; auto. split; auto. split; auto. split; auto. split; auto. split; auto.
  rewrite RZ. split.
  - rewrite insert_map. apply (si_insert _ k _ (st_md a) (st_md b)); auto.
  - assert (D2 : pair_dogleg a m < PI /\ pair_dogleg m b < PI).
    { rewrite (dogleg_dir a m a j), (dogleg_dir m b j b) by auto.
      destruct (dogleg_angle (st_inc a) (st_azi a) (st_inc b) (st_azi b)) as [T0 _]. fold (pair_dogleg a b) in T0.
      destruct (Req_EM_T (pair_dogleg a b) 0) as [Z|Z].
      - assert (DA : dir j = dir a). { unfold j, interp_station, interp_angles. destruct (Req_EM_T (pair_dogleg a b) 0); [reflexivity|lra]. }
        assert (DB : dir a = dir b) by (apply dogleg_0_iff; auto).
        assert (ZA : pair_dogleg a a = 0) by (apply dogleg_0_iff; reflexivity).
        rewrite (dogleg_dir a j a a), (dogleg_dir j b a a) by congruence. pose proof PI_RGT_0. lra.
      - destruct (interp_doglegs a b x) as [D1 D2]; [lra|lra|unfold x; lra|]. fold j in D1, D2. rewrite D1, D2.
        assert (0 <= x * (pair_dogleg a b / (st_md b - st_md a)) <= pair_dogleg a b).
        { assert (0 < pair_dogleg a b / (st_md b - st_md a)) by (apply Rdiv_lt_0_compat; lra).
          split; [unfold x; nra|]. replace (pair_dogleg a b) with ((st_md b - st_md a) * (pair_dogleg a b / (st_md b - st_md a))) at 2 by (field; lra).
          apply Rmult_le_compat_r; [lra|unfold x; lra]. }
        lra. }
    intros i u v UU VV. destruct (Nat.lt_trichotomy i k) as [L|[L|L]].
    + rewrite insert_nth_lt in UU, VV by lia. apply (HB i); auto.
    + subst i. rewrite insert_nth_lt in UU by lia. rewrite insert_nth_eq in VV by lia. injection VV as <-. rewrite A in UU. injection UU as <-. tauto.
    + destruct i; [lia|]. rewrite insert_nth_gt in VV by lia. destruct (Nat.eq_dec i k) as [->|NE].
      * rewrite insert_nth_eq in UU by lia. injection UU as <-. rewrite B in VV. injection VV as <-. tauto.
      * rewrite insert_nth_gt in UU by lia. apply (HB i); auto.
Qed.
