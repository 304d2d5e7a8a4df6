(** Proofs about control points: where they are and what they hold. *)
Require Import Reals ZArith Bool String List Lra Lia Psatz.
Require Import Verif.Base Verif.NumPy Verif.Spec Verif.Spec_Rates Verif.M_Utils Verif.M_Survey Verif.M_Connector Verif.M_Rates Verif.M_Sections Verif.Spec_Sections.
Require Import Verif.P_Trig Verif.P_Utils Verif.P_Utils2 Verif.P_Survey Verif.P_Survey3 Verif.P_Survey5 Verif.P_Rates Verif.P_Rates2 Verif.P_Rates3 Verif.P_Rates4 Verif.P_Splice2 Verif.Spec_Splice.
Import ListNotations.
Open Scope R_scope.

Lemma is_close_iff : forall r a x y, is_close r a x y = true <-> near r a x y.
Proof. intros. unfold is_close, near. destruct (Rle_dec _ _); split; auto; discriminate. Qed.
Lemma close_rows_iff : forall r a x y, close_rows r a x y = true <-> same_plane r a x y.
Proof.
  intros r a [u|] [v|]; simpl; try (split; [discriminate|tauto]); [|tauto].
  rewrite !andb_true_iff, !is_close_iff. tauto.
Qed.

Lemma breaks_spec : forall l k x, In x (breaks k l) <->
  exists i, x = S (k + i) /\ nth_error l i = Some false.
Proof.
  induction l as [|c l IH]; intros k x; simpl.
  - split; [tauto|]. intros (i & _ & H). destruct i; discriminate.
  - assert (X : In x (breaks (S k) l) <-> exists i, x = S (S k + i) /\ nth_error l i = Some false) by apply IH.
    destruct c; simpl; rewrite X; split.
    + intros (i & -> & H). exists (S i). split; [lia|auto].
    + intros (i & -> & H). destruct i as [|i]; [discriminate|]. exists i. split; [lia|auto].
    + intros [<-|(i & -> & H)]; [exists 0%nat; split; [lia|auto]|exists (S i); split; [lia|auto]].
    + intros (i & -> & H). destruct i as [|i]; [left; lia|right; exists i; split; [lia|auto]].
Qed.
Lemma breaks_ascending : forall l k, ascending (k :: breaks k l).
Proof.
  assert (W : forall l k k', (k' <= k)%nat -> ascending (k' :: breaks k l)).
  { induction l as [|c l IH]; intros k k' H; [exact I|]. simpl breaks. destruct c; [apply IH; lia|].
    split; [lia|]. apply IH. lia. }
  intros. apply W. lia.
Qed.
Lemma breaks_bound : forall l k x, In x (breaks k l) -> (k < x <= k + length l)%nat.
Proof.
  intros l k x H. apply breaks_spec in H. destruct H as (i & -> & H).
  assert (i < length l)%nat by (apply nth_error_Some; congruence). lia.
Qed.
Lemma ascending_app : forall l a b, ascending (a :: l) -> (forall x, In x (a :: l) -> (x < b)%nat) -> ascending ((a :: l) ++ [b]).
Proof.
  induction l as [|c l IH]; intros a b H L.
  - simpl. split; auto. apply L. left; auto.
  - destruct H as [H1 H2]. change ((a :: c :: l) ++ [b]) with (a :: (c :: l) ++ [b]).
    change ((c :: l) ++ [b]) with (c :: l ++ [b]). split; auto. apply (IH c b); auto. intros x Hx. apply L. right; auto.
Qed.

Lemma tl_nth' : forall (A : Type) (l : list A) k, nth_error (tl l) k = nth_error l (S k).
Proof. intros A [|a l] k; [destruct k; reflexivity|reflexivity]. Qed.
Lemma section_data_length : forall s, (1 <= length (sv_rows s))%nat -> length (section_data s) = (length (sv_rows s) - 1)%nat.
Proof.
  intros s L. unfold section_data, survey_curves. cbn [cv_normals cv_dls].
  unfold normals, dls_list. cbn [tl]. rewrite combine_length, !pairwise_length. lia.
Qed.
Lemma section_data_nth : forall s k a b, nth_error (sv_rows s) k = Some a -> nth_error (sv_rows s) (S k) = Some b ->
  nth_error (section_data s) k = Some (plane_normal a b, pair_dls (rate_length (h_unit (sv_header s))) a b).
Proof.
  intros s k a b A B. unfold section_data, survey_curves. cbn [cv_normals cv_dls]. unfold normals, dls_list. cbn [tl].
  apply combine_nth_error; apply pairwise_nth; auto.
Qed.

Lemma starts_ascending : forall s rtol atol dc, (2 <= length (sv_rows s))%nat -> ascending (section_starts s rtol atol dc).
Proof.
  intros s rtol atol dc L. unfold section_starts.
  set (l := pairwise _ _). assert (LL : length l = (length (sv_rows s) - 2)%nat).
  { unfold l. rewrite pairwise_length, section_data_length; lia. }
  change (0%nat :: breaks 0 l ++ [(length (sv_rows s) - 1)%nat]) with ((0%nat :: breaks 0 l) ++ [(length (sv_rows s) - 1)%nat]).
  apply ascending_app; [apply breaks_ascending|]. intros x [<-|H]; [lia|]. apply breaks_bound in H. lia.
Qed.
Lemma starts_first_last : forall s rtol atol dc, (2 <= length (sv_rows s))%nat ->
  hd_error (section_starts s rtol atol dc) = Some 0%nat /\
  hd_error (rev (section_starts s rtol atol dc)) = Some (length (sv_rows s) - 1)%nat.
Proof.
  intros s rtol atol dc L. split; [reflexivity|]. unfold section_starts.
  rewrite app_comm_cons, rev_app_distr. reflexivity.
Qed.
Lemma around_equal_iff : forall a b, around_equal a b = true <-> alike_rounded (around 2) a b.
Proof.
  intros [x| | |] [y| | |]; simpl; try (split; [discriminate|tauto]); try (split; [exact (fun _ => I)|exact (fun _ => eq_refl)]).
  apply Z.eqb_eq.
Qed.
Lemma starts_iff : forall s rtol atol dc k n1 n2 d1 d2, (2 <= length (sv_rows s))%nat -> (S (S k) < length (sv_rows s))%nat ->
  nth_error (cv_normals (survey_curves s)) k = Some n1 -> nth_error (cv_normals (survey_curves s)) (S k) = Some n2 ->
  nth_error (cv_dls (survey_curves s)) (S k) = Some d1 -> nth_error (cv_dls (survey_curves s)) (S (S k)) = Some d2 ->
  (In (S k) (section_starts s rtol atol dc) <->
   ~ (same_plane rtol atol n1 n2 /\ (dc = true -> alike_rounded (around 2) d1 d2))).
Proof.
  intros s rtol atol dc k n1 n2 d1 d2 L K N1 N2 D1 D2. unfold section_starts.
  set (l := pairwise _ _).
  assert (E : nth_error l k = Some (section_continuous rtol atol dc (n1, d1) (n2, d2))).
  { unfold l. apply pairwise_nth; unfold section_data; apply combine_nth_error; auto; rewrite tl_nth'; auto. }
  assert (I1 : In (S k) (0%nat :: breaks 0 l ++ [(length (sv_rows s) - 1)%nat]) <-> nth_error l k = Some false).
  { split.
    - intros [H|H]; [discriminate|]. apply in_app_iff in H. destruct H as [H|[H|[]]]; [|lia].
      apply breaks_spec in H. destruct H as (i & H1 & H2). replace k with i by lia. auto.
    - intro H. right. apply in_app_iff. left. apply breaks_spec. exists k. auto. }
  rewrite I1, E. unfold section_continuous. cbn [fst snd].
  assert (B : section_continuous rtol atol dc (n1, d1) (n2, d2) = true <-> same_plane rtol atol n1 n2 /\ (dc = true -> alike_rounded (around 2) d1 d2)).
  { unfold section_continuous. cbn [fst snd]. rewrite andb_true_iff, close_rows_iff. destruct dc.
    - rewrite around_equal_iff. intuition.
    - intuition discriminate. }
  unfold section_continuous in B. cbn [fst snd] in B. rewrite <- B.
  destruct (close_rows rtol atol n1 n2 && (if dc then around_equal d1 d2 else true)); split; intro H; try congruence.
Qed.

Lemma pairwise_nth_some : forall A B (f : A -> A -> B) l k x, nth_error (pairwise f l) k = Some x ->
  exists a b, nth_error l k = Some a /\ nth_error l (S k) = Some b /\ x = f a b.
Proof.
  intros A B f. induction l as [|a [|b l] IH]; intros k x H; try (destruct k; discriminate).
  destruct k as [|k]; [injection H as <-; exists a, b; auto|]. apply (IH k x H).
Qed.
Lemma sections_shape : forall s rtol atol dc,
  length (tl (get_sections s rtol atol dc)) = length (section_starts s rtol atol dc) /\
  hd_error (get_sections s rtol atol dc) = hd_error (tl (get_sections s rtol atol dc)).
Proof.
  intros s rtol atol dc. unfold get_sections. destruct (section_starts s rtol atol dc) as [|k r] eqn:E; [split; reflexivity|].
  cbn [tl hd_error]. split; auto. cbn [length]. rewrite pairwise_length. cbn [length]. lia.
Qed.
Lemma row_at_nth : forall s k a, nth_error (sv_rows s) k = Some a -> row_at s k = a.
Proof. intros. unfold row_at. apply nth_error_nth; auto. Qed.
Lemma nev_at_nth : forall s k a, nth_error (sv_nev s) k = Some a -> nev_at s k = a.
Proof. intros. unfold nev_at. apply nth_error_nth; auto. Qed.
Lemma sections_nth : forall s rtol atol dc i t, nth_error (tl (get_sections s rtol atol dc)) i = Some t ->
  (i = 0%nat /\ t = first_point s 0) \/
  exists j lb k, i = S j /\ nth_error (section_starts s rtol atol dc) j = Some lb /\
    nth_error (section_starts s rtol atol dc) (S j) = Some k /\ t = next_point s lb k.
Proof.
  intros s rtol atol dc i t H. unfold get_sections in H. unfold section_starts in *.
  set (ks := 0%nat :: breaks 0 _ ++ _) in *. destruct i as [|i].
  - left. injection H as <-. auto.
  - right. change (nth_error (pairwise (next_point s) ks) i = Some t) in H.
    apply pairwise_nth_some in H. destruct H as (lb & k & H1 & H2 & ->). exists i, lb, k. auto.
Qed.
Lemma sections_points : forall s rtol atol dc i k t a p,
  nth_error (section_starts s rtol atol dc) i = Some k -> nth_error (tl (get_sections s rtol atol dc)) i = Some t ->
  nth_error (sv_rows s) k = Some a -> nth_error (sv_nev s) k = Some p ->
  tp_md t = st_md a /\ tp_inc t = degrees (st_inc a) /\ tp_azi t = degrees (st_azi a) /\
  tp_location t = mkV (vy p) (vx p) (- vz p) /\ tp_tie_on t = false /\
  tp_method t = (if Nat.eqb i 0 then "2" else "920")%string.
Proof.
  intros s rtol atol dc i k t a p K T A P. destruct (sections_nth _ _ _ _ _ _ T) as [[-> ->]|(j & lb & k' & -> & L1 & L2 & ->)].
  - unfold section_starts in K. injection K as <-. unfold first_point. rewrite (row_at_nth _ _ _ A), (nev_at_nth _ _ _ P).
    cbn. auto 10.
  - rewrite L2 in K. injection K as ->. unfold next_point. rewrite (row_at_nth _ _ _ A), (nev_at_nth _ _ _ P).
    destruct (Req_EM_T _ _); cbn; auto 10.
Qed.

Lemma sections_rates : forall h rows deg sx sn unit s rtol atol dc i lb k t a b c,
  Survey h rows deg sx sn unit = Some s ->
  nth_error (section_starts s rtol atol dc) i = Some lb -> nth_error (section_starts s rtol atol dc) (S i) = Some k ->
  nth_error (tl (get_sections s rtol atol dc)) (S i) = Some t ->
  nth_error (sv_rows s) lb = Some a -> nth_error (sv_rows s) (S lb) = Some b -> nth_error (sv_rows s) k = Some c ->
  (heading b = heading a ->
     tp_dls t = Fin 0 /\ tp_toolface t = 0 /\ tp_build_rate t = Fin 0 /\ tp_turn_rate t = Fin 0) /\
  (heading b <> heading a -> st_md a < st_md c ->
     let per := (if String.eqb (h_unit h) "meters" then 30 else 100) / (st_md c - st_md a) in
     (forall d, nth_error (cv_dls (survey_curves s)) k = Some d -> tp_dls t = d) /\
     tp_build_rate t = Fin (Rabs (degrees (st_inc c) - degrees (st_inc a)) * per) /\
     exists w, tp_turn_rate t = Fin (w * per) /\
       let d := degrees (st_azi c) - degrees (st_azi a) in
       (Rabs d < 360 -> -180 <= w <= 180 /\ (w = d \/ w = d + 360 \/ w = d - 360))).
Proof.
  intros h rows deg sx sn unit s rtol atol dc i lb k t a b c HS K1 K2 T A B C.
  destruct (sections_nth _ _ _ _ _ _ T) as [[Q _]|(j & lb' & k' & Q & L1 & L2 & ->)]; [discriminate|].
  injection Q as <-. rewrite K1 in L1. injection L1 as <-. rewrite K2 in L2. injection L2 as <-.
  destruct (Survey_stations _ _ _ _ _ _ _ HS) as (HH & L0 & _ & _ & _ & _ & _ & LN & _).
  destruct (Survey_intervals _ _ _ _ _ _ _ HS) as (_ & _ & _ & _ & _ & ST).
  assert (E1 : exists p, nth_error (sv_nev s) lb = Some p).
  { destruct (nth_error (sv_nev s) lb) eqn:E; eauto. apply nth_error_None in E. assert (lb < length (sv_rows s))%nat by (apply nth_error_Some; congruence). lia. }
  assert (E2 : exists p, nth_error (sv_nev s) (S lb) = Some p).
  { destruct (nth_error (sv_nev s) (S lb)) eqn:E; eauto. apply nth_error_None in E. assert (S lb < length (sv_rows s))%nat by (apply nth_error_Some; congruence). lia. }
  destruct E1 as [p P], E2 as [q Q].
  destruct (ST _ _ _ _ _ A B P Q) as (_ & _ & dl & D & AB).
  assert (ND : nth (S lb) (sv_dogleg s) 0 = dl) by (apply nth_error_nth; auto).
  fold (heading a) in AB. fold (heading b) in AB.
  assert (UA : is_unit (heading a)) by apply direction_unit. assert (UB : is_unit (heading b)) by apply direction_unit.
  assert (Z : dl = 0 <-> heading b = heading a).
  { destruct AB as [AB1 AB2]. split.
    - intros ->. rewrite cos_0 in AB2. symmetry. apply unit_dot_1_eq; auto.
    - intro H. rewrite H, UA in AB2. assert (cos dl = cos 0) by (rewrite cos_0; auto). apply cos_inj_0_PI; try lra; auto. }
  unfold next_point. rewrite ND, (row_at_nth _ _ _ A), (row_at_nth _ _ _ C), HH.
  destruct (Req_EM_T dl 0) as [E|E]; cbn [tp_dls tp_toolface tp_build_rate tp_turn_rate].
  - split; [auto|]. intro X. exfalso. apply X. apply Z. auto.
  - split; [intro X; exfalso; apply E; apply Z; auto|]. intros _ LT.
    set (x := if String.eqb (h_unit h) "meters" then 30 else 100).
    cbv zeta. split; [intros d Hd; apply nth_error_nth; auto|]. split.
    + rewrite ediv_ne by lra. cbn [ext_mul_pos ext_scale eabs]. f_equal.
      assert (0 < x) by (unfold x; destruct (String.eqb (h_unit h) "meters"); lra).
      unfold Rdiv. rewrite !Rabs_mult. rewrite (Rabs_right (/ (st_md c - st_md a))), (Rabs_right x); try lra.
      left. apply Rinv_0_lt_compat. lra.
    + eexists. split.
      * rewrite ediv_ne by lra. cbn [ext_mul_pos ext_scale]. f_equal. instantiate (1 := wrap_azi (degrees (st_azi c) - degrees (st_azi a))). unfold Rdiv. ring.
      * set (d := degrees (st_azi c) - degrees (st_azi a)). intro Hd. apply Rabs_def2 in Hd.
        unfold wrap_azi. destruct (Rlt_dec d (-180)); [destruct (Rlt_dec 180 (d + 360)); lra|destruct (Rlt_dec 180 d); lra].
Qed.
