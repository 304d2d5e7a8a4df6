(** Covariances and radii of an interpolated survey, of the constructor. *)
Require Import Reals ZArith Bool String List Sorted Lra Lia Psatz.
Require Import Verif.Base Verif.NumPy Verif.Spec Verif.Spec_Lists Verif.M_Utils Verif.P_Trig Verif.P_Utils2 Verif.M_Survey Verif.M_Connector
  Verif.Spec_Connector Verif.P_Connector8 Verif.M_Splice Verif.Spec_Splice Verif.P_Splice3.
Import ListNotations.
Open Scope R_scope.

Lemma ssorted_strict : forall l, StronglySorted Rlt l -> strictly_increasing l.
Proof.
  induction l as [|a l IH]; intro H; [exact I|]. inversion H as [|? ? H1 H2]; subst.
  destruct l as [|b l]; [exact I|]. split; [inversion H2; auto|auto].
Qed.
Lemma ssorted_same : forall l l', StronglySorted Rlt l -> StronglySorted Rlt l' -> (forall x, In x l <-> In x l') -> l = l'.
Proof.
  induction l as [|a l IH]; intros [|b l'] H H' E.
  - reflexivity.
  - exfalso. apply (proj2 (E b)). left; auto.
  - exfalso. apply (proj1 (E a)). left; auto.
  - apply StronglySorted_inv in H. apply StronglySorted_inv in H'. destruct H as [H1 H2], H' as [H3 H4]. rewrite Forall_forall in H2, H4.
    assert (a = b).
    { destruct (proj1 (E a) (or_introl eq_refl)) as [->|A]; auto.
      destruct (proj2 (E b) (or_introl eq_refl)) as [->|B]; auto. specialize (H2 _ B). specialize (H4 _ A). lra. }
    subst b. f_equal. apply IH; auto. intro x. split; intro X.
    + destruct (proj1 (E x) (or_intror X)) as [->|]; auto. specialize (H2 _ X). lra.
    + destruct (proj2 (E x) (or_intror X)) as [->|]; auto. specialize (H4 _ X). lra.
Qed.

Theorem interpolated_covariances : forall dls s p svy rows cs rs, 0 < dls -> 0 < s -> (2 <= length svy)%nat ->
  strictly_increasing (map depth_of svy) -> no_reversal svy ->
  (forall x y, grid_depth dls s svy x -> grid_depth dls s svy y -> x < y -> 1 / 10000 < y - x) ->
  interpolate_survey dls p svy s = Some rows ->
  length cs = length svy -> length rs = length svy ->
  exists l, carry_covariances (map depth_of svy) cs rs 0 (map (fun r : R * V3 * bool => fst (fst r)) rows) = Some l /\
    length l = length rows /\
    forall j md d f q, nth_error rows j = Some (md, d, f) -> nth_error l j = Some q ->
      carried (map depth_of svy) cs rs md q.
Proof.
  intros dls s p svy rows cs rs Hd Hs Len S NR SEP ER LC LR.
  destruct (interpolated_survey dls s p svy Hd Hs Len S NR) as (rows' & E & X). rewrite E in ER. injection ER as ->.
  cbv zeta in X. destruct X as (SO & G & _).
  destruct (interpolated_survey_exact dls s p svy rows Hd Hs Len S NR SEP E) as (IN & _).
  set (D := map (fun r : R * V3 * bool => fst (fst r)) rows) in *.
  assert (INC : forall m, In m (map depth_of svy) -> In m D).
  { intros m Hm. apply in_map_iff in Hm. destruct Hm as (st & <- & Hs'). apply IN. left. exists st; auto. }
  assert (HD : hd_error D = hd_error (map depth_of svy)).
  { destruct svy as [|a l]; [cbn in Len; lia|]. cbn [map hd_error].
    assert (FI : forall x, In x D -> depth_of a <= x).
    { intros x Hx.
      assert (X := fun st (Z : In st (a :: l)) => si_bounds _ 0 (depth_of st) S (in_map depth_of _ _ Z)).
      destruct (G x Hx) as [(st & Is & ->)|[Q|(b & e & t & CO & _ & _ & B & _)]].
      - pose proof (X st Is). cbn [map hd] in *. lra.
      - apply inner_first_last in Q; auto. lra.
      - apply consecutive_in in CO. destruct CO as [CO _]. pose proof (X b CO). cbn [map hd] in *. lra. }
    assert (IA : In (depth_of a) D) by (apply INC; left; auto).
    destruct D as [|x D']; [destruct IA|]. cbn. f_equal. destruct IA as [A|A]; auto.
    inversion SO as [|? ? S1 S2]; subst. rewrite Forall_forall in S2. specialize (S2 _ A). specialize (FI x (or_introl eq_refl)). lra. }
  destruct (carry_all D (map depth_of svy) cs rs S (ssorted_strict _ SO)) as (l & C & L & SP);
    [rewrite map_length; auto|rewrite map_length; auto|auto|auto|].
  exists l. split; auto. split; [rewrite L; unfold D; apply map_length|].
  intros j md d f q Hj Hq. apply (SP j md q); auto. unfold D.
  apply (map_nth_error (fun r : R * V3 * bool => fst (fst r))) in Hj. exact Hj.
Qed.

(** a station within rounding of a multiple of the step is dropped; from there on
    the wrong stations are used *)
Definition lost_svy : list (R * R * R) := [(0, 0, 0); (30 + 1 / 100000, 0, 0); (60, 0, 0); (90, 0, 0)].
Lemma lost_rows : exists rows, interpolate_survey (1 / 100000000) vzero lost_svy 15 = Some rows /\
  map (fun r : R * V3 * bool => fst (fst r)) rows = [0; 15; 30; 45; 60; 75; 90].
Proof.
  assert (S : strictly_increasing (map depth_of lost_svy)) by (cbn; lra).
  assert (DN : forall st, In st lost_svy -> heading_of st = mkV 0 0 1).
  { cbn. intros st [<-|[<-|[<-|[<-|[]]]]]; apply heading_down. }
  assert (N : no_reversal lost_svy) by (apply vertical_no_reversal; auto).
  destruct (survey_rows (1 / 100000000) 15 vzero lost_svy ltac:(lra) ltac:(lra) ltac:(cbn; lia) S N)
    as (cs & rows & E & _ & SO & _ & G & CV & D).
  eexists. split; [exact E|]. rewrite map_map. cbn [fst]. change (map (fun x : R * V3 => fst x) rows) with (map fst rows).
  assert (MU : forall k : Z, (0 < k < 6)%Z -> inner_multiple 15 lost_svy (IZR k * 15)).
  { intros k K. apply inner_first_last; auto. split.
    - cbn. assert (0 < IZR k) by (apply IZR_lt; lia). assert (IZR k < 6) by (apply (IZR_lt k 6); lia). lra.
    - exists k. ring. }
  assert (KEY : forall k : Z, md_key (IZR k * 15) = (k * 15 * 10000)%Z).
  { intro k. replace (IZR k * 15) with (IZR (k * 15) + 0) by (rewrite mult_IZR; ring). apply md_key_near. lra. }
  assert (K30 : md_key (30 + 1 / 100000) = (30 * 10000)%Z) by (apply (md_key_near 30); lra).
  assert (GR : forall x, In x (map fst rows) -> exists k : Z, (0 <= k <= 6)%Z /\ x = IZR k * 15).
  { intros x Hx. destruct (G x Hx) as [(st & I & ->)|[Q|(a & b & t & C & A & T & B & Q)]].
    - cbn in I. destruct I as [<-|[<-|[<-|[<-|[]]]]]; cbn.
      + exists 0%Z. split; [lia|ring].
      + exfalso. revert Hx. cbn [depth_of fst]. apply (D (30 + 1 / 100000) (IZR 2 * 15)).
        * right. apply MU. lia.
        * lra.
        * rewrite K30, KEY. reflexivity.
      + exists 4%Z. split; [lia|ring].
      + exists 6%Z. split; [lia|ring].
    - apply inner_first_last in Q; auto. destruct Q as [B (k & ->)]. cbn in B. exists k. split; [|ring].
      split; [assert (0 < k)%Z by (apply lt_IZR; lra); lia|assert (k < 6)%Z by (apply lt_IZR; lra); lia].
    - exfalso. apply consecutive_in in C. destruct C as [Ca Cb]. rewrite (DN _ Ca), (DN _ Cb) in A. destruct A as [A1 A2].
      assert (t = 0); [|lra]. apply cos_inj_0_PI; try lra. rewrite cos_0, A2. unfold dot. cbn. ring. }
  assert (ALL : forall k : Z, (0 <= k <= 6)%Z -> In (IZR k * 15) (map fst rows)).
  { intros k K. destruct (CV (IZR k * 15)) as (y & Iy & Ky).
    - assert (k = 0 \/ k = 6 \/ 0 < k < 6)%Z as [->|[->|L]] by lia.
      + left. exists (0, 0, 0). split; [left; auto|cbn; ring].
      + left. exists (90, 0, 0). split; [cbn; auto|cbn; ring].
      + right. apply MU; auto.
    - destruct (GR y Iy) as (k' & _ & ->). rewrite !KEY in Ky. assert (k = k') by lia. subst. auto. }
  apply ssorted_same; auto.
  - repeat constructor; lra.
  - intro x. split.
    + intro Hx. destruct (GR x Hx) as (k & K & ->).
      assert (k = 0 \/ k = 1 \/ k = 2 \/ k = 3 \/ k = 4 \/ k = 5 \/ k = 6)%Z as [->|[->|[->|[->|[->|[->| ->]]]]]] by lia; cbn;
        [left|right; left|do 2 right; left|do 3 right; left|do 4 right; left|do 5 right; left|do 6 right; left]; lra.
    + cbn. intros [<-|[<-|[<-|[<-|[<-|[<-|[<-|[]]]]]]]].
      * replace 0 with (IZR 0 * 15) by ring. apply ALL; lia.
      * replace 15 with (IZR 1 * 15) by ring. apply ALL; lia.
      * replace 30 with (IZR 2 * 15) by ring. apply ALL; lia.
      * replace 45 with (IZR 3 * 15) by ring. apply ALL; lia.
      * replace 60 with (IZR 4 * 15) by ring. apply ALL; lia.
      * replace 75 with (IZR 5 * 15) by ring. apply ALL; lia.
      * replace 90 with (IZR 6 * 15) by ring. apply ALL; lia.
Qed.
Lemma in_mds_lost : forall x, in_mds (map depth_of lost_svy) x =
  if Req_EM_T 0 x then true else if Req_EM_T (30 + 1 / 100000) x then true
  else if Req_EM_T 60 x then true else if Req_EM_T 90 x then true else false.
Proof.
  intro x. unfold in_mds. cbn. destruct (Req_EM_T 0 x); auto. destruct (Req_EM_T (30 + 1 / 100000) x); auto.
  destruct (Req_EM_T 60 x); auto. destruct (Req_EM_T 90 x); auto.
Qed.
Theorem lost_station_refuted : exists dls s p svy rows cs rs l r c, 0 < dls /\ 0 < s /\
  strictly_increasing (map depth_of svy) /\ no_reversal svy /\
  length cs = length svy /\ length rs = length svy /\ (forall c, In c cs -> psd c) /\
  interpolate_survey dls p svy s = Some rows /\
  carry_covariances (map depth_of svy) cs rs 0 (map (fun r : R * V3 * bool => fst (fst r)) rows) = Some l /\
  nth_error (map (fun r : R * V3 * bool => fst (fst r)) rows) 5 = Some 75 /\
  nth_error l 5 = Some (r, c) /\ ~ psd c /\ ~ carried (map depth_of svy) cs rs 75 (r, c).
Proof.
  destruct lost_rows as (rows & E & D).
  set (cs := [mzero; mid; mzero; mzero]). 
  assert (P : forall c, In c cs -> psd c).
  { intros c Hc v. assert (H : c = mzero \/ c = mid) by (cbn in Hc; intuition). destruct H as [->| ->].
    - rewrite qform_mzero. lra.
    - destruct v as [x y z]. unfold qform, mid, mv, dot. cbn. nra. }
  assert (S : strictly_increasing (map depth_of lost_svy)) by (cbn; lra).
  assert (NP : ~ psd (madd mid (mscale ((75 - (30 + 1 / 100000)) / (60 - (30 + 1 / 100000))) (msub mzero mid)))).
  { intro H. specialize (H (mkV 1 0 0)). rewrite qform_madd, qform_mscale, qform_msub, qform_mzero in H.
    replace (qform mid (mkV 1 0 0)) with 1 in H by (unfold qform, mid, mv, dot; cbn; ring).
    assert ((75 - (30 + 1 / 100000)) / (60 - (30 + 1 / 100000)) > 1); [|lra].
    apply Rmult_lt_reg_r with (60 - (30 + 1 / 100000)); [lra|]. unfold Rdiv. rewrite Rmult_assoc, Rinv_l; lra. }
  exists (1 / 100000000), 15, vzero, lost_svy, rows, cs, [1; 2; 3; 4].
  rewrite D. eexists. exists 2. eexists.
  split; [lra|]. split; [lra|]. split; [exact S|]. split.
  { apply vertical_no_reversal. cbn. intros st [<-|[<-|[<-|[<-|[]]]]]; apply heading_down. }
  split; [reflexivity|]. split; [reflexivity|]. split; [exact P|]. split; [exact E|].
  assert (Q : forall x b, in_mds (map depth_of lost_svy) x = b -> in_mds (map depth_of lost_svy) x = b) by auto.
  assert (I0 : in_mds (map depth_of lost_svy) 0 = true) by (apply in_mds_iff; cbn; auto).
  assert (I6 : in_mds (map depth_of lost_svy) 60 = true) by (apply in_mds_iff; cbn; auto).
  assert (I9 : in_mds (map depth_of lost_svy) 90 = true) by (apply in_mds_iff; cbn; auto).
  assert (F : forall x, x <> 0 -> x <> 30 + 1 / 100000 -> x <> 60 -> x <> 90 -> in_mds (map depth_of lost_svy) x = false).
  { intros x A B C G. rewrite in_mds_lost. destruct (Req_EM_T 0 x); [congruence|]. destruct (Req_EM_T (30 + 1 / 100000) x); [congruence|].
    destruct (Req_EM_T 60 x); [congruence|]. destruct (Req_EM_T 90 x); [congruence|]. reflexivity. }
  assert (F1 := F 15 ltac:(lra) ltac:(lra) ltac:(lra) ltac:(lra)). assert (F3 := F 30 ltac:(lra) ltac:(lra) ltac:(lra) ltac:(lra)).
  assert (F4 := F 45 ltac:(lra) ltac:(lra) ltac:(lra) ltac:(lra)). assert (F7 := F 75 ltac:(lra) ltac:(lra) ltac:(lra) ltac:(lra)).
  split.
  { cbn [carry_covariances]. rewrite I0, F1, F3, F4, I6, F7, I9. cbn -[madd mscale msub mid mzero Rdiv Rminus Rplus]. reflexivity. }
  split; [reflexivity|]. split; [cbn [nth_error]; reflexivity|]. split; [exact NP|].
  intro H. apply NP. exact (carried_psd _ _ _ _ _ P H).
Qed.

(** covariances of the constructor *)
Theorem given_neither : forall rows start, given_covariances rows None None start = (None, None).
Proof. intros rows [m|]; reflexivity. Qed.
Theorem given_one : forall rows nev hla start, (nev = None <-> hla <> None) ->
  (forall c, nev = Some c -> length c = length rows) -> (forall c, hla = Some c -> length c = length rows) ->
  exists n h, given_covariances rows nev hla start = (Some n, Some h) /\
    length n = length rows /\ length h = length rows /\
    forall i st, nth_error rows i = Some st -> exists a b, nth_error n i = Some a /\ nth_error h i = Some b /\
      b = NEV_to_HLA_cov (st_inc st) (st_azi st) a /\ a = HLA_to_NEV_cov (st_inc st) (st_azi st) b /\
      let shift := match start with Some m => m | None => mzero end in
      (forall c, nev = Some c -> exists x, nth_error c i = Some x /\ a = madd x shift) /\
      (forall c, hla = Some c -> exists x, nth_error c i = Some x /\
         a = madd (HLA_to_NEV_cov (st_inc st) (st_azi st) x) shift).
Proof.
  assert (Z : forall x, madd x mzero = x) by vring.
  assert (NX : forall {A B} (l : list A) (r : list B) i a, length r = length l -> nth_error l i = Some a -> exists b, nth_error r i = Some b).
  { intros A B l r i a L H. destruct (nth_error r i) as [b|] eqn:E; eauto. apply nth_error_None in E.
    assert (i < length l)%nat by (apply nth_error_Some; congruence). lia. }
  intros rows nev hla start X LN LH. destruct nev as [c|], hla as [c'|].
  - exfalso. assert (Some c = None) by (apply X; discriminate). discriminate.
  - specialize (LN c eq_refl). clear LH X. destruct start as [m|]; cbn [given_covariances].
    + eexists _, _. split; [reflexivity|]. rewrite rotate_length, !map_length by (rewrite map_length; auto). split; auto. split; auto.
      intros i st Hi. destruct (NX _ _ _ _ _ _ LN Hi) as (x & Hx).
      exists (madd x m), (NEV_to_HLA_cov (st_inc st) (st_azi st) (madd x m)).
      split; [exact (map_nth_error (fun y => madd y m) _ _ Hx)|]. split.
      { rewrite rotate_nth by (rewrite map_length; auto). rewrite Hi, (map_nth_error (fun y => madd y m) _ _ Hx). reflexivity. }
      split; auto. split; [symmetry; apply hla_cov_roundtrip|]. split; [|intros c0 Q; discriminate].
      intros c0 Q. injection Q as <-. exists x. auto.
    + eexists _, _. split; [reflexivity|]. rewrite rotate_length by auto. split; auto. split; auto.
      intros i st Hi. destruct (NX _ _ _ _ _ _ LN Hi) as (x & Hx).
      exists x, (NEV_to_HLA_cov (st_inc st) (st_azi st) x).
      split; auto. split. { rewrite rotate_nth by auto. rewrite Hi, Hx. reflexivity. }
      split; auto. split; [symmetry; apply hla_cov_roundtrip|]. split; [|intros c0 Q; discriminate].
      intros c0 Q. injection Q as <-. exists x. rewrite Z. auto.
  - specialize (LH c' eq_refl). clear LN X. destruct start as [m|]; cbn [given_covariances].
    + assert (L2 : length (map (fun x => madd x m) (rotate_rows HLA_to_NEV_cov rows c')) = length rows)
        by (rewrite map_length; apply rotate_length; auto).
      eexists _, _. split; [reflexivity|]. rewrite rotate_length by auto. split; auto. split; auto.
      intros i st Hi. destruct (NX _ _ _ _ _ _ LH Hi) as (x & Hx).
      set (a := madd (HLA_to_NEV_cov (st_inc st) (st_azi st) x) m).
      assert (HA : nth_error (map (fun x => madd x m) (rotate_rows HLA_to_NEV_cov rows c')) i = Some a).
      { apply (map_nth_error (fun x => madd x m)). rewrite rotate_nth by auto. rewrite Hi, Hx. reflexivity. }
      exists a, (NEV_to_HLA_cov (st_inc st) (st_azi st) a).
      split; auto. split. { rewrite rotate_nth by auto. rewrite Hi, HA. reflexivity. }
      split; auto. split; [symmetry; apply hla_cov_roundtrip|]. split; [intros c0 Q; discriminate|].
      intros c0 Q. injection Q as <-. exists x. auto.
    + eexists _, _. split; [reflexivity|]. rewrite rotate_length by auto. split; auto. split; auto.
      intros i st Hi. destruct (NX _ _ _ _ _ _ LH Hi) as (x & Hx).
      exists (HLA_to_NEV_cov (st_inc st) (st_azi st) x), x.
      split. { rewrite rotate_nth by auto. rewrite Hi, Hx. reflexivity. } split; auto.
      split; [symmetry; apply nev_cov_roundtrip|]. split; auto. split; [intros c0 Q; discriminate|].
      intros c0 Q. injection Q as <-. exists x. rewrite Z. auto.
  - exfalso. assert (@None (list M3) <> None) by (apply X; auto). congruence.
Qed.
(** both given: kept as they are, consistent or not *)
Theorem given_both : forall rows n h, given_covariances rows (Some n) (Some h) None = (Some n, Some h).
Proof. reflexivity. Qed.

(** radius of the constructor *)
Theorem radius_spec : forall n r, (2 <= n)%nat ->
  (get_radius n r = None <-> exists l, r = Some l /\ length l <> 1%nat /\ length l <> n) /\
  (forall l, get_radius n r = Some l -> length l = n /\
     (r = None -> forall x, In x l -> x = 3048 / 10000) /\
     (forall x, r = Some [x] -> forall y, In y l -> y = x) /\
     (forall q, r = Some q -> length q = n -> l = q)).
Proof.
  intros n r N. destruct r as [[|x [|y q]]|]; cbn [get_radius].
  - destruct (Nat.eqb (length []) n) eqn:E; cbn [length] in *; [apply Nat.eqb_eq in E; lia|]. apply Nat.eqb_neq in E. split.
    + split; auto. intros _. exists []. cbn. auto.
    + discriminate.
  - split.
    + split; [discriminate|]. intros (l & Q & A & B). injection Q as <-. cbn in A. lia.
    + intros l Q. injection Q as <-. split; [apply repeat_length|]. split; [discriminate|]. split.
      * intros z Q y H. injection Q as <-. apply repeat_spec in H. auto.
      * intros q Q L. injection Q as <-. cbn in L. lia.
  - destruct (Nat.eqb (length (x :: y :: q)) n) eqn:E.
    + apply Nat.eqb_eq in E. split.
      * split; [discriminate|]. intros (l & Q & A & B). injection Q as <-. congruence.
      * intros l Q. injection Q as <-. split; auto. split; [discriminate|]. split; [intros z Q; discriminate|].
        intros q' Q _. congruence.
    + apply Nat.eqb_neq in E. split; [|discriminate]. split; auto. intros _. eexists. split; [reflexivity|]. split; [cbn; lia|auto].
  - split.
    + split; [discriminate|]. intros (l & Q & _). discriminate.
    + intros l Q. injection Q as <-. split; [apply repeat_length|]. split; [intros _ z H; apply repeat_spec in H; auto|].
      split; intros z Q; discriminate.
Qed.
