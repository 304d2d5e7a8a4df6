(** Wells that come closer than a clearance run reports. *)
Require Import Reals ZArith Bool String List Lra Lia Psatz.
Require Import Verif.Base Verif.NumPy Verif.P_Trig Verif.Spec Verif.Spec_Lists Verif.Spec_Clearance Verif.Spec_Length Verif.Spec_Missed Verif.M_Utils Verif.P_Utils Verif.P_Utils2 Verif.P_Utils3
  Verif.M_Survey Verif.P_Survey Verif.P_Survey2 Verif.P_Survey3 Verif.P_Survey4 Verif.P_Survey5 Verif.M_Error Verif.M_Clearance Verif.P_Clearance Verif.P_Clearance3
  Verif.M_Refine Verif.P_Refine Verif.P_Refine5 Verif.P_Refine6 Verif.P_Sections5 Verif.P_Length Verif.P_Missed.
Import ListNotations.
Local Open Scope R_scope.

Fixpoint walk (p : V3) (l : list station) : list V3 :=
  match l with [] => [] | a :: r => p :: match r with b :: _ => walk (vadd p (step_between a b)) r | [] => [] end end.
Lemma path_walk : forall l ps p, path l ps -> nth_error ps 0 = Some p -> ps = walk p l.
Proof.
  induction l as [|a l IH]; intros ps p [L P] F.
  - destruct ps; [reflexivity|discriminate].
  - destruct ps as [|p0 ps]; [discriminate|]. cbn in F. injection F as ->. cbn [walk]. f_equal. destruct l as [|b l].
    + destruct ps; [reflexivity|discriminate].
    + destruct ps as [|q ps]; [discriminate|]. apply IH.
      * split; [cbn in L |- *; lia|]. intros k x y u v X Y U V. apply (P (S k) x y u v X Y U V).
      * cbn. f_equal. apply (P 0%nat a b p q); reflexivity.
Qed.
Lemma placed_walk h rows deg sx sn unit s : Survey h rows deg sx sn unit = Some s -> sv_nev s = walk sn (sv_rows s).
Proof.
  intros H. apply path_walk; [eapply survey_path; eauto|]. pose proof (Survey_intervals _ _ _ _ _ _ _ H) as (_ & F & _). exact F.
Qed.
Lemma east : direction_nev (PI/2) (PI/2) = mkV 0 1 0.
Proof. unfold direction_nev. rewrite sin_PI2, cos_PI2. apply V3_eq; simpl; ring. Qed.
Lemma south : direction_nev (PI/2) PI = mkV (-1) 0 0.
Proof. unfold direction_nev. rewrite sin_PI2, cos_PI2, sin_PI, cos_PI. apply V3_eq; simpl; ring. Qed.
(** a quarter of a circle of radius 20 *)
Lemma quarter_dogleg z1 z2 : dot (direction_nev (PI/2) z1) (direction_nev (PI/2) z2) = 0 -> get_dogleg (PI/2) z1 (PI/2) z2 = PI/2.
Proof. intros E. pose proof PI_RGT_0. apply dogleg_is; [lra|]. rewrite cos_PI2, E. reflexivity. Qed.
Lemma quarter m m' z1 z2 : m' - m = 10 * PI -> dot (direction_nev (PI/2) z1) (direction_nev (PI/2) z2) = 0 ->
  step_between (mkSt m (PI/2) z1) (mkSt m' (PI/2) z2) = vscale 20 (vadd (direction_nev (PI/2) z1) (direction_nev (PI/2) z2)).
Proof.
  intros M E. pose proof PI_RGT_0. rewrite step_between_disp. unfold mc_disp, pair_dogleg, dir. cbn [st_md st_inc st_azi].
  rewrite (quarter_dogleg z1 z2 E). f_equal. unfold get_rf. destruct (Req_EM_T (PI/2) 0); [lra|].
  replace (PI / 2 / 2) with (PI / 4) by lra. rewrite tan_PI4, M. field. lra.
Qed.
Lemma dist_of a b c a' b' c' d : 0 <= d -> (a - a') ^ 2 + (b - b') ^ 2 + (c - c') ^ 2 = d ^ 2 -> dist (mkV a b c) (mkV a' b' c') = d.
Proof.
  intros D E. pose proof (dist_sq a b c a' b' c') as S. pose proof (dist_pos (mkV a b c) (mkV a' b' c')) as P. rewrite E in S. nra.
Qed.
Lemma dist_least a b c a' b' c' d : 0 <= d -> d ^ 2 <= (a - a') ^ 2 + (b - b') ^ 2 + (c - c') ^ 2 -> d <= dist (mkV a b c) (mkV a' b' c').
Proof. intros D E. pose proof (dist_sq a b c a' b' c') as S. pose proof (dist_pos (mkV a b c) (mkV a' b' c')) as P. nra. Qed.

(** ** two straight wells that cross between stations *)
Section Crossing.
  Variable D : R.
  Hypothesis HD : 0 < D.
  Definition cross_ref : list row := [(0, PI/2, PI/2); (2 * D, PI/2, PI/2)].
  Definition cross_off : list row := [(0, PI/2, 0); (1, PI/2, 0); (2, PI/2, 0)].
  Lemma cross_ref_survey : exists s, Survey (wit_h "meters") cross_ref false vzero (mkV 0 (- D) 0) "meters" = Some s /\
    sv_rows s = [mkSt 0 (PI/2) (PI/2); mkSt (2 * D) (PI/2) (PI/2)] /\ sv_nev s = [mkV 0 (- D) 0; mkV 0 D 0] /\ surveyed s.
  Proof.
    destruct (Survey_total (wit_h "meters") cross_ref false vzero (mkV 0 (- D) 0)) as [s H]; [left; reflexivity|simpl; lia|]. exists s. split; [exact H|].
    pose proof (Survey_rows _ _ _ _ _ _ _ H) as R. simpl in R. split; [exact R|].
    split. { rewrite (placed_walk _ _ _ _ _ _ _ H), R. cbn [walk]. rewrite straight_next, east. unf. do 2 f_equal; apply V3_eq; simpl; ring. }
    split; [repeat eexists; exact H|]. rewrite R. split; [simpl; repeat split; lra|].
    intros [|k] a b A B; simpl in A, B; [|destruct k; discriminate]. injection A as <-. injection B as <-. cbn [st_inc st_azi].
    rewrite (proj2 (dogleg_0_iff (PI/2) (PI/2) (PI/2) (PI/2)) eq_refl). apply PI_RGT_0.
  Qed.
  Lemma cross_off_survey : exists s, Survey (wit_h "meters") cross_off false vzero (mkV (-1) 0 0) "meters" = Some s /\
    sv_rows s = [mkSt 0 (PI/2) 0; mkSt 1 (PI/2) 0; mkSt 2 (PI/2) 0] /\ sv_nev s = [mkV (-1) 0 0; mkV 0 0 0; mkV 1 0 0] /\ surveyed s.
  Proof.
    destruct (Survey_total (wit_h "meters") cross_off false vzero (mkV (-1) 0 0)) as [s H]; [left; reflexivity|simpl; lia|]. exists s. split; [exact H|].
    pose proof (Survey_rows _ _ _ _ _ _ _ H) as R. simpl in R. split; [exact R|].
    split. { rewrite (placed_walk _ _ _ _ _ _ _ H), R. cbn [walk]. rewrite !straight_next, north. unf. do 2 f_equal; [|f_equal]; apply V3_eq; simpl; ring. }
    split; [repeat eexists; exact H|]. rewrite R. split; [simpl; repeat split; lra|].
    intros k a b A B. assert (Z : get_dogleg (PI/2) 0 (PI/2) 0 = 0) by (apply dogleg_0_iff; reflexivity). pose proof PI_RGT_0.
    destruct k as [|[|k]]; simpl in A, B; [| |destruct k; discriminate]; injection A as <-; injection B as <-; cbn [st_inc st_azi]; rewrite Z; assumption.
  Qed.
End Crossing.
Lemma straight_at p m1 m2 inc azi x : interpolate_pos_nev p (mkSt m1 inc azi) (mkSt m2 inc azi) x = vadd p (vscale x (direction_nev inc azi)).
Proof. apply straight_interp. Qed.
Lemma zero_cov_list n m : In m (repeat mzero n) -> psd m.
Proof. intros H. apply repeat_spec in H. subst m. intro v. rewrite qform_mzero. lra. Qed.
Lemma crossing : forall D, 0 < D -> exists sr so, surveyed sr /\ surveyed so /\ length (sv_rows sr) = 2%nat /\ spacing sr (2 * D) /\ spacing so 1 /\
  (forall opt c, never_worse opt -> 0 < c_k c -> c_sigma_pa c <> 0 -> exists r0 r1,
     clearance_run opt c (mkWell sr (repeat mzero 2) (repeat 0 2)) (mkWell so (repeat mzero 3) (repeat 0 3)) = [Some r0; Some r1] /\
     ru_distance r0 = D /\ ru_distance r1 = D) /\
  exists m m' P, at_depth sr m P /\ at_depth so m' P.
Proof.
  intros D HD. destruct (cross_ref_survey D HD) as (sr & HR & RR & NR & SR). destruct cross_off_survey as (so & HO & RO & NO & SO).
  exists sr, so. split; [exact SR|]. split; [exact SO|]. split; [rewrite RR; reflexivity|].
  split. { unfold spacing. rewrite RR. intros [|k] a b A B; simpl in A, B; [|destruct k; discriminate]. injection A as <-. injection B as <-. cbn. lra. }
  split. { unfold spacing. rewrite RO. intros [|[|k]] a b A B; simpl in A, B; [| |destruct k; discriminate]; injection A as <-; injection B as <-; cbn; lra. }
  split.
  - intros opt c N HK HP. pose proof SO as (_ & SI & DG).
    destruct (whole_run (wit_h "meters") cross_off false vzero (mkV (-1) 0 0) "meters" so (repeat mzero 3) (repeat 0 3)
      (mkWell sr (repeat mzero 2) (repeat 0 2)) opt c HO SI DG) as (LR & W); auto.
    { rewrite RO. reflexivity. } { rewrite RO. reflexivity. } { apply zero_cov_list. } { cbn [w_cov]. apply zero_cov_list. }
    set (run := clearance_run opt c _ _) in *. cbn [w_survey w_cov w_radius] in LR, W. rewrite RR in LR, W. rewrite NR in W.
    destruct (W 0%nat _ _ mzero 0 eq_refl eq_refl eq_refl eq_refl) as (r0 & W0). destruct (W 1%nat _ _ mzero 0 eq_refl eq_refl eq_refl eq_refl) as (r1 & W1).
    clear W. assert (R0 : nth_error run 0 = Some (Some r0)) by (destruct W0 as (? & ? & ? & ? & ? & ? & ? & ? & ? & ? & ? & ? & E & _); exact E).
    assert (R1 : nth_error run 1 = Some (Some r1)) by (destruct W1 as (? & ? & ? & ? & ? & ? & ? & ? & ? & ? & ? & ? & E & _); exact E).
    exists r0, r1. split.
    { destruct run as [|x [|y [|z l]]]; try discriminate. cbn in R0, R1. congruence. }
    assert (G : forall i y r, (y = D \/ y = - D) -> nth_error (sv_nev sr) i = Some (mkV 0 y 0) -> nth_error run i = Some (Some r) -> ru_distance r = D).
    { intros i y r Y P R. destruct (reported opt c _ _ i r (SO : surveyed (w_survey (mkWell so (repeat mzero 3) (repeat 0 3)))) N R) as (a & p & m & Q & _ & P' & AQ & DR & MIN).
      cbn [w_survey] in *. assert (p = mkV 0 y 0) by congruence. subst p. apply Rle_antisym.
      - pose proof (MIN 1%nat (mkV 0 0 0)) as Z. rewrite NO in Z. specialize (Z eq_refl).
        rewrite (dist_of 0 y 0 0 0 0 D) in Z; [exact Z|lra|destruct Y as [->| ->]; ring].
      - rewrite DR. destruct (at_depth_inv so SO m Q AQ) as (k & b & e & o & o' & B & E & O & O' & M & ->).
        assert (EO : exists x, o = mkV x 0 0 /\ b = mkSt (x + 1) (PI/2) 0 /\ exists me, e = mkSt me (PI/2) 0).
        { rewrite RO in B, E. rewrite NO in O. destruct k as [|[|k]]; simpl in B, E, O; [| |destruct k; discriminate]; injection B as <-; injection E as <-; injection O as <-;
          eexists; (split; [reflexivity|]); (split; [f_equal; ring|eexists; reflexivity]). }
        destruct EO as (x & -> & -> & me & ->). rewrite straight_at, north. unfold vadd, vscale. cbn [vx vy vz]. apply dist_least; [lra|].
        match goal with |- _ <= ?A ^ 2 + ?B ^ 2 + ?C ^ 2 => pose proof (pow2_ge_0 A); pose proof (pow2_ge_0 C); assert (B ^ 2 = D ^ 2) by (destruct Y as [->| ->]; ring) end. lra. }
    split; [apply (G 0%nat (- D)); auto; rewrite NR; reflexivity|apply (G 1%nat D); auto; rewrite NR; reflexivity].
  - exists D, 1, (mkV 0 0 0). split.
    + pose proof (at_depth_of sr SR 0 (mkSt 0 (PI/2) (PI/2)) (mkSt (2*D) (PI/2) (PI/2)) (mkV 0 (-D) 0) D) as Z. rewrite RR, NR in Z.
      specialize (Z eq_refl eq_refl eq_refl). cbn [st_md] in Z. specialize (Z ltac:(lra)). rewrite straight_at, east in Z.
      replace (0 + D) with D in Z by ring. replace (vadd (mkV 0 (- D) 0) (vscale D (mkV 0 1 0))) with (mkV 0 0 0) in Z by (unf; apply V3_eq; simpl; ring). exact Z.
    + pose proof (at_depth_of so SO 0 (mkSt 0 (PI/2) 0) (mkSt 1 (PI/2) 0) (mkV (-1) 0 0) 1) as Z. rewrite RO, NO in Z.
      specialize (Z eq_refl eq_refl eq_refl). cbn [st_md] in Z. specialize (Z ltac:(lra)). rewrite straight_at, north in Z.
      replace (0 + 1) with 1 in Z by ring. replace (vadd (mkV (-1) 0 0) (vscale 1 (mkV 1 0 0))) with (mkV 0 0 0) in Z by (unf; apply V3_eq; simpl; ring). exact Z.
Qed.

(** ** a well that turns back: the nearest station is not next to the nearest point *)
Definition bend_rows : list row := [(0, PI/2, 0); (100, PI/2, 0); (100 + 10 * PI, PI/2, PI/2); (100 + 20 * PI, PI/2, PI); (150 + 20 * PI, PI/2, PI)].
Lemma bend_survey : exists s, Survey (wit_h "meters") bend_rows false vzero vzero "meters" = Some s /\
  sv_rows s = [mkSt 0 (PI/2) 0; mkSt 100 (PI/2) 0; mkSt (100 + 10 * PI) (PI/2) (PI/2); mkSt (100 + 20 * PI) (PI/2) PI; mkSt (150 + 20 * PI) (PI/2) PI] /\
  sv_nev s = [vzero; mkV 100 0 0; mkV 120 20 0; mkV 100 40 0; mkV 50 40 0] /\ surveyed s.
Proof.
  destruct (Survey_total (wit_h "meters") bend_rows false vzero vzero) as [s H]; [left; reflexivity|simpl; lia|]. exists s. split; [exact H|].
  pose proof (Survey_rows _ _ _ _ _ _ _ H) as R. simpl in R. split; [exact R|]. pose proof PI_RGT_0.
  assert (Q1 : dot (direction_nev (PI/2) 0) (direction_nev (PI/2) (PI/2)) = 0) by (rewrite north, east; unfold dot; simpl; ring).
  assert (Q2 : dot (direction_nev (PI/2) (PI/2)) (direction_nev (PI/2) PI) = 0) by (rewrite south, east; unfold dot; simpl; ring).
  split. { rewrite (placed_walk _ _ _ _ _ _ _ H), R. cbn [walk]. rewrite !straight_next, !quarter by (first [assumption|ring]). rewrite north, east, south.
    unf. repeat f_equal; try (apply V3_eq; simpl); simpl; ring. }
  split; [repeat eexists; exact H|]. rewrite R. split; [simpl; repeat split; lra|].
  intros k a b A B. assert (Z : forall z, get_dogleg (PI/2) z (PI/2) z = 0) by (intros; apply dogleg_0_iff; reflexivity).
  destruct k as [|[|[|[|k]]]]; simpl in A, B; [| | | |destruct k; discriminate]; injection A as <-; injection B as <-; cbn [st_inc st_azi]; rewrite ?Z, ?quarter_dogleg by assumption; lra.
Qed.
Definition aside_rows : list row := [(0, 0, 0); (10, 0, 0)].
Lemma aside_survey : exists s, Survey (wit_h "meters") aside_rows false vzero (mkV 50 15 0) "meters" = Some s /\
  sv_rows s = [mkSt 0 0 0; mkSt 10 0 0] /\ sv_nev s = [mkV 50 15 0; mkV 50 15 10] /\ surveyed s.
Proof.
  destruct (Survey_total (wit_h "meters") aside_rows false vzero (mkV 50 15 0)) as [s H]; [left; reflexivity|simpl; lia|]. exists s. split; [exact H|].
  pose proof (Survey_rows _ _ _ _ _ _ _ H) as R. simpl in R. split; [exact R|].
  split. { rewrite (placed_walk _ _ _ _ _ _ _ H), R. cbn [walk]. rewrite straight_next, down. unf. do 2 f_equal; apply V3_eq; simpl; ring. }
  split; [repeat eexists; exact H|]. rewrite R. split; [simpl; repeat split; lra|].
  intros [|k] a b A B; simpl in A, B; [|destruct k; discriminate]. injection A as <-. injection B as <-. cbn [st_inc st_azi].
  rewrite (proj2 (dogleg_0_iff 0 0 0 0) eq_refl). apply PI_RGT_0.
Qed.
Lemma turned_back : exists sr so, surveyed sr /\ surveyed so /\
  (forall opt c, never_worse opt -> 0 < c_k c -> c_sigma_pa c <> 0 -> exists r,
     nth_error (clearance_run opt c (mkWell sr (repeat mzero 2) (repeat 0 2)) (mkWell so (repeat mzero 5) (repeat 0 5))) 0 = Some (Some r) /\ ru_distance r = 25) /\
  exists p m Q, nth_error (sv_nev sr) 0 = Some p /\ at_depth so m Q /\ dist p Q = 15.
Proof.
  destruct aside_survey as (sr & HR & RR & NR & SR). destruct bend_survey as (so & HO & RO & NO & SO). exists sr, so. split; [exact SR|]. split; [exact SO|]. split.
  - intros opt c N HK HP. pose proof SO as (_ & SI & DG).
    destruct (whole_run (wit_h "meters") bend_rows false vzero vzero "meters" so (repeat mzero 5) (repeat 0 5)
      (mkWell sr (repeat mzero 2) (repeat 0 2)) opt c HO SI DG) as (_ & W); auto.
    { rewrite RO. reflexivity. } { rewrite RO. reflexivity. } { apply zero_cov_list. } { cbn [w_cov]. apply zero_cov_list. }
    set (run := clearance_run opt c _ _) in *. cbn [w_survey w_cov w_radius] in W. rewrite RR, NR in W.
    destruct (W 0%nat _ _ mzero 0 eq_refl eq_refl eq_refl eq_refl) as (r & q & nd & h' & k & b & e & ca & cb & t & j & o & ro & R & DR & B & E & T & I & ND & O & MIN & LE & J & _).
    exists r. split; [exact R|]. rewrite DR.
    assert (Z4 : dist (mkV 50 15 0) (mkV 50 40 0) = 25) by (apply dist_of; [lra|ring]).
    assert (J4 : j = 4%nat).
    { pose proof (MIN 4%nat (mkV 50 40 0)) as M4. rewrite NO in M4. specialize (M4 eq_refl). rewrite Z4 in M4. rewrite NO in O.
      assert (F : forall a b, 26 ^ 2 <= (50 - a) ^ 2 + (15 - b) ^ 2 -> dist (mkV 50 15 0) (mkV a b 0) <= 25 -> False).
      { intros x y HH L. pose proof (dist_least 50 15 0 x y 0 26 ltac:(lra) ltac:(lra)). lra. }
      destruct j as [|[|[|[|[|j]]]]]; simpl in O; [| | | |reflexivity|destruct j; discriminate]; exfalso; injection O as <-; (eapply F; [|exact M4]); lra. }
    subst j. assert (k = 3%nat). { destruct J as [J|J]; [|lia]. subst k. rewrite RO in E. discriminate. } subst k.
    rewrite RO in B, E. simpl in B, E. injection B as <-. injection E as <-. cbn [st_md] in *.
    rewrite NO in O. simpl in O. injection O as <-. rewrite Z4 in LE. apply Rle_antisym; [exact LE|].
    pose proof (at_depth_of so SO 3 (mkSt (100 + 20 * PI) (PI/2) PI) (mkSt (150 + 20 * PI) (PI/2) PI) (mkV 100 40 0) (t * 50)) as Z. rewrite RO, NO in Z.
    specialize (Z eq_refl eq_refl eq_refl). cbn [st_md] in Z. specialize (Z ltac:(lra)). destruct Z as (nd' & h'' & I' & _ & P').
    replace (100 + 20 * PI + t * 50) with (100 + 20 * PI + t * (150 + 20 * PI - (100 + 20 * PI))) in I' by ring. rewrite I in I'. injection I' as <- <-.
    rewrite straight_at, south, ND in P'. rewrite P'. unfold vadd, vscale. cbn [vx vy vz]. apply dist_least; [lra|]. match goal with |- _ <= ?A ^ 2 + ?B ^ 2 + ?C ^ 2 => pose proof (pow2_ge_0 A); pose proof (pow2_ge_0 C); assert (B ^ 2 = 25 ^ 2) by ring end. lra.
  - exists (mkV 50 15 0), 50, (mkV 50 0 0). split; [rewrite NR; reflexivity|]. split; [|apply dist_of; [lra|ring]].
    pose proof (at_depth_of so SO 0 (mkSt 0 (PI/2) 0) (mkSt 100 (PI/2) 0) vzero 50) as Z. rewrite RO, NO in Z.
    specialize (Z eq_refl eq_refl eq_refl). cbn [st_md] in Z. specialize (Z ltac:(lra)). rewrite straight_at, north in Z.
    replace (0 + 50) with 50 in Z by ring. replace (vadd vzero (vscale 50 (mkV 1 0 0))) with (mkV 50 0 0) in Z by (unf; apply V3_eq; simpl; ring). exact Z.
Qed.
Lemma along_well : forall s m m' P Q, surveyed s -> at_depth s m P -> at_depth s m' Q -> m <= m' -> dist Q P <= m' - m.
Proof. intros s m m' P Q H. apply reach, H. Qed.
Lemma all_depths : forall s a b m, surveyed s -> nth_error (sv_rows s) 0 = Some a -> nth_error (sv_rows s) (pred (length (sv_rows s))) = Some b ->
  ((exists P, at_depth s m P) <-> st_md a <= m <= st_md b).
Proof.
  intros s a b m H A B. pose proof H as ((h & rows & deg & sx & sn & unit & HS) & SI & _).
  destruct (md_lookup h rows deg sx sn unit s m a b HS SI A B) as (N1 & N2 & N3). split.
  - intros (P & n & h' & I & M & _). split.
    + destruct (Rlt_dec m (st_md a)) as [G|G]; [|lra]. destruct (N3 G) as (pa & n' & h'' & _ & I' & M' & _). rewrite I' in I. injection I as -> ->. lra.
    + destruct (Rlt_dec (st_md b) m) as [G|G]; [|lra]. rewrite (proj2 N1 G) in I. discriminate.
  - intros R. destruct (N2 R) as (k & c & d & pa & n & h' & _ & _ & _ & I & _ & M & _). exists (nd_pos n), n, h'. auto.
Qed.
Lemma missed_station : forall opt c ref off i r p h, surveyed (w_survey off) -> spacing (w_survey off) h -> never_worse opt ->
  nth_error (clearance_run opt c ref off) i = Some (Some r) -> nth_error (sv_nev (w_survey ref)) i = Some p ->
  (exists m Q, at_depth (w_survey off) m Q /\ dist p Q = ru_distance r) /\
  forall m Q, at_depth (w_survey off) m Q -> ru_distance r - h / 2 <= dist p Q.
Proof. exact missed_at. Qed.
Lemma missed_depth : forall opt c ref off i r a h m P m' Q, surveyed (w_survey ref) -> surveyed (w_survey off) -> spacing (w_survey off) h -> never_worse opt ->
  nth_error (clearance_run opt c ref off) i = Some (Some r) -> nth_error (sv_rows (w_survey ref)) i = Some a ->
  at_depth (w_survey ref) m P -> at_depth (w_survey off) m' Q -> ru_distance r - Rabs (m - st_md a) - h / 2 <= dist P Q.
Proof. exact missed_near. Qed.
Lemma missed_anywhere : forall opt c ref off g h d, surveyed (w_survey ref) -> surveyed (w_survey off) -> spacing (w_survey ref) g -> spacing (w_survey off) h -> never_worse opt ->
  (forall i, (i < length (sv_rows (w_survey ref)))%nat -> exists r, nth_error (clearance_run opt c ref off) i = Some (Some r) /\ d + (g + h) / 2 <= ru_distance r) ->
  forall m P m' Q, at_depth (w_survey ref) m P -> at_depth (w_survey off) m' Q -> d <= dist P Q.
Proof. exact missed_nowhere. Qed.
(** wells that the bound keeps 40 m apart *)
Lemma kept_apart_at : exists sr so, (sv_rows sr = [mkSt 0 0 0; mkSt 10 0 0] /\ sv_nev sr = [mkV 50 15 0; mkV 50 15 10] /\
    sv_rows so = [mkSt 0 (PI/2) 0; mkSt 1 (PI/2) 0; mkSt 2 (PI/2) 0] /\ sv_nev so = [mkV (-1) 0 0; mkV 0 0 0; mkV 1 0 0]) /\ surveyed sr /\ surveyed so /\ spacing sr 10 /\ spacing so 1 /\
  forall opt c, never_worse opt -> 0 < c_k c -> c_sigma_pa c <> 0 -> forall i, (i < length (sv_rows sr))%nat ->
    exists r, nth_error (clearance_run opt c (mkWell sr (repeat mzero 2) (repeat 0 2)) (mkWell so (repeat mzero 3) (repeat 0 3))) i = Some (Some r) /\ 40 + (10 + 1) / 2 <= ru_distance r.
Proof.
  destruct aside_survey as (sr & HR & RR & NR & SR). destruct cross_off_survey as (so & HO & RO & NO & SO).
  exists sr, so. split; [auto|]. split; [exact SR|]. split; [exact SO|].
  split. { unfold spacing. rewrite RR. intros [|k] a b A B; simpl in A, B; [|destruct k; discriminate]. injection A as <-. injection B as <-. cbn. lra. }
  split. { unfold spacing. rewrite RO. intros [|[|k]] a b A B; simpl in A, B; [| |destruct k; discriminate]; injection A as <-; injection B as <-; cbn; lra. }
  intros opt c N HK HP i LI. pose proof SO as (_ & SI & DG).
  destruct (whole_run (wit_h "meters") cross_off false vzero (mkV (-1) 0 0) "meters" so (repeat mzero 3) (repeat 0 3)
      (mkWell sr (repeat mzero 2) (repeat 0 2)) opt c HO SI DG) as (_ & W); auto.
  { rewrite RO. reflexivity. } { rewrite RO. reflexivity. } { apply zero_cov_list. } { cbn [w_cov]. apply zero_cov_list. }
  set (run := clearance_run opt c _ _) in *. cbn [w_survey w_cov w_radius] in W.
  assert (K : exists r, nth_error run i = Some (Some r)).
  { rewrite RR, NR in W. rewrite RR in LI. simpl in LI. destruct i as [|[|i]]; [| |lia].
    - destruct (W 0%nat _ _ mzero 0 eq_refl eq_refl eq_refl eq_refl) as (r & ? & ? & ? & ? & ? & ? & ? & ? & ? & ? & ? & ? & E & _). exists r. exact E.
    - destruct (W 1%nat _ _ mzero 0 eq_refl eq_refl eq_refl eq_refl) as (r & ? & ? & ? & ? & ? & ? & ? & ? & ? & ? & ? & ? & E & _). exists r. exact E. }
  clear W. destruct K as (r & R). exists r. split; [exact R|].
  destruct (reported opt c _ _ i r (SO : surveyed (w_survey (mkWell so (repeat mzero 3) (repeat 0 3)))) N R) as (a & p & m & Q & _ & P' & AQ & DR & _).
  cbn [w_survey] in *. rewrite DR. destruct (at_depth_inv so SO m Q AQ) as (k & b & e & o & o' & B & E & O & O' & M & ->).
  assert (EO : exists x, o = mkV x 0 0 /\ b = mkSt (x + 1) (PI/2) 0 /\ (exists me, e = mkSt me (PI/2) 0) /\ st_md e <= 2).
  { rewrite RO in B, E. rewrite NO in O. destruct k as [|[|k]]; simpl in B, E, O; [| |destruct k; discriminate]; injection B as <-; injection E as <-; injection O as <-;
    eexists; (split; [reflexivity|]); (split; [f_equal; ring|]); (split; [eexists; reflexivity|cbn; lra]). }
  destruct EO as (x & -> & -> & (me & ->) & ME). cbn [st_md] in *. rewrite straight_at, north. unfold vadd, vscale. cbn [vx vy vz].
  assert (PP : exists z, p = mkV 50 15 z) by (rewrite NR in P'; destruct i as [|[|i]]; simpl in P'; [| |destruct i; discriminate]; injection P' as <-; eexists; reflexivity).
  destruct PP as (z & ->). apply dist_least; [lra|].
  match goal with |- _ <= ?A ^ 2 + ?B ^ 2 + ?C ^ 2 => pose proof (pow2_ge_0 B); pose proof (pow2_ge_0 C); assert (49 <= A) by lra; assert (49 ^ 2 <= A ^ 2) by (apply pow_incr; lra) end. lra.
Qed.
Lemma kept_apart : exists sr so, surveyed sr /\ surveyed so /\ spacing sr 10 /\ spacing so 1 /\
  forall opt c, never_worse opt -> 0 < c_k c -> c_sigma_pa c <> 0 -> forall i, (i < length (sv_rows sr))%nat ->
    exists r, nth_error (clearance_run opt c (mkWell sr (repeat mzero 2) (repeat 0 2)) (mkWell so (repeat mzero 3) (repeat 0 3))) i = Some (Some r) /\ 40 + (10 + 1) / 2 <= ru_distance r.
Proof. destruct kept_apart_at as (sr & so & _ & H). exists sr, so. exact H. Qed.
