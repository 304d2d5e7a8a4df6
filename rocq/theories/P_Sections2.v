(** A survey through the control points of a well of arcs and straight lines. *)
Require Import Reals ZArith Bool String List Lra Lia Psatz.
Require Import Verif.Base Verif.NumPy Verif.Spec Verif.Spec_Rates Verif.M_Utils Verif.M_Survey Verif.M_Connector Verif.M_Rates Verif.M_Sections Verif.Spec_Sections.
Require Import Verif.P_Trig Verif.P_Utils Verif.P_Utils2 Verif.P_Survey Verif.P_Survey2 Verif.P_Survey3 Verif.P_Survey5 Verif.P_Rates Verif.P_Rates2 Verif.P_Rates3 Verif.P_Rates4
  Verif.Spec_Lists Verif.Spec_Splice Verif.P_Splice2 Verif.P_Splice3 Verif.P_Sections.
Import ListNotations.
Open Scope R_scope.

Lemma axis_normal : forall n u, is_unit n -> is_unit u -> orthogonal n u ->
  is_unit (cross n u) /\ orthogonal u (cross n u) /\ cross n (cross n u) = vneg u.
Proof.
  intros n u N U O. unfold is_unit, orthogonal in *.
  split; [rewrite <- lagrange, N, U, O; ring|]. split; [vring|].
  assert (T : forall a b c, cross a (cross b c) = vsub (vscale (dot a c) b) (vscale (dot a b) c)) by vring.
  rewrite T, N, O. vring.
Qed.
Lemma cross_arc_tangent : forall n u t, is_unit n -> is_unit u -> orthogonal n u ->
  cross n (arc_tangent u (cross n u) t) = arc_normal u (cross n u) t.
Proof.
  intros n u t N U O. destruct (axis_normal n u N U O) as (_ & _ & X).
  unfold arc_tangent, arc_normal.
  assert (L : forall a x y b d, cross a (vadd (vscale x b) (vscale y d)) = vadd (vscale x (cross a b)) (vscale y (cross a d))) by vring.
  rewrite L, X. vring.
Qed.
Lemma turn_angle : forall n u t, is_unit n -> is_unit u -> orthogonal n u -> 0 <= t <= PI ->
  angle_between u (arc_tangent u (cross n u) t) t.
Proof.
  intros n u t N U O T. destruct (axis_normal n u N U O) as (_ & X & _). split; auto.
  unfold arc_tangent. rewrite dot_vadd_r, !dot_vscale_r. unfold orthogonal in X. rewrite X. unfold is_unit in U. rewrite U. ring.
Qed.

Lemma vadd_nothing : forall p u x, p = vadd p (vscale (x - x) u).
Proof. vring. Qed.
Lemma vadd_twice : forall p u x y z, vadd (vadd p (vscale (y - x) u)) (vscale (z - y) u) = vadd p (vscale (z - x) u).
Proof. vring. Qed.

Section Run.
Variables (h : header) (rows : list row) (deg : bool) (sx sn : V3) (unit : string) (s : survey).
Hypothesis HS : Survey h rows deg sx sn unit = Some s.

Lemma nev_some : forall k a, nth_error (sv_rows s) k = Some a -> exists p, nth_error (sv_nev s) k = Some p.
Proof.
  intros k a A. destruct (Survey_stations _ _ _ _ _ _ _ HS) as (_ & L0 & _ & _ & _ & _ & _ & LN & _).
  assert (k < length (sv_rows s))%nat by (apply nth_error_Some; congruence).
  destruct (nth_error (sv_nev s) k) eqn:E; eauto. apply nth_error_None in E. lia.
Qed.
Lemma row_some : forall k, (k < length (sv_rows s))%nat -> exists a, nth_error (sv_rows s) k = Some a.
Proof. intros k L. destruct (nth_error (sv_rows s) k) eqn:E; eauto. apply nth_error_None in E. lia. Qed.

Lemma circular_md : forall i j n c, circular_between (sv_rows s) i j n c -> (j < length (sv_rows s))%nat ->
  forall d m a b, (m + d <= j)%nat -> (i <= m)%nat -> nth_error (sv_rows s) m = Some a -> nth_error (sv_rows s) (m + d) = Some b ->
  st_md a <= st_md b.
Proof.
  intros i j n c (C & _ & ST & _) L. induction d as [|d IH]; intros m a b H1 H2 A B.
  - rewrite Nat.add_0_r in B. rewrite A in B. injection B as <-. lra.
  - destruct (row_some (m + d)%nat ltac:(lia)) as [x X].
    assert (st_md a <= st_md x) by (apply (IH m a x); auto; lia).
    replace (m + S d)%nat with (S (m + d)) in B by lia.
    destruct (ST (m + d)%nat x b ltac:(lia) X B) as (T & _). nra.
Qed.
Lemma circular_run : forall i j n c, circular_between (sv_rows s) i j n c -> (j < length (sv_rows s))%nat ->
  forall d a b p q, (i + S d <= j)%nat ->
  nth_error (sv_rows s) i = Some a -> nth_error (sv_rows s) (i + S d) = Some b ->
  nth_error (sv_nev s) i = Some p -> nth_error (sv_nev s) (i + S d) = Some q ->
  section_arc p (heading a) q (heading b) (st_md b - st_md a) (c * (st_md b - st_md a)) (cross n (heading a)) /\
  orthogonal n (heading a).
Proof.
  intros i j n c CB L. pose proof (circular_md i j n c CB L) as MD. destruct CB as (C & N & ST & TOT).
  assert (ONE : forall k a b p q, (i <= k < j)%nat -> nth_error (sv_rows s) k = Some a -> nth_error (sv_rows s) (S k) = Some b ->
    nth_error (sv_nev s) k = Some p -> nth_error (sv_nev s) (S k) = Some q ->
    section_arc p (heading a) q (heading b) (st_md b - st_md a) (c * (st_md b - st_md a)) (cross n (heading a)) /\ orthogonal n (heading a)).
  { intros k a b p q K A B P Q. destruct (ST k a b K A B) as (T & O & HB). split; auto.
    assert (U : is_unit (heading a)) by apply direction_unit.
    apply (Survey_section h rows deg sx sn unit s k a b p q (c * (st_md b - st_md a)) (cross n (heading a)) HS A B P Q); auto.
    - change (dir b) with (heading b). rewrite HB. apply (turn_angle n (heading a)); auto. lra. }
  induction d as [|d IH]; intros a b p q H A B P Q.
  - replace (i + 1)%nat with (S i) in B, Q by lia. apply (ONE i a b p q); auto. lia.
  - destruct (row_some (i + S d)%nat ltac:(lia)) as [x X]. destruct (nev_some _ _ X) as [y Y].
    replace (i + S (S d))%nat with (S (i + S d)) in B, Q by lia.
    destruct (IH a x p y ltac:(lia) A X P Y) as ((S1 & S2 & S3 & S4 & S5) & O).
    destruct (ONE (i + S d)%nat x b y q ltac:(lia) X B Y Q) as ((R1 & R2 & R3 & R4 & R5) & O').
    assert (U : is_unit (heading a)) by apply direction_unit.
    split; auto. split; [auto|]. split; [auto|].
    set (t := c * (st_md x - st_md a)) in *. set (t' := c * (st_md b - st_md x)) in *.
    assert (E : c * (st_md b - st_md a) = t + t') by (unfold t, t'; ring). rewrite E.
    assert (LT : t + t' < PI).
    { destruct (row_some j L) as [z Z]. pose proof (TOT a z A Z).
      assert (st_md b <= st_md z). { apply (MD (j - S (i + S d))%nat (S (i + S d)) b z); auto; try lia. replace (S (i + S d) + (j - S (i + S d)))%nat with j by lia. auto. }
      rewrite <- E. nra. }
    rewrite S5 in R4, R5. rewrite (cross_arc_tangent n (heading a) t N U O) in R4, R5.
    assert (K1 : (st_md x - st_md a) / t = / c) by (unfold t in *; field; nra).
    assert (K2 : (st_md b - st_md x) / t' = / c) by (unfold t' in *; field; nra).
    assert (K3 : (st_md b - st_md a) / (t + t') = / c) by (rewrite <- E; field; nra).
    split; [lra|]. split.
    + rewrite K3, R4, S4, K1, K2. apply arc_point_further.
    + rewrite R5. apply arc_tangent_further.
Qed.

Lemma straight_run : forall i j, straight_between (sv_rows s) i j -> (j < length (sv_rows s))%nat ->
  forall d a b p q, (i + d <= j)%nat ->
  nth_error (sv_rows s) i = Some a -> nth_error (sv_rows s) (i + d) = Some b ->
  nth_error (sv_nev s) i = Some p -> nth_error (sv_nev s) (i + d) = Some q ->
  heading b = heading a /\ q = vadd p (vscale (st_md b - st_md a) (heading a)).
Proof.
  intros i j ST L. induction d as [|d IH]; intros a b p q H A B P Q.
  - rewrite Nat.add_0_r in B, Q. rewrite A in B; rewrite P in Q. injection B as <-. injection Q as <-. split; auto. apply vadd_nothing.
  - destruct (row_some (i + d)%nat ltac:(lia)) as [x X]. destruct (nev_some _ _ X) as [y Y].
    replace (i + S d)%nat with (S (i + d)) in B, Q by lia.
    destruct (IH a x p y ltac:(lia) A X P Y) as (E1 & E2).
    pose proof (ST (i + d)%nat x b ltac:(lia) X B) as E3.
    pose proof (Survey_nev_step _ _ _ _ _ _ _ _ _ _ _ _ HS X B Y Q) as SS.
    split; [congruence|]. rewrite SS, E2.
    assert (Z : pair_dogleg x b = 0).
    { apply pair_angle_is. change (dir b) with (heading b). change (dir x) with (heading x). rewrite E3.
      split; [pose proof PI_RGT_0; lra|]. rewrite cos_0. symmetry. apply direction_unit. }
    rewrite (step_straight' _ _ Z). change (dir x) with (heading x). rewrite E1. apply vadd_twice.
Qed.

Lemma section_step : forall a b p q t n, 
  section_arc p (heading a) q (heading b) (st_md b - st_md a) t n -> q = vadd p (step_between a b).
Proof.
  intros a b p q t n SA. pose proof (section_angle _ _ _ _ _ _ _ _ SA) as AB.
  destruct SA as (S1 & S2 & S3 & S4 & S5).
  rewrite step_between_disp. change (dir b) with (heading b). change (dir a) with (heading a).
  rewrite (pair_angle_is a b t) by exact AB. rewrite S5.
  replace (st_md b - st_md a) with ((st_md b - st_md a) / t * t) by (field; lra).
  rewrite (mc_disp_radial (heading a) n (_ / t) t (direction_unit _ _) S1 S2 ltac:(lra)). rewrite S4. unfold arc_point.
  replace ((st_md b - st_md a) / t * t / t) with ((st_md b - st_md a) / t) by (field; lra). auto.
Qed.

Lemma section_displacement : forall i j a b p q, (i < j)%nat -> 
  nth_error (sv_rows s) i = Some a -> nth_error (sv_rows s) j = Some b ->
  nth_error (sv_nev s) i = Some p -> nth_error (sv_nev s) j = Some q ->
  straight_between (sv_rows s) i j \/ (exists n c, circular_between (sv_rows s) i j n c) ->
  q = vadd p (step_between a b).
Proof.
  intros i j a b p q IJ A B P Q H.
  assert (L : (j < length (sv_rows s))%nat) by (apply nth_error_Some; congruence).
  destruct H as [ST|(n & c & CB)].
  - replace j with (i + (j - i))%nat in B, Q by lia.
    destruct (straight_run i j ST L (j - i)%nat a b p q ltac:(lia) A B P Q) as [E1 E2].
    assert (Z : pair_dogleg a b = 0).
    { apply pair_angle_is. change (dir b) with (heading b). change (dir a) with (heading a). rewrite E1.
      split; [pose proof PI_RGT_0; lra|]. rewrite cos_0. symmetry. apply direction_unit. }
    rewrite (step_straight' _ _ Z). exact E2.
  - replace j with (i + S (j - i - 1))%nat in B, Q by lia.
    destruct (circular_run i j n c CB L (j - i - 1)%nat a b p q ltac:(lia) A B P Q) as [SA _].
    apply section_step in SA. exact SA.
Qed.
End Run.

(** ** the survey through the control points *)
Definition picked (s : survey) (ks : list nat) : list station := map (row_at s) ks.
Definition picked_nev (s : survey) (ks : list nat) : list V3 := map (nev_at s) ks.

Lemma nth_error_ext : forall (A : Type) (l l' : list A), (forall k, nth_error l k = nth_error l' k) -> l = l'.
Proof.
  induction l as [|a l IH]; intros [|b l'] H; auto; [specialize (H 0%nat); discriminate|specialize (H 0%nat); discriminate|].
  pose proof (H 0%nat) as E. injection E as ->. f_equal. apply IH. intro k. exact (H (S k)).
Qed.
Lemma control_rows_eq : forall s tol dc, 
  control_rows s tol dc = map (fun k => (st_md (row_at s k), degrees (st_inc (row_at s k)), degrees (st_azi (row_at s k)))) (section_starts s tol tol dc).
Proof.
  intros s tol dc. unfold control_rows, get_sections, section_starts.
  set (ks := breaks 0 _ ++ _). cbn [tl map]. f_equal. generalize 0%nat. induction ks as [|k ks IH]; intro k0; auto.
  cbn [pairwise map]. f_equal; [|apply IH]. unfold next_point. destruct (Req_EM_T _ _); reflexivity.
Qed.
Lemma resurvey_accepts : forall h rows deg sx sn unit s tol dc, Survey h rows deg sx sn unit = Some s ->
  ((exists r, resurvey s tol dc = Some r) <-> unit = "meters"%string).
Proof.
  intros h rows deg sx sn unit s tol dc HS. destruct (Survey_stations _ _ _ _ _ _ _ HS) as (HH & L0 & _).
  assert (A : exists s, Survey h rows deg sx sn unit = Some s) by eauto. apply Survey_accepts in A. destruct A as (U & U2 & L).
  unfold resurvey. rewrite Survey_accepts, HH. split.
  - intros (E & _). congruence.
  - intros ->. split; [auto|]. split; [auto|]. rewrite control_rows_eq, map_length. unfold section_starts. cbn [length]. rewrite app_length. simpl. lia.
Qed.
Lemma resurvey_rows : forall h rows deg sx sn unit s tol dc r, Survey h rows deg sx sn unit = Some s -> resurvey s tol dc = Some r ->
  sv_rows r = map (fun k => let a := row_at s k in mkSt (st_md a) (st_inc a)
      (st_azi a + match h_ref h with RefGrid => 0 | RefTrue => - h_convergence h | RefMagnetic => h_declination h - h_convergence h end))
    (section_starts s tol tol dc).
Proof.
  intros h rows deg sx sn unit s tol dc r HS HR. destruct (Survey_stations _ _ _ _ _ _ _ HS) as (HH & _).
  unfold resurvey in HR. rewrite (Survey_rows _ _ _ _ _ _ _ HR), control_rows_eq, map_map, HH. apply map_ext. intro k.
  cbv zeta. rewrite rad_deg. f_equal. unfold process_azi_ref.
  destruct (h_ref h); cbn [az_grid_rad]; unfold radians, degrees; field; apply Rgt_not_eq; apply PI_RGT_0.
Qed.

Lemma ascending_neighbours : forall l i j, ascending l -> neighbours l i j -> (i < j)%nat /\ forall m, In m l -> (m <= i \/ j <= m)%nat.
Proof.
  assert (UP : forall l a, ascending (a :: l) -> forall m, In m l -> (a < m)%nat).
  { induction l as [|b l IH]; intros a A m M; [destruct M|]. destruct A as [A1 A2]. destruct M as [<-|M]; auto. pose proof (IH b A2 m M). lia. }
  assert (TL : forall a l, ascending (a :: l) -> ascending l).
  { intros a [|b l] H; simpl in *; tauto. }
  intros l i j A (pre & post & ->). induction pre as [|x pre IH].
  - simpl in A. destruct A as [A1 A2]. split; auto. intros m [<-|[<-|M]]; auto. right. pose proof (UP post j A2 m M). lia.
  - destruct (IH (TL _ _ A)) as [I1 I2]. split; auto. intros m [<-|M]; auto.
    left. assert (x < i)%nat; [|lia]. apply (UP _ _ A). apply in_app_iff. right. left. auto.
Qed.

(** ** sections found with zero tolerance are straight or circular *)
Lemma near_0 : forall a b, near 0 0 a b -> a = b.
Proof. intros a b H. unfold near in H. rewrite Rmult_0_l, Rplus_0_r in H. pose proof (Rabs_pos (a - b)). apply Rminus_diag_uniq. destruct (Req_dec (a - b) 0); auto. apply Rabs_pos_lt in H1. lra. Qed.
Lemma same_plane_0 : forall a b, same_plane 0 0 a b -> a = b.
Proof.
  intros [u|] [v|] H; simpl in H; try tauto. f_equal. destruct H as (H1 & H2 & H3). apply V3_eq; apply near_0; auto.
Qed.
Lemma bend_of_normal : forall a b n, plane_normal a b = Some n ->
  is_unit n /\ orthogonal n (heading a) /\ 0 < pair_dogleg a b < PI /\
  heading b = vadd (vscale (cos (pair_dogleg a b)) (heading a)) (vscale (sin (pair_dogleg a b)) (cross n (heading a))).
Proof.
  intros a b n H. unfold plane_normal, row_unit in H. rewrite !vec_nev_of_dir in H.
  fold (heading a) in H. fold (heading b) in H. destruct (Req_EM_T _ _) as [|NZ]; [discriminate|]. injection H as <-.
  pose proof (pair_angle a b) as AB. fold (heading a) (heading b) in AB. set (t := pair_dogleg a b) in *.
  assert (UA : is_unit (heading a)) by apply direction_unit. assert (UB : is_unit (heading b)) by apply direction_unit.
  destruct AB as [T CT]. pose proof (lagrange (heading a) (heading b)) as LG. unfold is_unit in UA, UB. 
  change (dir a) with (heading a) in CT. change (dir b) with (heading b) in CT. rewrite UA, UB, <- CT in LG.
  pose proof (sin2_cos2' t) as SC. assert (S0 : 0 <= sin t) by (apply sin_ge_0; lra).
  assert (NS : norm (cross (heading a) (heading b)) = sin t) by (apply norm_from_sqr; [auto|lra]).
  rewrite NS in *. assert (0 < sin t) by lra.
  assert (T2 : 0 < t < PI).
  { split; [destruct (Req_dec t 0) as [E|]; [rewrite E, sin_0 in *; lra|lra]|destruct (Req_dec t PI) as [E|]; [rewrite E, sin_PI in *; lra|lra]]. }
  set (u := heading a) in *. set (v := heading b) in *.
  split. { unfold is_unit. rewrite dot_vscale_l, dot_vscale_r. field_simplify_eq; [|lra]. lra. }
  split. { unfold orthogonal. rewrite dot_vscale_l. replace (dot (cross u v) u) with 0 by (clearbody u v; revert u v UA UB CT LG NS NZ; vring). ring. }
  split; auto.
  assert (X : cross (vscale (/ sin t) (cross u v)) u = vscale (/ sin t) (vsub (vscale (dot u u) v) (vscale (dot u v) u))).
  { generalize (/ sin t). clear. clearbody u v. intro k. revert u v. vring. }
  rewrite X, UA, <- CT. clear - H. clearbody u v. revert u v. intros [] []. unfold vadd, vsub, vscale; simpl. apply V3_eq; simpl; field; lra.
Qed.
Lemma straight_of_no_normal : forall a b, plane_normal a b = None -> pair_dogleg a b < PI -> heading b = heading a.
Proof.
  intros a b H L. unfold plane_normal, row_unit in H. rewrite !vec_nev_of_dir in H.
  fold (heading a) in H. fold (heading b) in H. destruct (Req_EM_T _ _) as [Z|NZ]; [|discriminate].
  pose proof (pair_angle a b) as AB. destruct AB as [T CT].
  change (dir a) with (heading a) in CT. change (dir b) with (heading b) in CT.
  assert (UA : is_unit (heading a)) by apply direction_unit. assert (UB : is_unit (heading b)) by apply direction_unit.
  pose proof (lagrange (heading a) (heading b)) as LG. unfold is_unit in UA, UB. rewrite UA, UB in LG.
  rewrite <- norm_sqr, Z in LG. symmetry. apply unit_dot_1_eq; auto.
  assert (D : (dot (heading a) (heading b) - 1) * (dot (heading a) (heading b) + 1) = 0) by lra.
  apply Rmult_integral in D. destruct D as [D|D]; [lra|]. exfalso.
  assert (cos (pair_dogleg a b) = cos PI) by (rewrite cos_PI; lra). pose proof PI_RGT_0.
  assert (pair_dogleg a b = PI) by (apply cos_inj_0_PI; auto; lra). lra.
Qed.

Lemma resurvey_reproduces : forall h rows deg sx sn unit s tol dc r,
  Survey h rows deg sx sn unit = Some s -> h_ref h = RefGrid -> resurvey s tol dc = Some r ->
  (forall i j, neighbours (section_starts s tol tol dc) i j ->
     straight_between (sv_rows s) i j \/ exists n c, circular_between (sv_rows s) i j n c) ->
  length (sv_rows r) = length (section_starts s tol tol dc) /\
  (forall i k, nth_error (section_starts s tol tol dc) i = Some k ->
     nth_error (sv_rows r) i = nth_error (sv_rows s) k /\ nth_error (sv_nev r) i = nth_error (sv_nev s) k) /\
  forall tolerance, resurvey_misfit s tol dc tolerance = Some (Rabs tolerance).
Proof.
  intros h rows deg sx sn unit s tol dc r HS G HR SEC.
  assert (RR : sv_rows r = picked s (section_starts s tol tol dc)).
  { rewrite (resurvey_rows _ _ _ _ _ _ _ _ _ _ HS HR), G. unfold picked. apply map_ext. intro k. cbv zeta. rewrite Rplus_0_r. destruct (row_at s k); reflexivity. }
  destruct (Survey_stations _ _ _ _ _ _ _ HS) as (HH & L0 & _ & _ & _ & _ & _ & LN & _).
  assert (A : exists s, Survey h rows deg sx sn unit = Some s) by eauto. apply Survey_accepts in A. destruct A as (U & U2 & L).
  assert (L2 : (2 <= length (sv_rows s))%nat) by lia.
  set (ks := section_starts s tol tol dc) in *.
  pose proof (starts_ascending s tol tol dc L2) as ASC. fold ks in ASC.
  destruct (starts_first_last s tol tol dc L2) as [F1 F2]. fold ks in F1, F2.
  assert (B : forall k, In k ks -> (k < length (sv_rows s))%nat).
  { intros k H. unfold ks, section_starts in H. destruct H as [<-|H]; [lia|]. apply in_app_iff in H. destruct H as [H|[<-|[]]]; [|lia].
    apply breaks_bound in H. rewrite pairwise_length, section_data_length in H; lia. }
  assert (NR : forall k, In k ks -> nth_error (sv_rows s) k = Some (row_at s k)).
  { intros k H. unfold row_at. apply nth_error_nth'. auto. }
  assert (NN : forall k, In k ks -> nth_error (sv_nev s) k = Some (nev_at s k)).
  { intros k H. unfold nev_at. apply nth_error_nth'. specialize (B k H). lia. }
  assert (NV : sv_nev r = picked_nev s ks).
  { apply (traced_unique (sv_rows r)); [apply (survey_traced _ _ _ _ _ _ _ HR)| |].
    - rewrite RR. apply traced_from_steps. { unfold picked, picked_nev. rewrite !map_length; auto. }
      { unfold picked. rewrite map_length. destruct ks; [discriminate|simpl; lia]. }
      intros i a b p q A1 A2 P1 P2. unfold picked, picked_nev in *. rewrite nth_error_map in A1, A2, P1, P2.
      destruct (nth_error ks i) as [k1|] eqn:K1; [|discriminate]. destruct (nth_error ks (S i)) as [k2|] eqn:K2; [|discriminate].
      assert (I1 : In k1 ks) by (eapply nth_error_In; eauto). assert (I2 : In k2 ks) by (eapply nth_error_In; eauto).
      assert (NB : neighbours ks k1 k2).
      { apply nth_error_split in K1. destruct K1 as (pre & post & E & LP). rewrite E in K2. rewrite nth_error_app2 in K2 by lia.
        replace (S i - length pre)%nat with 1%nat in K2 by lia. destruct post as [|x post]; [discriminate|]. injection K2 as ->. exists pre, post. auto. }
      pose proof (ascending_neighbours _ _ _ ASC NB) as [LT _].
      simpl in A1, A2, P1, P2. injection A1 as <-. injection A2 as <-. injection P1 as <-. injection P2 as <-.
      pose proof (section_displacement _ _ _ _ _ _ _ HS k1 k2 _ _ _ _ LT (NR _ I1) (NR _ I2) (NN _ I1) (NN _ I2) (SEC _ _ NB)) as D.
      exact D.
    - destruct (Survey_intervals _ _ _ _ _ _ _ HR) as (_ & N0 & _). destruct (sv_nev r) as [|p l]; [discriminate|]. injection N0 as ->.
      unfold picked_nev. destruct ks as [|k0 ks']; [discriminate|]. injection F1 as ->. simpl. f_equal.
      unfold nev_at. destruct (sv_nev s); reflexivity. }
  split; [rewrite RR; apply map_length|]. split.
  - intros i k K. assert (I : In k ks) by (eapply nth_error_In; eauto). rewrite RR, NV. unfold picked, picked_nev.
    rewrite !nth_error_map, K, (NR k I), (NN k I). auto.
  - intro tolerance. unfold resurvey_misfit. rewrite HR, NV.
    assert (LL : last (picked_nev s ks) vzero = last (sv_nev s) vzero).
    { destruct (rev ks) as [|z zs] eqn:RV; [discriminate|]. injection F2 as ->.
      assert (E : ks = rev zs ++ [(length (sv_rows s) - 1)%nat]) by (rewrite <- (rev_involutive ks), RV; reflexivity).
      rewrite E. unfold picked_nev. rewrite map_app. simpl. rewrite last_last. unfold nev_at.
      replace (length (sv_rows s) - 1)%nat with (length (sv_nev s) - 1)%nat by lia.
      destruct (exists_last (l := sv_nev s)) as (l' & x & EX). { intro Z. rewrite Z in LN. simpl in LN. lia. }
      rewrite EX, last_last, app_length. simpl. rewrite app_nth2 by lia. replace (length l' + 1 - 1 - length l')%nat with 0%nat by lia. reflexivity. }
    rewrite LL. f_equal. replace (vsub (last (sv_nev s) vzero) (last (sv_nev s) vzero)) with vzero by (generalize (last (sv_nev s) vzero); vring).
    unfold vzero; cbn [vx vy vz]. rewrite Rabs_R0. rewrite (Rmax_left 0 0) by lra. rewrite (Rmax_left 0 0) by lra. rewrite Rminus_0_r. reflexivity.
Qed.

Lemma sections_are_arcs : forall h rows deg sx sn unit s i j,
  Survey h rows deg sx sn unit = Some s -> strictly_increasing (map st_md (sv_rows s)) ->
  neighbours (section_starts s 0 0 true) i j ->
  (forall k d d', (i < k)%nat -> (S k <= j)%nat -> nth_error (cv_dls (survey_curves s)) k = Some d -> nth_error (cv_dls (survey_curves s)) (S k) = Some d' ->
     alike_rounded (around 2) d d' -> d = d') ->
  (forall a b d, nth_error (sv_rows s) i = Some a -> nth_error (sv_rows s) j = Some b ->
     nth_error (cv_dls (survey_curves s)) j = Some (Fin d) ->
     d * ((st_md b - st_md a) / rate_length unit) < 180) ->
  straight_between (sv_rows s) i j \/ exists n c, circular_between (sv_rows s) i j n c.
Proof.
  intros h rows deg sx sn unit s i j HS INC NB DIST TURN.
  destruct (Survey_stations _ _ _ _ _ _ _ HS) as (HH & L0 & _ & _ & _ & _ & _ & LN & _).
  assert (A : exists s, Survey h rows deg sx sn unit = Some s) by eauto. apply Survey_accepts in A. destruct A as (U & U2 & L).
  assert (L2 : (2 <= length (sv_rows s))%nat) by lia.
  pose proof (starts_ascending s 0 0 true L2) as ASC.
  destruct (ascending_neighbours _ _ _ ASC NB) as [IJ GAP].
  assert (JL : (j < length (sv_rows s))%nat).
  { destruct NB as (pre & post & E). assert (H : In j (section_starts s 0 0 true)) by (rewrite E; apply in_app_iff; right; right; left; auto).
    unfold section_starts in H. destruct H as [<-|H]; [lia|]. apply in_app_iff in H. destruct H as [H|[<-|[]]]; [|lia].
    apply breaks_bound in H. rewrite pairwise_length, section_data_length in H; lia. }
  assert (ROW : forall k, (k < length (sv_rows s))%nat -> nth_error (sv_rows s) k = Some (row_at s k)).
  { intros k K. apply nth_error_nth'. auto. }
  set (x := rate_length unit) in *.
  assert (XE : rate_length (h_unit (sv_header s)) = x) by (unfold x; rewrite HH, U; auto).
  assert (X0 : 0 < x) by apply rate_length_pos. pose proof PI_RGT_0 as HPI.
  set (c := fun k => pair_dogleg (row_at s k) (row_at s (S k)) / (st_md (row_at s (S k)) - st_md (row_at s k))).
  assert (MD : forall k l, (k < l < length (sv_rows s))%nat -> st_md (row_at s k) < st_md (row_at s l)).
  { intros k l K. apply (incr_lt (map st_md (sv_rows s)) k l); auto; try lia; rewrite nth_error_map, ROW by lia; reflexivity. }
  assert (DL : forall k, (S k < length (sv_rows s))%nat -> nth_error (cv_dls (survey_curves s)) (S k) = Some (Fin (x * (180 / PI) * c k))).
  { intros k K. pose proof (MD k (S k) ltac:(lia)).
    rewrite (dls_next s k _ _ (pair_dogleg (row_at s k) (row_at s (S k))) (ROW k ltac:(lia)) (ROW (S k) K) (pair_angle _ _) ltac:(lra)), XE.
    do 2 f_equal. unfold c. field. lra. }
  assert (NM : forall k, (S k < length (sv_rows s))%nat -> nth_error (cv_normals (survey_curves s)) k = Some (plane_normal (row_at s k) (row_at s (S k)))).
  { intros k K. cbn [survey_curves cv_normals]. apply normals_nth; apply ROW; lia. }
  assert (SAME : forall m, (i + m < j)%nat -> plane_normal (row_at s (i + m)) (row_at s (S (i + m))) = plane_normal (row_at s i) (row_at s (S i)) /\ c (i + m)%nat = c i).
  { induction m as [|m IH]; intro M; [rewrite Nat.add_0_r; auto|].
    destruct (IH ltac:(lia)) as [I1 I2]. replace (i + S m)%nat with (S (i + m)) in * by lia. set (k := (i + m)%nat) in *.
    assert (NI : ~ In (S k) (section_starts s 0 0 true)). { intro H. destruct (GAP _ H); lia. }
    rewrite (starts_iff s 0 0 true k _ _ _ _ L2 ltac:(lia) (NM k ltac:(lia)) (NM (S k) ltac:(lia)) (DL k ltac:(lia)) (DL (S k) ltac:(lia))) in NI.
    assert (SP : same_plane 0 0 (plane_normal (row_at s k) (row_at s (S k))) (plane_normal (row_at s (S k)) (row_at s (S (S k)))) /\
       (true = true -> alike_rounded (around 2) (Fin (x * (180 / PI) * c k)) (Fin (x * (180 / PI) * c (S k))))).
    { destruct (close_rows 0 0 (plane_normal (row_at s k) (row_at s (S k))) (plane_normal (row_at s (S k)) (row_at s (S (S k))))) eqn:E1;
      destruct (around_equal (Fin (x * (180 / PI) * c k)) (Fin (x * (180 / PI) * c (S k)))) eqn:E2.
      - split; [apply close_rows_iff; auto|intros _; apply around_equal_iff; auto].
      - exfalso. apply NI. intros [_ H]. specialize (H eq_refl). apply around_equal_iff in H. congruence.
      - exfalso. apply NI. intros [H _]. apply close_rows_iff in H. congruence.
      - exfalso. apply NI. intros [H _]. apply close_rows_iff in H. congruence. }
    destruct SP as [S1 S2]. apply same_plane_0 in S1. specialize (S2 eq_refl).
    pose proof (DIST (S k) _ _ ltac:(unfold k; lia) ltac:(lia) (DL k ltac:(lia)) (DL (S k) ltac:(lia)) S2) as E.
    injection E as E. split; [congruence|]. rewrite <- I2. apply (Rmult_eq_reg_l (x * (180 / PI))); [lra|].
    apply Rgt_not_eq. apply Rmult_lt_0_compat; [auto|]. apply Rdiv_lt_0_compat; lra. }
  assert (CJ : c (j - 1)%nat = c i). { replace (j - 1)%nat with (i + (j - 1 - i))%nat by lia. apply SAME. lia. }
  assert (TT : c i * (st_md (row_at s j) - st_md (row_at s i)) < PI).
  { pose proof (DL (j - 1)%nat ltac:(lia)) as D. rewrite CJ in D. replace (S (j - 1)) with j in D by lia.
    pose proof (TURN _ _ _ (ROW i ltac:(lia)) (ROW j JL) D) as T.
    replace (x * (180 / PI) * c i * ((st_md (row_at s j) - st_md (row_at s i)) / x)) with (c i * (st_md (row_at s j) - st_md (row_at s i)) * (180 / PI)) in T by (field; lra).
    apply (Rmult_lt_reg_r (180 / PI)); [apply Rdiv_lt_0_compat; lra|]. replace (PI * (180 / PI)) with 180 by (field; lra). auto. }
  assert (C0 : 0 <= c i).
  { unfold c. pose proof (MD i (S i) ltac:(lia)). apply Rmult_le_pos; [apply (pair_angle _ _)|]. left. apply Rinv_0_lt_compat. lra. }
  assert (STEP : forall k, (i <= k < j)%nat -> pair_dogleg (row_at s k) (row_at s (S k)) = c i * (st_md (row_at s (S k)) - st_md (row_at s k)) /\
     pair_dogleg (row_at s k) (row_at s (S k)) < PI).
  { intros k K. pose proof (MD k (S k) ltac:(lia)). assert (E : c k = c i). { replace k with (i + (k - i))%nat by lia. apply SAME. lia. }
    assert (E2 : pair_dogleg (row_at s k) (row_at s (S k)) = c i * (st_md (row_at s (S k)) - st_md (row_at s k))) by (rewrite <- E; unfold c; field; lra).
    split; auto. rewrite E2. eapply Rle_lt_trans; [|exact TT]. apply Rmult_le_compat_l; auto.
    assert (st_md (row_at s i) <= st_md (row_at s k)). { destruct (Nat.eq_dec i k) as [<-|]; [lra|]. pose proof (MD i k ltac:(lia)). lra. }
    assert (st_md (row_at s (S k)) <= st_md (row_at s j)). { destruct (Nat.eq_dec (S k) j) as [<-|]; [lra|]. pose proof (MD (S k) j ltac:(lia)). lra. }
    lra. }
  assert (GET : forall k a b, (i <= k < j)%nat -> nth_error (sv_rows s) k = Some a -> nth_error (sv_rows s) (S k) = Some b -> a = row_at s k /\ b = row_at s (S k)).
  { intros k a b K A B. rewrite ROW in A by lia. rewrite ROW in B by lia. split; congruence. }
  destruct (plane_normal (row_at s i) (row_at s (S i))) as [n|] eqn:PN.
  - right. exists n, (c i). destruct (bend_of_normal _ _ _ PN) as (N1 & _ & T1 & _).
    split. { pose proof (STEP i ltac:(lia)) as [E _]. pose proof (MD i (S i) ltac:(lia)). rewrite E in T1. nra. }
    split; auto. split.
    + intros k a b K A B. destruct (GET k a b K A B) as [-> ->]. destruct (STEP k K) as [E1 E2].
      assert (PK : plane_normal (row_at s k) (row_at s (S k)) = Some n). { replace k with (i + (k - i))%nat by lia. apply SAME. lia. }
      destruct (bend_of_normal _ _ _ PK) as (_ & O & T & HB). cbv zeta. rewrite <- E1. auto.
    + intros a b A B. rewrite ROW in A by lia. rewrite ROW in B by lia. injection A as <-. injection B as <-. auto.
  - left. intros k a b K A B. destruct (GET k a b K A B) as [-> ->]. apply straight_of_no_normal.
    + replace k with (i + (k - i))%nat by lia. apply SAME. lia.
    + apply STEP; auto.
Qed.
