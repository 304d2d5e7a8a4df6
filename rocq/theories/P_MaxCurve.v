(** Maximum curvature: rows, added stations, positions. *)
Require Import Reals ZArith Bool String List Lra Lia Psatz.
Require Import Verif.Base Verif.NumPy Verif.Spec Verif.Spec_Lists Verif.Spec_Rates Verif.M_Utils Verif.M_Survey Verif.M_Rates Verif.M_MaxCurve Verif.Spec_Sections Verif.Spec_MaxCurve Verif.Spec_RatesCases.
Require Import Verif.P_Trig Verif.P_Utils Verif.P_Utils2 Verif.P_Utils3 Verif.P_Survey Verif.P_Survey2 Verif.P_Survey3 Verif.P_Survey5 Verif.P_Rates Verif.P_Rates2 Verif.P_Rates3 Verif.P_Rates4 Verif.P_Rates6 Verif.P_Splice3.
Import ListNotations.
Open Scope R_scope.

(** the angle of the added arc *)
Lemma middle_row_value : forall noise a b d tf n, d + noise <> 0 -> arc_side a tf n ->
  let t := radians (d + noise) * (st_md b - st_md a) / 60 in
  exists inc azi,
    middle_row noise a b (Fin d) tf
    = Some (st_md a + (if Rlt_dec PI t then 2 * (st_md b - st_md a) * t / PI else (st_md b - st_md a) / 2), degrees inc, degrees azi) /\
    direction_nev inc azi = arc_tangent (heading a) n t.
Proof.
  intros noise a b d tf n NZ SD t. pose proof PI_RGT_0 as HP. unfold middle_row.
  destruct (radius_of_dls_finite (d + noise) NZ) as [_ RD]. rewrite RD.
  set (delta := st_md b - st_md a) in *. set (r := 30 * 360 / (2 * PI * (d + noise))) in *.
  assert (RN : r <> 0).
  { unfold r. intro Q. apply (f_equal (fun x => x * (2 * PI * (d + noise)))) in Q. rewrite Rmult_0_l in Q.
    replace (30 * 360 / (2 * PI * (d + noise)) * (2 * PI * (d + noise))) with (30 * 360) in Q by (field; lra). lra. }
  assert (T : delta / r / 2 = t). { unfold r, t, radians. field. split; lra. }
  rewrite T. cbv zeta.
  assert (TR : t * r = delta / 2). { rewrite <- T. field. auto. }
  set (rr := if Rlt_dec PI t then delta * 4 / (2 * PI) else r).
  unfold get_arc. rewrite vec_nev_of_dir. fold (heading a).
  pose proof (arc_transform_fwd t rr tf vzero (heading a) (unit_nonzero _ (direction_unit _ _))) as A.
  assert (E : let '(i, c) := get_angles true (heading a) in bend_direction i c tf = n).
  { destruct SD as [[I E]|[I E]].
    - pose proof (recovered_axes_pos (st_inc a) (st_azi a) I) as RA. unfold heading.
      destruct (get_angles true (direction_nev (st_inc a) (st_azi a))) as [j c]. rewrite bend_is_toolface, RA. auto.
    - assert (ED : heading a = mkV 0 0 1).
      { unfold heading, direction_nev. rewrite I, sin_0, cos_0. apply V3_eq; simpl; ring. }
      rewrite ED, angles_down, bend_is_toolface. auto. }
  destruct (get_angles true (heading a)) as [i c]. rewrite A. cbv zeta. rewrite E.
  rewrite (vunit_unit (heading a) (direction_unit _ _)).
  assert (U : is_unit (arc_tangent (heading a) n t)).
  { apply arc_tangent_unit; [apply direction_unit| |]; rewrite <- E; destruct SD as [[I E']|[I E']].
    all: rewrite E; subst n; rewrite <- bend_is_toolface; try apply bend_direction_spec.
    replace (heading a) with (direction_nev 0 0); [apply bend_direction_spec|].
    unfold heading, direction_nev. rewrite I, sin_0, cos_0. apply V3_eq; simpl; ring. }
  pose proof (get_angles_direction _ (unit_nonzero _ U)) as G. rewrite (vunit_unit _ U) in G.
  destruct (get_angles true (arc_tangent (heading a) n t)) as [inc azi].
  exists inc, azi. split; auto. do 4 f_equal. unfold rr. destruct (Rlt_dec PI t); [field; lra|auto].
Qed.
Lemma middle_row_finite : forall noise a b d tf, (exists m, middle_row noise a b d tf = Some m) <-> exists x, d = Fin x /\ x + noise <> 0.
Proof.
  intros. split.
  - intros [m H]. destruct d as [x| | |]; try discriminate. exists x. split; auto. intro Z. unfold middle_row in H. rewrite Z in H.
    unfold radius_from_dls_array in H. destruct (Req_EM_T 0 0); [|lra]. cbn in H. discriminate.
  - intros (x & -> & N). unfold middle_row. destruct (radius_of_dls_finite (x + noise) N) as [_ RD]. rewrite RD.
    destruct (get_arc _ _ _ _ _ _) as [[[p v] l] w]. destruct (get_angles true v). eauto.
Qed.

Lemma middle_rows_cons : forall noise a b r d dr t tr, middle_rows noise (a :: b :: r) (d :: dr) (t :: tr)
  = match middle_row noise a b d t, middle_rows noise (b :: r) dr tr with
    | Some m, Some l => Some (row_deg a :: m :: l)
    | _, _ => None
    end.
Proof. reflexivity. Qed.
Lemma middle_rows_nth : forall noise rows dls tf l, middle_rows noise rows dls tf = Some l ->
  length l = (2 * length rows - 1)%nat /\
  (forall k a, nth_error rows k = Some a -> nth_error l (2 * k) = Some (row_deg a)) /\
  (forall k a b d t, nth_error rows k = Some a -> nth_error rows (S k) = Some b -> nth_error dls k = Some d -> nth_error tf k = Some t ->
     exists m, nth_error l (2 * k + 1) = Some m /\ middle_row noise a b d t = Some m).
Proof.
  intros noise. induction rows as [|a rows IH]; intros dls tf l H.
  - injection H as <-. split; auto. split; intros [|]; discriminate.
  - destruct rows as [|b r].
    + injection H as <-. split; auto. split; [|intros [|]; discriminate]. intros [|[|]] x X; try discriminate. injection X as <-. reflexivity.
    + destruct dls as [|d dr]; [discriminate|]. destruct tf as [|t tr]; [discriminate|]. rewrite middle_rows_cons in H.
      destruct (middle_row noise a b d t) as [m|] eqn:M; [|discriminate].
      destruct (middle_rows noise (b :: r) dr tr) as [l'|] eqn:L; [|discriminate]. injection H as <-.
      destruct (IH _ _ _ L) as (L1 & L2 & L3). split; [simpl in *; lia|]. split.
      * intros [|k] x X; [injection X as <-; reflexivity|]. replace (2 * S k)%nat with (S (S (2 * k))) by lia. cbn. apply L2. auto.
      * intros [|k] x y e u X Y D T.
        -- cbn in X, Y, D, T. injection X as <-. injection Y as <-. injection D as <-. injection T as <-. exists m. auto.
        -- replace (2 * S k + 1)%nat with (S (S (2 * k + 1))) by lia. cbn. apply (L3 k x y e u); auto.
Qed.
Lemma middle_rows_finite : forall noise rows dls tf, (length rows - 1 <= length dls)%nat -> (length rows - 1 <= length tf)%nat ->
  ((exists l, middle_rows noise rows dls tf = Some l) <->
   forall k d, (S k < length rows)%nat -> nth_error dls k = Some d -> exists x, d = Fin x /\ x + noise <> 0).
Proof.
  intros noise. induction rows as [|a rows IH]; intros dls tf LD LT.
  - split; [intros _ k d K; simpl in K; lia|intros _; cbn; eauto].
  - destruct rows as [|b r]; [split; [intros _ k d K; simpl in K; lia|intros _; cbn; eauto]|].
    destruct dls as [|d dr]; [simpl in LD; lia|]. destruct tf as [|t tr]; [simpl in LT; lia|].
    specialize (IH dr tr ltac:(simpl in *; lia) ltac:(simpl in *; lia)). rewrite middle_rows_cons.
    split.
    + intros [l H] [|k] e K E.
      * cbn in E. injection E as <-. apply (middle_row_finite noise a b d t). destruct (middle_row noise a b d t); [eauto|discriminate].
      * cbn in E. apply (proj1 IH) with (k := k); auto; [|simpl in *; lia].
        destruct (middle_row noise a b d t); [|discriminate]. destruct (middle_rows noise (b :: r) dr tr); [eauto|discriminate].
    + intro H. destruct (proj2 (middle_row_finite noise a b d t)) as [m M]; [apply (H 0%nat); [simpl; lia|auto]|].
      destruct (proj2 IH) as [l L]; [intros k e K E; apply (H (S k)); [simpl in *; lia|auto]|].
      rewrite M, L. eauto.
Qed.

Lemma curve_lengths : forall s, sv_rows s <> [] -> length (tl (cv_dls (survey_curves s))) = (length (sv_rows s) - 1)%nat /\
  (length (sv_rows s) - 1 <= length (cv_toolface (survey_curves s)))%nat.
Proof.
  intros s H. cbn [survey_curves cv_dls cv_toolface]. unfold dls_list, toolfaces. cbn [tl]. rewrite app_length, !pairwise_length. lia.
Qed.

Lemma tl_nth : forall (A : Type) (l : list A) k, nth_error (tl l) k = nth_error l (S k).
Proof. intros A [|a l] k; cbn; auto. destruct k; auto. Qed.

(** C104: when a survey comes back *)
Lemma max_success : forall h rows deg sx sn unit s noise, Survey h rows deg sx sn unit = Some s ->
  (unit <> "meters"%string -> fst (maximum_curvature s noise) = MaxAssertion) /\
  (unit = "meters"%string ->
     ((exists r, fst (maximum_curvature s noise) = MaxOk r) <->
      forall k d, nth_error (cv_dls (survey_curves s)) (S k) = Some d -> exists x, d = Fin x /\ x + noise <> 0) /\
     ((exists r, fst (maximum_curvature s noise) = MaxOk r) \/ fst (maximum_curvature s noise) = MaxNan)).
Proof.
  intros h rows deg sx sn unit s noise H. destruct (Survey_inv _ _ _ _ _ _ _ H) as (HU & HH & L2 & _).
  unfold maximum_curvature. cbv zeta. cbn [fst]. change (h_unit (grid_reference (sv_header s))) with (h_unit (sv_header s)). rewrite HH, <- HU. split.
  - intro U. destruct (String.eqb_spec unit "meters"); [contradiction|]. auto.
  - intros ->. replace (String.eqb "meters" "meters") with true by reflexivity.
    destruct (curve_lengths s ltac:(destruct (sv_rows s); [simpl in L2; lia|discriminate])) as [LD LT].
    pose proof (middle_rows_finite noise (sv_rows s) (tl (cv_dls (survey_curves s))) (cv_toolface (survey_curves s)) ltac:(lia) LT) as MF.
    assert (EQ : (forall k d, (S k < length (sv_rows s))%nat -> nth_error (tl (cv_dls (survey_curves s))) k = Some d -> exists x, d = Fin x /\ x + noise <> 0) <->
      (forall k d, nth_error (cv_dls (survey_curves s)) (S k) = Some d -> exists x, d = Fin x /\ x + noise <> 0)).
    { split; intros Q k d.
      - intro D. apply (Q k d); rewrite ?tl_nth; auto. rewrite <- tl_nth in D.
        assert (k < length (tl (cv_dls (survey_curves s))))%nat by (apply nth_error_Some; congruence). lia.
      - intros _ D. rewrite tl_nth in D. eauto. }
    rewrite <- EQ, <- MF. clear EQ.
    destruct (middle_rows noise (sv_rows s) (tl (cv_dls (survey_curves s))) (cv_toolface (survey_curves s))) as [l|] eqn:M.
    + destruct (middle_rows_nth _ _ _ _ _ M) as (LL & _).
      destruct (proj2 (Survey_accepts (grid_reference h) l true (hd vzero (sv_xyz s)) (hd vzero (sv_nev s)) "meters")) as [r R]; [split; [exact HU|]; split; [auto|lia]|].
      rewrite R. split; [split; eauto|eauto].
    + split; [|auto]. split; intros [x X]; discriminate.
Qed.
Lemma max_inv : forall h rows deg sx sn unit s noise r, Survey h rows deg sx sn unit = Some s -> fst (maximum_curvature s noise) = MaxOk r ->
  exists l r0, middle_rows noise (sv_rows s) (tl (cv_dls (survey_curves s))) (cv_toolface (survey_curves s)) = Some l /\
    Survey (grid_reference h) l true sx sn "meters" = Some r0 /\
    sv_header r = grid_reference h /\ sv_rows r = sv_rows r0 /\ sv_nev r = sv_nev r0 /\ sv_xyz r = sv_xyz r0 /\ sv_interpolated r = middle_flags (sv_interpolated s) /\
    unit = "meters"%string /\ h_unit h = "meters"%string.
Proof.
  intros h rows deg sx sn unit s noise r H HR. destruct (Survey_inv _ _ _ _ _ _ _ H) as (HU & HH & L2 & _).
  destruct (Survey_intervals _ _ _ _ _ _ _ H) as (_ & N0 & X0 & _).
  unfold maximum_curvature in HR. cbv zeta in HR. cbn [fst] in HR. change (h_unit (grid_reference (sv_header s))) with (h_unit (sv_header s)) in HR.
  rewrite HH in HR. destruct (String.eqb_spec (h_unit h) "meters") as [U|]; [|discriminate].
  destruct (middle_rows noise (sv_rows s) (tl (cv_dls (survey_curves s))) (cv_toolface (survey_curves s))) as [l|] eqn:M; [|discriminate].
  assert (E1 : hd vzero (sv_nev s) = sn) by (destruct (sv_nev s); [discriminate|injection N0 as ->; auto]).
  assert (E2 : hd vzero (sv_xyz s) = sx) by (destruct (sv_xyz s); [discriminate|injection X0 as ->; auto]).
  rewrite E1, E2 in HR. destruct (Survey (grid_reference h) l true sx sn "meters") as [r0|] eqn:R; [|discriminate].
  injection HR as <-. exists l, r0. cbn [sv_header sv_rows sv_nev sv_xyz sv_interpolated].
  destruct (Survey_inv _ _ _ _ _ _ _ R) as (_ & HH' & _). rewrite HU. auto 10.
Qed.

Lemma radians_degrees : forall x, radians (degrees x) = x.
Proof. intro. unfold radians, degrees. field. pose proof PI_RGT_0; lra. Qed.
Lemma grid_rows : forall h l sx sn s k md inc azi, Survey (grid_reference h) l true sx sn "meters" = Some s ->
  nth_error l k = Some (md, degrees inc, degrees azi) -> nth_error (sv_rows s) k = Some (mkSt md inc azi).
Proof.
  intros h l sx sn s k md inc azi H E. rewrite (Survey_rows _ _ _ _ _ _ _ H). rewrite nth_error_map, E. cbn [option_map]. f_equal.
  change (h_ref (grid_reference h)) with RefGrid. unfold process_azi_ref. cbn [az_grid_rad]. rewrite !radians_degrees. reflexivity.
Qed.
Lemma flags_nth : forall l k f, nth_error l k = Some f -> nth_error (middle_flags l) (2 * k) = Some f /\
  ((S k < length l)%nat -> nth_error (middle_flags l) (2 * k + 1) = Some true).
Proof.
  induction l as [|a l IH]; intros k f H; [destruct k; discriminate|].
  destruct l as [|b l].
  - destruct k as [|[|]]; try discriminate. split; [auto|simpl; lia].
  - destruct k as [|k]; [auto|]. cbn in H. destruct (IH k f H) as [I1 I2].
    replace (2 * S k)%nat with (S (S (2 * k))) by lia. replace (S (S (2 * k)) + 1)%nat with (S (S (2 * k + 1))) by lia. cbn [middle_flags nth_error].
    split; auto. intro L. apply I2. simpl in *. lia.
Qed.

(** C104: the original stations *)
Lemma max_originals : forall h rows deg sx sn unit s noise r, Survey h rows deg sx sn unit = Some s -> fst (maximum_curvature s noise) = MaxOk r ->
  length (sv_rows r) = (2 * length (sv_rows s) - 1)%nat /\
  length (sv_nev r) = (2 * length (sv_rows s) - 1)%nat /\
  h_ref (sv_header r) = RefGrid /\
  nth_error (sv_nev r) 0 = nth_error (sv_nev s) 0 /\ nth_error (sv_xyz r) 0 = nth_error (sv_xyz s) 0 /\
  forall k a f, nth_error (sv_rows s) k = Some a -> nth_error (sv_interpolated s) k = Some f ->
    nth_error (sv_rows r) (2 * k) = Some a /\ nth_error (sv_interpolated r) (2 * k) = Some f.
Proof.
  intros h rows deg sx sn unit s noise r H HR.
  destruct (max_inv _ _ _ _ _ _ _ _ _ H HR) as (l & r0 & M & R & HH & ER & EN & EX & EF & _).
  destruct (middle_rows_nth _ _ _ _ _ M) as (LL & ML & _).
  destruct (Survey_stations _ _ _ _ _ _ _ R) as (_ & L0 & _ & _ & _ & _ & _ & LN & _).
  destruct (Survey_intervals _ _ _ _ _ _ _ R) as (_ & N0 & X0 & _).
  destruct (Survey_intervals _ _ _ _ _ _ _ H) as (_ & N1 & X1 & _).
  rewrite ER, EN, EX, EF, HH. split; [lia|]. split; [lia|]. split; [auto|]. split; [congruence|]. split; [congruence|].
  intros k [md inc azi] f A F. split.
  - apply (grid_rows _ _ _ _ _ _ _ _ _ R). apply (ML k _ A).
  - apply (flags_nth _ _ _ F).
Qed.
(** C104: the added stations *)
Lemma max_added : forall h rows deg sx sn unit s noise r k a b d tf n, Survey h rows deg sx sn unit = Some s -> fst (maximum_curvature s noise) = MaxOk r ->
  nth_error (sv_rows s) k = Some a -> nth_error (sv_rows s) (S k) = Some b ->
  nth_error (cv_dls (survey_curves s)) (S k) = Some (Fin d) -> nth_error (cv_toolface (survey_curves s)) k = Some tf -> arc_side a tf n ->
  let t := radians (d + noise) * (st_md b - st_md a) / 60 in
  exists m, nth_error (sv_rows r) (2 * k + 1) = Some m /\ nth_error (sv_interpolated r) (2 * k + 1) = Some true /\
    heading m = arc_tangent (heading a) n t /\
    (t <= PI -> st_md m = (st_md a + st_md b) / 2) /\
    (PI < t -> st_md m = st_md a + 2 * (st_md b - st_md a) * t / PI).
Proof.
  intros h rows deg sx sn unit s noise r k a b d tf n H HR A B D T SD t.
  destruct (max_inv _ _ _ _ _ _ _ _ _ H HR) as (l & r0 & M & R & HH & ER & EN & EX & EF & U & _).
  destruct (proj2 (max_success _ _ _ _ _ _ _ noise H) U) as [MS _].
  destruct (proj1 MS (ex_intro _ r HR) k _ D) as (x & Q & NZ). injection Q as <-.
  destruct (middle_rows_nth _ _ _ _ _ M) as (LL & _ & MM).
  destruct (MM k a b (Fin d) tf A B ltac:(rewrite tl_nth; auto) T) as (m & M1 & M2).
  destruct (middle_row_value noise a b d tf n NZ SD) as (inc & azi & V1 & V2). fold t in V1, V2.
  rewrite M2 in V1. injection V1 as ->.
  pose proof (grid_rows _ _ _ _ _ _ _ _ _ R M1) as G. rewrite <- ER in G.
  eexists. split; [exact G|]. split.
  { rewrite EF. destruct (Survey_stations _ _ _ _ _ _ _ H) as (_ & L0 & _ & _ & _ & _ & _ & _ & _ & LI & _).
    assert (LS : (S k < length (sv_rows s))%nat) by (apply nth_error_Some; congruence).
    destruct (nth_error (sv_interpolated s) k) as [f|] eqn:F; [|apply nth_error_None in F; lia].
    apply (flags_nth _ _ _ F). lia. }
  split; [exact V2|]. cbn [st_md]. destruct (Rlt_dec PI t); split; intro; try lra; auto; field.
Qed.

Lemma tangent_dot : forall u n t, is_unit u -> is_unit n -> orthogonal u n -> dot u (arc_tangent u n t) = cos t.
Proof.
  intros u n t U N O. rewrite <- (arc_tangent_0 u n) at 1. rewrite arc_tangent_dot by auto. f_equal. ring.
Qed.
Lemma normal_after : forall u n t, is_unit u -> is_unit n -> orthogonal u n ->
  is_unit (arc_normal u n t) /\ orthogonal (arc_tangent u n t) (arc_normal u n t).
Proof.
  intros [u1 u2 u3] [n1 n2 n3] t U N O. unfold is_unit, orthogonal, arc_normal, arc_tangent in *. unf. simpl in *. pose proof (sin2_cos2' t) as P.
  split.
  - replace 1 with (cos t * cos t * (n1 * n1 + n2 * n2 + n3 * n3) + sin t * sin t * (u1 * u1 + u2 * u2 + u3 * u3) - 2 * sin t * cos t * (u1 * n1 + u2 * n2 + u3 * n3)); [ring|rewrite U, N, O; lra].
  - replace 0 with (sin t * cos t * (n1 * n1 + n2 * n2 + n3 * n3) - sin t * cos t * (u1 * u1 + u2 * u2 + u3 * u3) + (cos t * cos t - sin t * sin t) * (u1 * n1 + u2 * n2 + u3 * n3)); [ring|rewrite U, N, O; ring].
Qed.
(** C104: the first half of a section is bent by the noise *)
Lemma side_unit : forall a tf n, arc_side a tf n -> is_unit n /\ orthogonal (heading a) n.
Proof.
  intros a tf n [[I E]|[I E]]; subst n; rewrite <- bend_is_toolface.
  - split; apply bend_direction_spec.
  - split; [apply bend_direction_spec|]. replace (heading a) with (direction_nev 0 0); [apply bend_direction_spec|].
    unfold heading, direction_nev. rewrite I, sin_0, cos_0. apply V3_eq; simpl; ring.
Qed.
Lemma max_first_half : forall h rows deg sx sn unit s noise r k a b d tf n p q m,
  Survey h rows deg sx sn unit = Some s -> fst (maximum_curvature s noise) = MaxOk r ->
  nth_error (sv_rows s) k = Some a -> nth_error (sv_rows s) (S k) = Some b ->
  nth_error (cv_dls (survey_curves s)) (S k) = Some (Fin d) -> nth_error (cv_toolface (survey_curves s)) k = Some tf -> arc_side a tf n ->
  nth_error (sv_rows r) (2 * k + 1) = Some m ->
  nth_error (sv_nev r) (2 * k) = Some p -> nth_error (sv_nev r) (2 * k + 1) = Some q ->
  let t := radians (d + noise) * (st_md b - st_md a) / 60 in
  st_md a < st_md b -> 0 < t < PI ->
  section_arc p (heading a) q (heading m) ((st_md b - st_md a) / 2) t n /\
  nth_error (cv_dls (survey_curves r)) (2 * k + 1) = Some (Fin (d + noise)).
Proof.
  intros h rows deg sx sn unit s noise r k a b d tf n p q m H HR A B D T SD MR P Q t L TT.
  destruct (max_added _ _ _ _ _ _ _ _ _ _ _ _ _ _ _ H HR A B D T SD) as (m' & MR' & _ & HM & MD & _).
  rewrite MR in MR'. injection MR' as <-. fold t in HM, MD. specialize (MD ltac:(lra)).
  destruct (max_originals _ _ _ _ _ _ _ _ _ H HR) as (_ & _ & _ & _ & _ & OR).
  destruct (Survey_stations _ _ _ _ _ _ _ H) as (_ & L0 & _ & _ & _ & _ & _ & _ & _ & LI & _).
  assert (LS : (S k < length (sv_rows s))%nat) by (apply nth_error_Some; congruence).
  destruct (nth_error (sv_interpolated s) k) as [f|] eqn:F; [|apply nth_error_None in F; lia].
  destruct (OR k a f A F) as [A' _].
  destruct (max_inv _ _ _ _ _ _ _ _ _ H HR) as (l & r0 & M & R & HH & ER & EN & EX & EF & U & U').
  destruct (side_unit a tf n SD) as [N1 N2].
  assert (AN : angle_between (heading a) (heading m) t).
  { split; [lra|]. rewrite HM. symmetry. apply tangent_dot; auto. apply direction_unit. }
  replace (2 * k + 1)%nat with (S (2 * k)) in * by lia.
  assert (SA : section_arc p (heading a) q (heading m) (st_md m - st_md a) t n).
  { apply (Survey_section _ _ _ _ _ _ _ (2 * k) a m p q t n R); rewrite <- ?ER, <- ?EN; auto. }
  replace (st_md m - st_md a) with ((st_md b - st_md a) / 2) in SA by lra. split; auto.
  rewrite (dls_next r (2 * k) a m t A' MR AN) by lra. rewrite HH. change (h_unit (grid_reference h)) with (h_unit h). rewrite U'.
  replace (rate_length "meters") with 30 by reflexivity. do 2 f_equal. rewrite MD. unfold t, radians. field. pose proof PI_RGT_0. split; lra.
Qed.

(** C104: without noise the trajectory does not move *)
Lemma max_same : forall h rows deg sx sn unit s r,
  Survey h rows deg sx sn unit = Some s -> fst (maximum_curvature s 0) = MaxOk r ->
  strictly_increasing (map st_md (sv_rows s)) ->
  (forall k a b t, nth_error (sv_rows s) k = Some a -> nth_error (sv_rows s) (S k) = Some b ->
     angle_between (heading a) (heading b) t -> 0 < t < PI) ->
  (forall k a, nth_error (sv_rows s) k = Some a -> 0 < st_inc a < PI \/ st_inc a = 0 /\ st_azi a = 0) ->
  forall k p, nth_error (sv_nev s) k = Some p -> nth_error (sv_nev r) (2 * k) = Some p.
Proof.
  intros h rows deg sx sn unit s r H HR INC BEND VERT.
  destruct (max_originals _ _ _ _ _ _ _ _ _ H HR) as (LR & LNR & _ & N0 & _ & OR).
  destruct (Survey_stations _ _ _ _ _ _ _ H) as (_ & L0 & _ & _ & _ & _ & _ & LN & _ & LI & _).
  destruct (max_inv _ _ _ _ _ _ _ _ _ H HR) as (l & r0 & M & R & HH & ER & EN & EX & EF & U & U').
  induction k as [|k IH]; intros q Q; [change (2 * 0)%nat with 0%nat; congruence|].
  assert (LK : (S k < length (sv_rows s))%nat). { rewrite L0, <- LN. apply nth_error_Some. congruence. }
  destruct (nth_error (sv_nev s) k) as [p|] eqn:P; [|apply nth_error_None in P; lia].
  specialize (IH p eq_refl).
  destruct (nth_error (sv_rows s) k) as [a|] eqn:A; [|apply nth_error_None in A; lia].
  destruct (nth_error (sv_rows s) (S k)) as [b|] eqn:B; [|apply nth_error_None in B; lia].
  destruct (nth_error (sv_interpolated s) (S k)) as [f|] eqn:F; [|apply nth_error_None in F; lia].
  destruct (OR (S k) b f B F) as [B' _].
  destruct (nth_error (cv_toolface (survey_curves s)) k) as [tf|] eqn:T.
  2:{ apply nth_error_None in T. destruct (curve_lengths s) as [_ LT]; [intro Z; rewrite Z in LK; simpl in LK; lia|lia]. }
  assert (MD : st_md a < st_md b) by (apply (incr_lt (map st_md (sv_rows s)) k (S k)); auto; rewrite nth_error_map, ?A, ?B; auto).
  set (t := pair_dogleg a b). assert (AN : angle_between (heading a) (heading b) t) by apply pair_angle.
  pose proof (BEND k a b t A B AN) as TT.
  destruct (toolface_first _ _ _ _ _ _ _ _ _ _ _ _ _ _ H A B P Q AN TT T) as [_ SA].
  set (n := toolface_dir (st_inc a) (st_azi a) tf) in *. fold (heading a) (heading b) in SA.
  assert (SD : arc_side a tf n).
  { destruct (VERT k a A) as [I|[I Z]]; [left; auto|right; split; auto]. unfold n. rewrite I, Z. auto. }
  assert (D : nth_error (cv_dls (survey_curves s)) (S k) = Some (Fin (30 * (t * (180 / PI)) / (st_md b - st_md a)))).
  { rewrite (dls_next s k a b t A B AN) by lra. destruct (Survey_inv _ _ _ _ _ _ _ H) as (_ & HS & _). rewrite HS, U'. reflexivity. }
  destruct (max_added _ _ _ _ _ _ _ _ _ _ _ _ _ _ _ H HR A B D T SD) as (m & MR & _ & HM & MDM & _).
  destruct (nth_error (sv_nev r) (2 * k + 1)) as [z|] eqn:Z; [|apply nth_error_None in Z; lia].
  destruct (nth_error (sv_nev r) (2 * S k)) as [q'|] eqn:Q'; [|apply nth_error_None in Q'; lia].
  pose proof (max_first_half _ _ _ _ _ _ _ _ _ _ _ _ _ _ _ _ _ _ H HR A B D T SD MR IH Z) as FH.
  cbv zeta in FH, MDM, HM.
  replace (radians (30 * (t * (180 / PI)) / (st_md b - st_md a) + 0) * (st_md b - st_md a) / 60) with (t / 2) in FH, MDM, HM.
  2:{ unfold radians. field. pose proof PI_RGT_0. split; lra. }
  destruct FH as [SM _]; auto; try lra. specialize (MDM ltac:(lra)).
  destruct SA as (S1 & S2 & S3 & S4 & S5).
  destruct SM as (_ & _ & _ & SP & SV).
  assert (HB : heading b = arc_tangent (heading m) (arc_normal (heading a) n (t / 2)) (t / 2)).
  { rewrite SV, arc_tangent_further. rewrite S5. f_equal. field. }
  destruct (normal_after (heading a) n (t / 2)) as [N1 N2]; auto; [apply direction_unit|].
  assert (SB : section_arc z (heading m) q' (heading b) (st_md b - st_md m) (t / 2) (arc_normal (heading a) n (t / 2))).
  { replace (2 * S k)%nat with (S (2 * k + 1)) in * by lia.
    apply (Survey_section _ _ _ _ _ _ _ (2 * k + 1) m b z q' (t / 2) _ R); rewrite <- ?ER, <- ?EN; auto; try lra.
    split; [lra|]. unfold dir. fold (heading m) (heading b). rewrite HB. symmetry. apply tangent_dot; auto; [apply direction_unit|]. rewrite SV. auto. }
  destruct SB as (_ & _ & _ & SQ & _). f_equal. rewrite SQ, SP, SV, S4.
  replace ((st_md b - st_md m) / (t / 2)) with ((st_md b - st_md a) / t) by (rewrite MDM; field; lra).
  replace ((st_md b - st_md a) / 2 / (t / 2)) with ((st_md b - st_md a) / t) by (field; lra).
  rewrite arc_point_further. f_equal. field.
Qed.

(** ** concrete surveys *)
Lemma dls_bend : forall s, Survey (grid_header "meters") bend_rows false vzero vzero "meters" = Some s ->
  sv_rows s = [mkSt 0 (PI / 6) 0; mkSt 30 (PI / 3) 0; mkSt 120 (PI / 2) 0] ->
  cv_dls (survey_curves s) = [Fin 0; Fin 30; Fin 10].
Proof.
  intros s H R. pose proof PI_RGT_0 as HP. destruct (Survey_inv _ _ _ _ _ _ _ H) as (_ & HH & _).
  cbn [survey_curves cv_dls]. unfold dls_list. rewrite R, HH. cbn [pairwise]. change (rate_length (h_unit (grid_header "meters"))) with 30.
  assert (PD : forall m m' i t, m < m' -> 0 <= t <= PI -> pair_dls 30 (mkSt m i 0) (mkSt m' (i + t) 0) = Fin (30 * degrees t / (m' - m))).
  { intros m m' i t M T. unfold pair_dls. rewrite (pair_angle_is (mkSt m i 0) (mkSt m' (i + t) 0) t) by (apply planar_angle; auto).
    cbn [st_md]. rewrite ediv_ne by lra. cbn [ext_scale]. f_equal. unfold Rdiv. ring. }
  replace (mkSt 120 (PI / 2) 0) with (mkSt 120 (PI / 3 + PI / 6) 0) by (f_equal; field). rewrite (PD 30 120) by lra.
  replace (mkSt 30 (PI / 3) 0) with (mkSt 30 (PI / 6 + PI / 6) 0) by (f_equal; field). rewrite PD by lra.
  replace (30 * degrees (PI / 6) / (30 - 0)) with 30 by (unfold degrees; field; lra).
  replace (30 * degrees (PI / 6) / (120 - 30)) with 10 by (unfold degrees; field; lra). reflexivity.
Qed.
Lemma max_bend_case : forall noise, 0 <= noise -> exists s r,
  Survey (grid_header "meters") bend_rows false vzero vzero "meters" = Some s /\
  sv_rows s = [mkSt 0 (PI / 6) 0; mkSt 30 (PI / 3) 0; mkSt 120 (PI / 2) 0] /\
  cv_dls (survey_curves s) = [Fin 0; Fin 30; Fin 10] /\
  fst (maximum_curvature s noise) = MaxOk r.
Proof.
  intros noise HN. destruct (bend_case "meters") as (s & p & q & z & H & R & _); auto.
  pose proof (dls_bend s H R) as D.
  destruct (proj2 (max_success _ _ _ _ _ _ _ noise H) eq_refl) as [MS _].
  destruct (proj2 MS) as [r HR].
  { rewrite D. intros [|[|k]] d E; cbn in E; [| |destruct k; discriminate]; injection E as <-; eexists; split; eauto; lra. }
  exists s, r. auto.
Qed.
Lemma max_depth_refuted : exists s r a b m,
  Survey (grid_header "meters") bend_rows false vzero vzero "meters" = Some s /\
  fst (maximum_curvature s 1000) = MaxOk r /\
  nth_error (sv_rows r) 0 = Some a /\ nth_error (sv_rows r) 1 = Some m /\ nth_error (sv_rows r) 2 = Some b /\
  st_md a < st_md b < st_md m.
Proof.
  destruct (max_bend_case 1000) as (s & r & H & R & D & HR); [lra|]. pose proof PI_RGT_0 as HP.
  destruct (max_originals _ _ _ _ _ _ _ _ _ H HR) as (_ & _ & _ & _ & _ & OR).
  destruct (Survey_inv _ _ _ _ _ _ _ H) as (_ & _ & _ & _ & _ & _ & _ & FL).
  assert (T : nth_error (cv_toolface (survey_curves s)) 0 = Some (toolface_start (mkSt 0 (PI / 6) 0) (mkSt 30 (PI / 3) 0))).
  { cbn [survey_curves cv_toolface]. apply toolfaces_nth; rewrite R; auto. }
  assert (I6 : 0 < st_inc (mkSt 0 (PI / 6) 0) < PI) by (cbn [st_inc]; lra).
  destruct (max_added _ _ _ _ _ _ _ _ _ 0 (mkSt 0 (PI / 6) 0) (mkSt 30 (PI / 3) 0) 30 _ _ H HR ltac:(rewrite R; auto) ltac:(rewrite R; auto) ltac:(rewrite D; auto) T (or_introl (conj I6 eq_refl))) as (m & M & _ & _ & _ & MD).
  cbv zeta in MD. cbn [st_md] in MD.
  assert (TV : radians (30 + 1000) * (30 - 0) / 60 = PI * (515 / 180)) by (unfold radians; field). rewrite TV in MD.
  destruct (OR 0%nat (mkSt 0 (PI / 6) 0) false) as [A _]; [rewrite R; auto|rewrite FL; auto|].
  destruct (OR 1%nat (mkSt 30 (PI / 3) 0) false) as [B _]; [rewrite R; auto|rewrite FL; auto|].
  exists s, r, (mkSt 0 (PI / 6) 0), (mkSt 30 (PI / 3) 0), m. do 5 (split; [auto|]). cbn [st_md]. rewrite MD by lra.
  replace (0 + 2 * (30 - 0) * (PI * (515 / 180)) / PI) with (60 * (515 / 180)) by (field; lra). lra.
Qed.
Lemma max_vertical_refuted : exists s r m,
  Survey (grid_header "meters") east_rows false vzero vzero "meters" = Some s /\
  sv_rows s = [mkSt 0 0 (PI / 2); mkSt 30 (PI / 6) (PI / 2)] /\
  (forall a, In a (sv_rows s) -> vx (heading a) = 0 /\ 0 <= vy (heading a)) /\
  fst (maximum_curvature s 0) = MaxOk r /\ nth_error (sv_rows r) 1 = Some m /\
  0 < vx (heading m) /\ vy (heading m) = 0.
Proof.
  destruct (grid_survey "meters" east_rows) as (s & H & R & L); [auto|simpl; lia|]. simpl in R. pose proof PI_RGT_0 as HP.
  assert (AN : angle_between (heading (mkSt 0 0 (PI / 2))) (heading (mkSt 30 (PI / 6) (PI / 2))) (PI / 6)).
  { unfold heading. cbn [st_inc st_azi]. replace (PI / 6) with (0 + PI / 6) at 1 by ring. apply planar_angle. lra. }
  destruct (Survey_inv _ _ _ _ _ _ _ H) as (_ & HH & _).
  assert (D : nth_error (cv_dls (survey_curves s)) 1 = Some (Fin 30)).
  { rewrite (dls_next s 0 (mkSt 0 0 (PI / 2)) (mkSt 30 (PI / 6) (PI / 2)) (PI / 6)); rewrite ?R; auto; cbn [st_md]; [|lra].
    rewrite HH. change (rate_length (h_unit (grid_header "meters"))) with 30. do 2 f_equal. field. lra. }
  destruct (proj2 (max_success _ _ _ _ _ _ _ 0 H) eq_refl) as [MS _].
  destruct (proj2 MS) as [r HR].
  { intros [|k] d E; [rewrite D in E; injection E as <-; exists 30; split; auto; lra|].
    exfalso. assert (N : (S (S k) < length (cv_dls (survey_curves s)))%nat) by (apply nth_error_Some; congruence).
    cbn [survey_curves cv_dls] in N. rewrite R in N. cbn in N. lia. }
  assert (T : nth_error (cv_toolface (survey_curves s)) 0 = Some 0).
  { cbn [survey_curves cv_toolface]. rewrite (toolfaces_nth (sv_rows s) 0 (mkSt 0 0 (PI / 2)) (mkSt 30 (PI / 6) (PI / 2))) by (rewrite R; auto). f_equal.
    unfold toolface_start. cbn [st_inc st_azi]. rewrite Rminus_diag_eq by auto. rewrite sin_0, cos_0, sin_PI6.
    replace (1 / 2 * 0) with (1 / 2 * sin 0) by (rewrite sin_0; ring). replace (1 / 2 * 1 * 1 - 0 * cos (PI / 6)) with (1 / 2 * cos 0) by (rewrite cos_0; ring).
    apply arctan2_polar; lra. }
  destruct (max_added _ _ _ _ _ _ _ _ _ 0 (mkSt 0 0 (PI / 2)) (mkSt 30 (PI / 6) (PI / 2)) 30 0 (toolface_dir 0 0 0) H HR ltac:(rewrite R; auto) ltac:(rewrite R; auto) D T (or_intror (conj eq_refl eq_refl))) as (m & M & _ & HM & _).
  exists s, r, m. split; auto. split; auto. split.
  { rewrite R. intros a [<-|[<-|[]]]; unfold heading, direction_nev; cbn [st_inc st_azi vx vy]; rewrite ?sin_0, ?cos_PI2, ?sin_PI2, ?sin_PI6; lra. }
  split; auto. split; auto. rewrite HM. cbv zeta. cbn [st_md].
  replace (radians (30 + 0) * (30 - 0) / 60) with (PI / 12) by (unfold radians; field).
  assert (0 < sin (PI / 12)) by (apply sin_gt_0; lra).
  unfold arc_tangent, toolface_dir, heading, direction_nev, high_side, right_side, vadd, vscale. cbn [st_inc st_azi vx vy].
  rewrite !sin_0, !cos_0. split; lra.
Qed.
Lemma max_header : forall s noise, let h := sv_header s in let h' := snd (maximum_curvature s noise) in
  h_ref h' = RefGrid /\ h_convergence h' = h_convergence h /\ h_declination h' = h_declination h /\
  h_gsf h' = h_gsf h /\ h_vs_azimuth h' = h_vs_azimuth h /\ h_unit h' = h_unit h.
Proof. intros. unfold h', maximum_curvature. cbn. auto 10. Qed.
