(** C125: whole runs of MeshClearance. *)
Require Import Reals Lra Psatz Lia ZArith Bool String List.
Require Import Verif.Base Verif.NumPy Verif.P_Trig Verif.Spec Verif.Spec_Lists Verif.Spec_Clearance Verif.M_Utils Verif.P_Utils
  Verif.P_Utils2 Verif.M_Survey Verif.P_Survey Verif.P_Survey2 Verif.P_Survey3 Verif.P_Survey4 Verif.P_Survey5 Verif.M_Error Verif.M_Clearance Verif.P_Clearance
  Verif.P_Clearance3 Verif.M_MaxCurve Verif.M_Refine Verif.P_Clearance2 Verif.P_Refine Verif.P_Refine3 Verif.P_Refine6 Verif.Spec_Frames Verif.M_MeshRun Verif.Spec_MeshRun Verif.P_MeshRun.
Import ListNotations.
Local Open Scope R_scope.

Lemma slice_section : forall s i a b p q, sound s ->
  nth_error (sv_rows s) i = Some a -> nth_error (sv_rows s) (S i) = Some b ->
  nth_error (sv_nev s) i = Some p -> nth_error (sv_nev s) (S i) = Some q ->
  exists t, slice_survey s i (i + 2) = Some t /\ section_of t a b p q (misread (sv_header s)).
Proof.
  intros s i a b p q WR A B P Q. pose proof WR as (LN & L2 & _).
  assert (Li : (S i < length (sv_rows s))%nat) by (apply nth_error_Some; congruence).
  destruct (slice_some s i (i + 2) WR) as (t & z & E & X & SS & _ & RW & NV); try lia.
  pose proof (RW 0%nat ltac:(lia)) as R0. pose proof (RW 1%nat ltac:(lia)) as R1. pose proof (NV 0%nat ltac:(lia)) as N0. pose proof (NV 1%nat ltac:(lia)) as N1.
  rewrite Nat.add_0_r in R0, N0. rewrite Nat.add_1_r in R1, N1. rewrite A in R0. rewrite B in R1. rewrite P in N0. rewrite Q in N1.
  exists t. split; [exact E|].
  destruct (slice_spec _ _ _ _ E) as [RR NN]. assert (LRR : length (sv_rows t) = 2%nat) by (rewrite RR, map_length, firstn_length, skipn_length; lia).
  assert (LNN : length (sv_nev t) = 2%nat) by (rewrite NN, firstn_length, skipn_length; lia).
  destruct (sv_rows t) as [|x [|y [|w l]]] eqn:ES; try discriminate LRR. destruct (sv_nev t) as [|x' [|y' [|w' l']]] eqn:EN; try discriminate LNN.
  cbn in R0, R1, N0, N1. split; congruence.
Qed.
Lemma section_query : forall opt c query shared ref off rr ro i m ref' off', mesh_section opt c query shared ref off rr ro i = Some (m, ref', off') ->
  exists t, slice_survey ref i (i + 2) = Some t /\ mr_collides m = an_collides (query i t).
Proof.
  intros until off'. unfold mesh_section. destruct (slice_survey ref i (i + 2)) as [s|]; [|discriminate].
  destruct (nth_error (sv_rows ref) i); [|discriminate]. destruct (nth_error rr i); [|discriminate]. cbv zeta.
  destruct (closest_nev opt s (an_ref (query i s))) as [[[ref_nev xr] fr]|]; [|discriminate].
  match goal with |- match ?x with _ => _ end = _ -> _ => destruct x as [[[q md] f]|] end; [|discriminate].
  destruct (nth_error ro _); [|discriminate]. intro H. injection H as <- _ _. exists s. auto.
Qed.

(** every later section is handled with headers that refer to grid north *)
Lemma sections_later : forall opt c query shared rr ro k ref off i, sound ref -> sound off -> (i + k + 1 <= length (sv_rows ref))%nat ->
  length rr = length (sv_rows ref) -> length ro = length (sv_rows off) ->
  exists l, mesh_sections opt c query shared (with_grid ref) (with_grid off) rr ro i k = Some l /\ length l = k /\
    forall j m, nth_error l j = Some m -> mesh_section opt c query shared (with_grid ref) (with_grid off) rr ro (i + j) = Some (m, with_grid ref, with_grid off).
Proof.
  intros opt c query shared rr ro k. induction k as [|k IH]; intros ref off i SR SO Li LR LO.
  { exists []. split; [reflexivity|]. split; [reflexivity|]. intros [|j] m H; discriminate H. }
  cbn [mesh_sections]. destruct (mesh_section_some opt c query shared (with_grid ref) (with_grid off) rr ro i SR SO ltac:(cbn; lia) LR LO) as (m & off' & E & ->).
  rewrite E. change (with_grid (with_grid ref)) with (with_grid ref) in *. change (with_grid (with_grid off)) with (with_grid off) in *.
  destruct (IH ref off (S i) SR SO ltac:(lia) LR LO) as (l & -> & LL & N). exists (m :: l). split; [reflexivity|]. split; [cbn; lia|].
  intros [|j] m' H; cbn in H; [injection H as <-; rewrite Nat.add_0_r; exact E|]. apply N in H. replace (i + S j)%nat with (S i + j)%nat by lia. exact H.
Qed.
Lemma run_rows : forall opt c query shared ref off rr ro, sound ref -> sound off ->
  length rr = length (sv_rows ref) -> length ro = length (sv_rows off) ->
  exists rows, mesh_clearance opt c query shared ref off rr ro = Some rows /\ length rows = (length (sv_rows ref) - 1)%nat /\
    (exists m, nth_error rows 0 = Some m /\ mesh_section opt c query shared ref off rr ro 0 = Some (m, with_grid ref, with_grid off)) /\
    forall i m, nth_error rows (S i) = Some m -> mesh_section opt c query shared (with_grid ref) (with_grid off) rr ro (S i) = Some (m, with_grid ref, with_grid off).
Proof.
  intros opt c query shared ref off rr ro SR SO LR LO. pose proof SR as (_ & L2 & _). unfold mesh_clearance.
  destruct (length (sv_rows ref) - 1)%nat as [|k] eqn:K; [lia|]. cbn [mesh_sections].
  destruct (mesh_section_some opt c query shared ref off rr ro 0 SR SO ltac:(lia) LR LO) as (m & off' & E & ->). rewrite E.
  destruct (sections_later opt c query shared rr ro k ref off 1 SR SO ltac:(lia) LR LO) as (l & -> & LL & N).
  exists (m :: l). split; [reflexivity|]. split; [cbn; lia|]. split; [exists m; split; [reflexivity|reflexivity]|]. intros i m' H. cbn in H. exact (N i m' H).
Qed.

(** ** which sections the meshes are made of *)
Lemma mesh_queries : forall opt c query shared ref off rr ro, built ref -> built off ->
  length rr = length (sv_rows ref) -> length ro = length (sv_rows off) ->
  exists rows, mesh_clearance opt c query shared ref off rr ro = Some rows /\ length rows = (length (sv_rows ref) - 1)%nat /\
    forall i m a b p q, nth_error rows i = Some m ->
      nth_error (sv_rows ref) i = Some a -> nth_error (sv_rows ref) (S i) = Some b ->
      nth_error (sv_nev ref) i = Some p -> nth_error (sv_nev ref) (S i) = Some q ->
      exists s, section_of s a b p q (match i with O => misread (sv_header ref) | S _ => 0 end) /\ mr_collides m = an_collides (query i s).
Proof.
  intros opt c query shared ref off rr ro BR BO LR LO. apply built_sound in BR. apply built_sound in BO.
  destruct (run_rows opt c query shared ref off rr ro BR BO LR LO) as (rows & E & L & (m0 & M0 & S0) & N).
  exists rows. split; [exact E|]. split; [exact L|]. intros [|i] m a b p q H A B P Q.
  - rewrite H in M0. injection M0 as <-. destruct (section_query _ _ _ _ _ _ _ _ _ _ _ _ S0) as (t & T & C).
    destruct (slice_section ref 0 a b p q BR A B P Q) as (t' & T' & SE). assert (t' = t) by congruence. subst. eauto.
  - apply N in H. destruct (section_query _ _ _ _ _ _ _ _ _ _ _ _ H) as (t & T & C).
    destruct (slice_section (with_grid ref) (S i) a b p q BR A B P Q) as (t' & T' & SE). assert (t' = t) by congruence. subst. eauto.
Qed.
Lemma mesh_queries_only : forall query ref, built ref ->
  length (mesh_collisions query ref) = (length (sv_rows ref) - 1)%nat /\
  forall i a b p q, nth_error (sv_rows ref) i = Some a -> nth_error (sv_rows ref) (S i) = Some b ->
    nth_error (sv_nev ref) i = Some p -> nth_error (sv_nev ref) (S i) = Some q ->
    exists s, section_of s a b p q (misread (sv_header ref)) /\ nth_error (mesh_collisions query ref) i = Some (Some (an_collides (query i s))).
Proof.
  intros query ref B. apply built_sound in B. unfold mesh_collisions. split; [rewrite map_length, seq_length; reflexivity|].
  intros i a b p q A A' P Q. assert (Li : (S i < length (sv_rows ref))%nat) by (apply nth_error_Some; congruence).
  destruct (slice_section ref i a b p q B A A' P Q) as (t & T & SE). exists t. split; [exact SE|].
  rewrite nth_error_map. assert (SQ : nth_error (seq 0 (length (sv_rows ref) - 1)) i = Some i).
  { rewrite nth_error_nth' with (d := 0%nat) by (rewrite seq_length; lia). rewrite seq_nth by lia. reflexivity. }
  rewrite SQ. cbn [option_map]. rewrite T. reflexivity.
Qed.

(** ** what is reported for a section *)
Lemma mesh_reported : forall opt c query shared ref off rr ro i a b p q, built ref -> built off ->
  strictly_increasing (map st_md (sv_rows ref)) -> strictly_increasing (map st_md (sv_rows off)) ->
  no_reversal ref -> no_reversal off -> never_worse opt ->
  length rr = length (sv_rows ref) -> length ro = length (sv_rows off) ->
  (0 < i)%nat \/ (h_ref (sv_header ref) = RefGrid /\ h_ref (sv_header off) = RefGrid) ->
  nth_error (sv_rows ref) i = Some a -> nth_error (sv_rows ref) (S i) = Some b ->
  nth_error (sv_nev ref) i = Some p -> nth_error (sv_nev ref) (S i) = Some q ->
  exists rows m s, mesh_clearance opt c query shared ref off rr ro = Some rows /\ nth_error rows i = Some m /\ section_of s a b p q 0 /\
    let an := query i s in
    mr_collides m = an_collides an /\
    st_md a <= mr_ref_md m <= st_md b /\ on_well ref (mr_ref_md m) (mr_ref_nev m) /\
    (forall y, on_well ref (halfway a b) y -> dist (mr_ref_nev m) (an_ref an) <= dist y (an_ref an)) /\
    (exists o, nth_error (sv_nev off) (mr_off_index m) = Some o /\
       forall k o', nth_error (sv_nev off) k = Some o' -> dist (an_off an) o <= dist (an_off an) o') /\
    (exists k u v, adjacent (mr_off_index m) k /\ nth_error (sv_rows off) k = Some u /\ nth_error (sv_rows off) (S k) = Some v /\
       st_md u <= mr_off_md m <= st_md v) /\ on_well off (mr_off_md m) (mr_off_nev m) /\
    (forall k u v y, adjacent (mr_off_index m) k -> nth_error (sv_rows off) k = Some u -> nth_error (sv_rows off) (S k) = Some v ->
       on_well off (halfway u v) y -> dist (mr_off_nev m) (an_off an) <= dist y (an_off an)) /\
    mr_distance_cc m = dist (mr_ref_nev m) (mr_off_nev m) /\
    mr_sf m = eround2 (mesh_sf (an_collides an) (mr_distance_cc m) (an_distance an) (dist (an_ref an) (an_off an))) /\
    (exists ri, nth_error rr i = Some ri /\ exists rj, nth_error ro (mr_off_index m) = Some rj /\
       mr_calc_hole m = ri + rj /\
       mr_ref_pcr m = (dist (mr_ref_nev m) (an_ref an) - ms_sigma_pa c / 2 - ri) / ms_sigma c /\
       mr_off_pcr m = (dist (mr_off_nev m) (an_off an) - ms_sigma_pa c / 2 - rj - ms_Sm c) / ms_sigma c).
Proof.
  intros opt c query shared ref off rr ro i a b p q BR BO SR SO NR NO NW LR LO CASE A B P Q.
  destruct (run_rows opt c query shared ref off rr ro (built_sound _ BR) (built_sound _ BO) LR LO) as (rows & E & L & (m0 & M0 & S0) & N).
  assert (Li : (S i < length (sv_rows ref))%nat) by (apply nth_error_Some; congruence).
  destruct (nth_lt _ rows i) as [m M]; [lia|]. exists rows, m.
  assert (SEC : mesh_section opt c query shared (with_grid ref) (with_grid off) rr ro i = Some (m, with_grid ref, with_grid off)).
  { destruct i as [|i]; [|exact (N i m M)]. destruct CASE as [H|[G1 G2]]; [lia|]. rewrite M in M0. injection M0 as <-.
    rewrite <- (grid_same ref G1), <- (grid_same off G2) in S0. exact S0. }
  destruct (mesh_section_grid opt c query shared ref off rr ro i a b p q BR BO SR SO NR NO NW LR LO A B P Q) as (s & m' & SE & E' & REST).
  rewrite SEC in E'. injection E' as <-. exists s. split; [exact E|]. split; [exact M|]. split; [exact SE|exact REST].
Qed.

(** ** the first section of a survey that refers to true north *)
Definition half_opt : optimiser := fun f x0 ub => (x0, f x0).
Lemma half_ok : never_worse half_opt.
Proof. intros f x0 ub H. unfold half_opt. repeat split; lra. Qed.
Definition true_header (w : R) : header := mkHeader RefTrue w 0 1 None "meters".
Lemma true_ref : forall w, exists s, Survey (true_header w) [(0, PI/2, 0); (100, PI/2, 0); (200, PI/2, 0)] false vzero vzero "meters" = Some s /\
  sv_rows s = [mkSt 0 (PI/2) (- w); mkSt 100 (PI/2) (- w); mkSt 200 (PI/2) (- w)] /\ nth_error (sv_nev s) 0 = Some vzero /\ sv_header s = true_header w.
Proof.
  intro w. destruct (Survey_total (true_header w) [(0, PI/2, 0); (100, PI/2, 0); (200, PI/2, 0)] false vzero vzero) as [s HS]; [left; reflexivity|simpl; lia|].
  exists s. split; [exact HS|]. pose proof (Survey_rows _ _ _ _ _ _ _ HS) as RW. cbn in RW. split; [rewrite RW; repeat f_equal; ring|].
  pose proof (Survey_intervals _ _ _ _ _ _ _ HS) as (_ & F & _).
  pose proof (Survey_inv _ _ _ _ _ _ _ HS) as (_ & H & _). split; auto.
Qed.
Lemma straight_ref : forall w s, sv_rows s = [mkSt 0 (PI/2) (- w); mkSt 100 (PI/2) (- w); mkSt 200 (PI/2) (- w)] ->
  strictly_increasing (map st_md (sv_rows s)) /\ no_reversal s.
Proof.
  intros w s E. unfold no_reversal. rewrite E. split. { cbn. repeat split; lra. }
  intros [|[|[|i]]] a b A B; cbn in A, B; try discriminate; injection A as <-; injection B as <-; cbn [st_inc st_azi];
  (replace (get_dogleg _ _ _ _) with 0; [apply PI_RGT_0|symmetry; apply dogleg_0_iff; reflexivity]).
Qed.
Lemma dir_flat : forall az, direction_nev (PI/2) az = mkV (cos az) (sin az) 0.
Proof. intro az. unfold direction_nev. rewrite sin_PI2, cos_PI2. apply V3_eq; simpl; ring. Qed.
Lemma mesh_first_wrong : forall w c query shared, 0 < w < PI ->
  exists ref off rr ro m rest, built ref /\ built off /\ strictly_increasing (map st_md (sv_rows ref)) /\ no_reversal ref /\
    length rr = length (sv_rows ref) /\ length ro = length (sv_rows off) /\
    h_ref (sv_header ref) = RefTrue /\ h_convergence (sv_header ref) = w /\
    mesh_clearance half_opt c query shared ref off rr ro = Some (m :: rest) /\
    mr_ref_md m = 50 /\ (exists y, on_well ref 50 y) /\
    forall y, on_well ref 50 y -> dist y (mr_ref_nev m) = 100 * sin (w / 2).
Proof.
  intros w c query shared W. destruct (true_ref w) as (ref & HR & RR & NR & HH). destruct (wit_off "meters" (or_introl eq_refl)) as (off & HO & RO & NO).
  assert (BR : built ref) by (repeat eexists; exact HR). assert (BO : built off) by (repeat eexists; exact HO).
  destruct (straight_ref w ref RR) as [SI NV].
  exists ref, off, (repeat 0 3), (repeat 0 2).
  assert (LR : length (repeat 0 3) = length (sv_rows ref)) by (rewrite RR; reflexivity).
  assert (LO : length (repeat 0 2) = length (sv_rows off)) by (rewrite RO; reflexivity).
  destruct (run_rows half_opt c query shared ref off _ _ (built_sound _ BR) (built_sound _ BO) LR LO) as (rows & E & L & (m & M & S0) & _).
  destruct rows as [|m' rest]; [discriminate M|]. injection M as ->. exists m, rest.
  repeat (split; [assumption||(rewrite HH; reflexivity)|]).
  assert (A : nth_error (sv_rows ref) 0 = Some (mkSt 0 (PI/2) (- w))) by (rewrite RR; reflexivity).
  assert (B : nth_error (sv_rows ref) 1 = Some (mkSt 100 (PI/2) (- w))) by (rewrite RR; reflexivity).
  assert (ON : on_well ref 50 (vscale 50 (direction_nev (PI/2) (- w)))).
  { pose proof (on_interp ref 0 _ _ vzero 50 BR SI NV A B NR ltac:(cbn; lra)) as Q. cbn [st_md] in Q. rewrite straight_interp in Q.
    rewrite Rplus_0_l in Q. replace (vscale 50 _) with (vadd vzero (vscale 50 (direction_nev (PI / 2) (- w)))); [exact Q|]. destruct (direction_nev (PI/2) (-w)). unf. apply V3_eq; simpl; ring. }
  assert (RES : mr_ref_md m = 50 /\ mr_ref_nev m = vscale 50 (direction_nev (PI/2) (- w - w))).
  { destruct (slice_some ref 0 2 (built_sound _ BR)) as (s & z & T & X & SS & _ & RW & NW); try (rewrite ?RR; cbn; lia).
    pose proof (RW 0%nat ltac:(lia)) as R0. pose proof (RW 1%nat ltac:(lia)) as R1. pose proof (NW 0%nat ltac:(lia)) as N0.
    cbn [Nat.add] in R0, R1, N0. rewrite A in R0. rewrite B in R1. rewrite NR in N0. rewrite HH in R0, R1. cbn [option_map st_md st_inc st_azi] in R0, R1.
    change (misread (true_header w)) with w in R0, R1.
    unfold mesh_section in S0. cbn [Nat.add] in S0. rewrite T, A in S0. change (nth_error (repeat 0 3) 0) with (Some 0) in S0. cbv zeta in S0.
    rewrite (closest_nev_spec half_opt s (an_ref (query 0%nat s)) _ _ _ _ SS R0 R1 N0 X) in S0. unfold half_opt at 1 in S0. cbn [st_md] in S0.
    match type of S0 with match ?x with _ => _ end = _ => destruct x as [[[q md] f]|] end; [|discriminate].
    destruct (nth_error (repeat 0 2) _); [|discriminate]. injection S0 as <- _. cbn [mr_ref_md mr_ref_nev]. split; [lra|].
    rewrite straight_interp. replace ((100 - 0) / 2) with 50 by lra. destruct (direction_nev (PI/2) (- w - w)). unf. apply V3_eq; simpl; ring. }
  destruct RES as [RM RN]. split; [exact RM|]. split; [eexists; exact ON|]. intros y Y. rewrite (on_unique _ _ _ _ Y ON), RN, !dir_flat.
  assert (S2 : 0 < sin (w / 2)) by (apply sin_gt_0; lra).
  apply Rsqr_inj; [apply dist_pos|lra|]. unfold Rsqr. unfold vscale. cbn [vx vy vz]. rewrite dist_sq.
  assert (C2 : cos w = 1 - 2 * (sin (w / 2) * sin (w / 2))). { replace w with (2 * (w / 2)) at 1 by lra. rewrite cos_2a_sin. ring. }
  assert (CW : cos w = cos (- w) * cos (- w - w) + sin (- w) * sin (- w - w)).
  { rewrite <- cos_minus. f_equal. ring. }
  pose proof (sin2_cos2 (- w)) as P1. pose proof (sin2_cos2 (- w - w)) as P2. unfold Rsqr in P1, P2. nra.
Qed.
Lemma mesh_first_refuted : forall w c query shared, 0 < w < PI ->
  exists opt ref off rr ro m rest, never_worse opt /\ built ref /\ built off /\
    strictly_increasing (map st_md (sv_rows ref)) /\ no_reversal ref /\
    length rr = length (sv_rows ref) /\ length ro = length (sv_rows off) /\
    h_ref (sv_header ref) = RefTrue /\ h_convergence (sv_header ref) = w /\
    mesh_clearance opt c query shared ref off rr ro = Some (m :: rest) /\
    mr_ref_md m = 50 /\ (exists y, on_well ref 50 y) /\
    forall y, on_well ref 50 y -> dist y (mr_ref_nev m) = 100 * sin (w / 2).
Proof. intros w c query shared W. exists half_opt. destruct (mesh_first_wrong w c query shared W) as (ref & off & rr & ro & m & rest & H). exists ref, off, rr, ro, m, rest. split; [exact half_ok|exact H]. Qed.

(** ** a case *)
Lemma mesh_case : exists ref off opt, built ref /\ built off /\ never_worse opt /\
  strictly_increasing (map st_md (sv_rows ref)) /\ strictly_increasing (map st_md (sv_rows off)) /\ no_reversal ref /\ no_reversal off /\
  h_ref (sv_header ref) = RefGrid /\ h_ref (sv_header off) = RefGrid /\
  length (sv_rows ref) = 3%nat /\ length (sv_rows off) = 2%nat.
Proof.
  destruct (wit_ref "meters" (or_introl eq_refl)) as (ref & HR & RR & NR). destruct (wit_off "meters" (or_introl eq_refl)) as (off & HO & RO & NO).
  exists ref, off, half_opt. split; [repeat eexists; exact HR|]. split; [repeat eexists; exact HO|]. split; [exact half_ok|].
  unfold no_reversal. rewrite RR, RO. split; [cbn; repeat split; lra|]. split; [cbn; repeat split; lra|].
  pose proof (Survey_inv _ _ _ _ _ _ _ HR) as (_ & H1 & _). pose proof (Survey_inv _ _ _ _ _ _ _ HO) as (_ & H2 & _).
  split; [|split; [|rewrite H1, H2; auto]].
  - intros [|[|[|i]]] a b A B; cbn in A, B; try discriminate; injection A as <-; injection B as <-; cbn [st_inc st_azi];
    (replace (get_dogleg _ _ _ _) with 0; [apply PI_RGT_0|symmetry; apply dogleg_0_iff; reflexivity]).
  - intros [|[|i]] a b A B; cbn in A, B; try discriminate; injection A as <-; injection B as <-; cbn [st_inc st_azi];
    (replace (get_dogleg _ _ _ _) with 0; [apply PI_RGT_0|symmetry; apply dogleg_0_iff; reflexivity]).
Qed.

(** ** bearings *)
Lemma deg_bearing : forall y x, let t := rmod (degrees (arctan2 y x) + 360) 360 in
  0 <= t < 360 /\ x = sqrt (x * x + y * y) * cos (radians t) /\ y = sqrt (x * x + y * y) * sin (radians t).
Proof.
  intros y x t. split; [apply rmod_bounds; lra|].
  assert (T : exists k : Z, radians t = arctan2 y x + 2 * PI * IZR k).
  { unfold t, rmod. set (d := degrees (arctan2 y x)). assert (D : radians d = arctan2 y x) by apply rad_deg.
    exists (1 - rfloor ((d + 360) / 360))%Z. rewrite minus_IZR. rewrite <- D. unfold radians. field. }
  destruct T as [k ->]. rewrite cos_shift_Z, sin_shift_Z. destruct (arctan2_cos_sin y x). split; lra.
Qed.
Lemma section_bearing : forall opt c query shared ref off rr ro i m ref' off', mesh_section opt c query shared ref off rr ro i = Some (m, ref', off') ->
  mr_bearing m = rmod (degrees (arctan2 (vy (vsub (mr_off_nev m) (mr_ref_nev m))) (vx (vsub (mr_off_nev m) (mr_ref_nev m)))) + 360) 360.
Proof.
  intros until off'. unfold mesh_section. destruct (slice_survey ref i (i + 2)) as [s|]; [|discriminate].
  destruct (nth_error (sv_rows ref) i); [|discriminate]. destruct (nth_error rr i); [|discriminate]. cbv zeta.
  destruct (closest_nev opt s (an_ref (query i s))) as [[[ref_nev xr] fr]|]; [|discriminate].
  match goal with |- match ?x with _ => _ end = _ -> _ => destruct x as [[[q md] f]|] end; [|discriminate].
  destruct (nth_error ro _); [|discriminate]. intro H. injection H as <- _ _. reflexivity.
Qed.
Lemma mesh_bearing : forall opt c query shared ref off rr ro rows i m, built ref -> built off ->
  length rr = length (sv_rows ref) -> length ro = length (sv_rows off) ->
  mesh_clearance opt c query shared ref off rr ro = Some rows -> nth_error rows i = Some m ->
  0 <= mr_bearing m < 360 /\ exists r, 0 <= r /\
    vx (mr_off_nev m) - vx (mr_ref_nev m) = r * cos (radians (mr_bearing m)) /\
    vy (mr_off_nev m) - vy (mr_ref_nev m) = r * sin (radians (mr_bearing m)).
Proof.
  intros opt c query shared ref off rr ro rows i m BR BO LR LO E M. apply built_sound in BR. apply built_sound in BO.
  destruct (run_rows opt c query shared ref off rr ro BR BO LR LO) as (rows' & E' & L & (m0 & M0 & S0) & N). rewrite E in E'. injection E' as <-.
  assert (B : mr_bearing m = rmod (degrees (arctan2 (vy (vsub (mr_off_nev m) (mr_ref_nev m))) (vx (vsub (mr_off_nev m) (mr_ref_nev m)))) + 360) 360).
  { destruct i as [|i]; [rewrite M in M0; injection M0 as <-; exact (section_bearing _ _ _ _ _ _ _ _ _ _ _ _ S0)|exact (section_bearing _ _ _ _ _ _ _ _ _ _ _ _ (N i m M))]. }
  rewrite B. pose proof (deg_bearing (vy (vsub (mr_off_nev m) (mr_ref_nev m))) (vx (vsub (mr_off_nev m) (mr_ref_nev m)))) as (D1 & D2 & D3).
  split; [exact D1|]. eexists. split; [apply sqrt_pos|]. split; [exact D2|exact D3].
Qed.
