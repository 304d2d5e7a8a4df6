(** Glue lemmas: the property statements of Properties_Survey.v. *)
Require Import Reals Lra Psatz ZArith String List Sorted.
Require Import Verif.Base Verif.NumPy Verif.P_Trig Verif.Spec Verif.Spec_Lists Verif.M_Utils
  Verif.P_Utils Verif.P_Utils2 Verif.P_Utils3 Verif.M_Survey Verif.P_Survey Verif.P_Survey2 Verif.P_Survey3.
Import ListNotations.
Open Scope R_scope.

(** C05 *)
Lemma insert_unchanged : forall pre a b post x start unit mc mc',
  get_dogleg (st_inc a) (st_azi a) (st_inc b) (st_azi b) < PI ->
  st_md a < st_md b -> 0 <= x <= st_md b - st_md a ->
  MinCurve (pre ++ a :: b :: post) start unit = Some mc ->
  MinCurve (pre ++ a :: interp_station a b x :: b :: post) start unit = Some mc' ->
  mc_poss mc = without_entry (S (length pre)) (mc_poss mc').
Proof.
  intros pre a b post x start unit mc mc' Hd Hm Hx H H'.
  rewrite (MinCurve_poss _ _ _ _ H), (MinCurve_poss _ _ _ _ H').
  apply mc_insert. apply step_split; auto. lra.
Qed.

Lemma interp_station_spec : forall a b x,
  let theta := get_dogleg (st_inc a) (st_azi a) (st_inc b) (st_azi b) in
  let m := interp_station a b x in
  theta < PI -> st_md a < st_md b -> 0 <= x <= st_md b - st_md a ->
  st_md m = st_md a + x /\
  get_dogleg (st_inc a) (st_azi a) (st_inc m) (st_azi m) = theta * (x / (st_md b - st_md a)) /\
  get_dogleg (st_inc m) (st_azi m) (st_inc b) (st_azi b)
    = theta * (1 - x / (st_md b - st_md a)) /\
  exists p q, direction_nev (st_inc m) (st_azi m)
    = vadd (vscale p (direction_nev (st_inc a) (st_azi a)))
           (vscale q (direction_nev (st_inc b) (st_azi b))).
Proof.
  intros a b x theta m Ht Hm Hx.
  destruct (dogleg_angle (st_inc a) (st_azi a) (st_inc b) (st_azi b)) as [[T0 _] _].
  fold theta in T0. split. apply md_interp.
  destruct (Rle_lt_or_eq_dec 0 theta T0) as [Hp|Hz].
  - destruct (interp_doglegs a b x) as [D1 D2]; auto.
    { unfold pair_dogleg. fold theta. lra. }
    unfold pair_dogleg in D1, D2. fold theta in D1, D2. fold m in D1, D2.
    rewrite D1, D2. split; [field; lra|]. split; [field; lra|].
    pose proof (dir_interp a b x ltac:(unfold pair_dogleg; fold theta; lra)) as D.
    rewrite <- slerp_arc in D by (unfold pair_dogleg; fold theta; lra).
    unfold dir in D. fold m in D. eexists. eexists. exact D.
  - assert (E : interp_angles a b x = (st_inc a, st_azi a)).
    { unfold interp_angles, pair_dogleg. fold theta. destruct (Req_EM_T theta 0); congruence || lra. }
    assert (M1 : st_inc m = st_inc a /\ st_azi m = st_azi a).
    { unfold m, interp_station. rewrite E. split; reflexivity. }
    destruct M1 as [-> ->]. fold theta. rewrite <- Hz. split; [|split].
    + rewrite Rmult_0_l. apply dogleg_0_iff. reflexivity.
    + ring.
    + exists 1, 0. unf. apply V3_eq; simpl; ring.
Qed.

(** the position computed without building a survey is the one computed with it *)
Lemma interpolate_at_same : forall s x k r h n a b nev,
  interpolate_at s x k = Some (r, h) -> node_of r = Some n ->
  nth_error (sv_rows s) k = Some a -> nth_error (sv_rows s) (S k) = Some b ->
  nth_error (sv_nev s) k = Some nev ->
  (h_unit (sv_header s) = "meters" \/ h_unit (sv_header s) = "feet")%string ->
  nd_pos n = interpolate_pos_nev nev a b x.
Proof.
  intros s x k r h n a b nev H N A B V U.
  destruct (nth_error (sv_xyz s) k) as [xyz|] eqn:X.
  - destruct (interpolate_at_node s x k a b xyz nev A B X V U) as [r' [h' [n' [E [E2 [_ [_ [P _]]]]]]]].
    rewrite H in E. injection E; intros; subst r' h'. rewrite N in E2. injection E2; intros; subst n'. auto.
  - unfold interpolate_at in H. rewrite A, B, X in H. discriminate.
Qed.

(** C14 *)
Definition azimuth_of (ref : azi_ref) (a : azis) : R :=
  match ref with RefGrid => az_grid_rad a | RefTrue => az_true_rad a | RefMagnetic => az_mag_rad a end.

Lemma azi_rebuild_rad : forall ref c d deg azi ref',
  let a := process_azi_ref ref c d deg azi in
  let azi' := match ref' with RefGrid => az_grid_rad a | RefTrue => az_true_rad a | RefMagnetic => az_mag_rad a end in
  let azi_deg' := match ref' with RefGrid => az_grid_deg a | RefTrue => az_true_deg a | RefMagnetic => az_mag_deg a end in
  process_azi_ref ref' c d false azi' = a /\ process_azi_ref ref' c d true azi_deg' = a.
Proof.
  intros ref c d deg azi ref' a azi' azi_deg'. split.
  - pose proof (azi_rebuild ref c d deg azi ref' false) as H. unfold pick in H. destruct ref'; exact H.
  - pose proof (azi_rebuild ref c d deg azi ref' true) as H. unfold pick in H. destruct ref'; exact H.
Qed.

Lemma azi_input_spec : forall ref c d deg azi,
  let a := process_azi_ref ref c d deg azi in
  (match ref, deg with
   | RefGrid, true => az_grid_deg a | RefGrid, false => az_grid_rad a
   | RefTrue, true => az_true_deg a | RefTrue, false => az_true_rad a
   | RefMagnetic, true => az_mag_deg a | RefMagnetic, false => az_mag_rad a end) = azi.
Proof. intros. pose proof (azi_input ref c d deg azi) as H. unfold pick in H. exact H. Qed.

(** C15 *)
Definition grid_offset (h : header) : R :=
  match h_ref h with RefGrid => 0 | RefTrue => h_convergence h
                | RefMagnetic => h_convergence h - h_declination h end.

Lemma grid_shift_deg : forall ref c d deg azi,
  az_grid_rad (process_azi_ref ref c d deg azi)
  = (if deg then radians azi else azi)
    - match ref with RefGrid => 0 | RefTrue => c | RefMagnetic => c - d end.
Proof.
  intros [] c d [] azi; simpl; rewrite ?rad_sub, ?rad_add, ?rad_deg; ring.
Qed.

Lemma query_then_rebuild : forall h rows deg sx sn s md n h' s',
  Survey h rows deg sx sn (h_unit h) = Some s ->
  survey_interpolate_md s md = NodeOk n h' ->
  Survey h' rows deg sx sn (h_unit h') = Some s' ->
  h_ref h' = RefGrid /\ h_convergence h' = h_convergence h /\ h_declination h' = h_declination h /\
  sv_rows s' = map (fun st => mkSt (st_md st) (st_inc st) (st_azi st + grid_offset h)) (sv_rows s) /\
  (h_ref h = RefGrid -> h' = h /\ s' = s).
Proof.
  intros h rows deg sx sn s md n h' s' HS HQ HS'.
  pose proof (md_query_header _ _ _ _ HQ) as E.
  assert (HH : sv_header s = h) by (apply (Survey_inv _ _ _ _ _ _ _ HS)).
  rewrite HH in E. subst h'. cbn [h_ref h_convergence h_declination h_unit] in *.
  split; auto. split; auto. split; auto. split.
  - rewrite (Survey_rows _ _ _ _ _ _ _ HS), (Survey_rows _ _ _ _ _ _ _ HS'). cbn [h_ref h_convergence h_declination].
    rewrite map_map. apply map_ext. intros [[md' inc'] azi'].
    rewrite !grid_shift_deg. unfold grid_offset. cbn [st_md st_inc st_azi]. f_equal. ring.
  - intro G. assert (E : mkHeader RefGrid (h_convergence h) (h_declination h) (h_gsf h) (h_vs_azimuth h) (h_unit h) = h).
    { destruct h; simpl in *; subst; reflexivity. }
    rewrite E in HS'. rewrite HS in HS'. split; [auto | congruence].
Qed.

Lemma query_then_rebuild_differs : forall h rows deg sx sn s md n h' s',
  Survey h rows deg sx sn (h_unit h) = Some s ->
  survey_interpolate_md s md = NodeOk n h' ->
  Survey h' rows deg sx sn (h_unit h') = Some s' ->
  (sv_rows s' = sv_rows s <-> grid_offset h = 0).
Proof.
  intros h rows deg sx sn s md n h' s' HS HQ HS'.
  destruct (query_then_rebuild _ _ _ _ _ _ _ _ _ _ HS HQ HS') as [_ [_ [_ [R _]]]].
  destruct (Survey_inv _ _ _ _ _ _ _ HS) as [_ [_ [L _]]].
  rewrite R. split.
  - intro E. destruct (sv_rows s) as [|a r]; [simpl in L; lia|]. simpl in E.
    assert (Q : mkSt (st_md a) (st_inc a) (st_azi a + grid_offset h) = a) by congruence.
    assert (st_azi (mkSt (st_md a) (st_inc a) (st_azi a + grid_offset h)) = st_azi a) by (rewrite Q; reflexivity).
    simpl in H. lra.
  - intro E. rewrite E. clear -E. induction (sv_rows s) as [|a r IH]; simpl; auto.
    rewrite IH. f_equal. destruct a; simpl. f_equal. ring.
Qed.

(** a survey with true azimuths: two stations, convergence 0.1 *)
Definition ex_header : header := mkHeader RefTrue (1/10) 0 1 None "meters".
Definition ex_rows : list row := [(0, 0, 0); (100, 0, 0); (200, PI/2, 0)].
Lemma ex_survey : exists s, Survey ex_header ex_rows false vzero vzero "meters" = Some s.
Proof. apply (Survey_total ex_header); [left; reflexivity | simpl; auto]. Qed.
Lemma ex_survey_rows : forall s, Survey ex_header ex_rows false vzero vzero "meters" = Some s ->
  sv_rows s = [mkSt 0 0 (0 - 1/10); mkSt 100 0 (0 - 1/10); mkSt 200 (PI/2) (0 - 1/10)].
Proof. intros s H. rewrite (Survey_rows _ _ _ _ _ _ _ H). reflexivity. Qed.
Lemma ex_increasing : forall s, Survey ex_header ex_rows false vzero vzero "meters" = Some s ->
  strictly_increasing (map st_md (sv_rows s)).
Proof. intros s H. rewrite (ex_survey_rows s H). simpl. lra. Qed.
Lemma ex_query : forall s, Survey ex_header ex_rows false vzero vzero "meters" = Some s ->
  exists n h', survey_interpolate_md s 150 = NodeOk n h'.
Proof.
  intros s H. pose proof (ex_survey_rows s H) as E.
  destruct (interpolate_md_inside _ _ _ _ _ _ _ H (ex_increasing s H) 150 (mkSt 0 0 (0-1/10)) (mkSt 200 (PI/2) (0-1/10)))
    as (k & a & b & xyz & nev & n & h' & _ & _ & _ & _ & Q & _).
  - rewrite E; reflexivity.
  - rewrite E; reflexivity.
  - simpl; lra.
  - eauto.
Qed.

(** C16 *)
Lemma md_lookup : forall h rows deg sx sn unit s md first last,
  Survey h rows deg sx sn unit = Some s ->
  strictly_increasing (map st_md (sv_rows s)) ->
  nth_error (sv_rows s) 0 = Some first ->
  nth_error (sv_rows s) (pred (length (sv_rows s))) = Some last ->
  (survey_interpolate_md s md = NodeNone <-> st_md last < md) /\
  (st_md first <= md <= st_md last ->
   exists k a b pa n h',
      nth_error (sv_rows s) k = Some a /\ nth_error (sv_rows s) (S k) = Some b /\
      nth_error (sv_nev s) k = Some pa /\
      survey_interpolate_md s md = NodeOk n h' /\
      st_md a <= md <= st_md b /\ nd_md n = md /\
      nd_pos n = vadd pa (min_curve_step (md - st_md a) (st_inc a) (st_azi a)
                   (st_inc (interp_station a b (md - st_md a))) (st_azi (interp_station a b (md - st_md a)))) /\
      nd_vec n = direction_nev (st_inc (interp_station a b (md - st_md a))) (st_azi (interp_station a b (md - st_md a))) /\
      (nd_interp n = false <-> (md = st_md a \/ md = st_md b))) /\
  (md < st_md first -> exists pa n h', nth_error (sv_nev s) 0 = Some pa /\
      survey_interpolate_md s md = NodeOk n h' /\ nd_md n = st_md first /\ nd_interp n = false).
Proof.
  intros h rows deg sx sn unit s md first last HS Hi H0 Hl.
  assert (FL : st_md first <= st_md last).
  { destruct (Survey_inv _ _ _ _ _ _ _ HS) as [_ [_ [L _]]].
    apply Rlt_le. eapply (increasing_nth_lt (map st_md (sv_rows s)) 0 (pred (length (sv_rows s)))); auto. lia.
    rewrite nth_error_map, H0; reflexivity. rewrite nth_error_map, Hl; reflexivity. }
  assert (IN : md <= st_md last -> exists n h', survey_interpolate_md s md = NodeOk n h').
  { intro Hm. destruct (interpolate_md_inside _ _ _ _ _ _ _ HS Hi md first last H0 Hl Hm)
      as (k & a & b & xyz & nev & n & h' & _ & _ & _ & _ & Q & _). eauto. }
  split; [|split].
  - split.
    + intro E. destruct (Rlt_le_dec (st_md last) md) as [|Hm]; auto.
      destruct (IN Hm) as [n [h' E']]. congruence.
    + apply (interpolate_md_beyond s Hi); auto.
  - intros [H1 H2].
    destruct (interpolate_md_inside _ _ _ _ _ _ _ HS Hi md first last H0 Hl H2)
      as (k & a & b & xyz & nev & n & h' & A & B & X & N & Q & I & _ & M & P & V & F & _).
    rewrite Rmax_left in * by auto.
    exists k, a, b, nev, n, h'. split; auto. split; auto. split; auto. split; auto. split; auto. split; auto.
    split; [|split].
    + rewrite P, interpolate_pos_nev_step. f_equal. unfold step_between. rewrite md_interp. f_equal. ring.
    + rewrite V. reflexivity.
    + rewrite M in F. auto.
  - intro Hm.
    destruct (interpolate_md_inside _ _ _ _ _ _ _ HS Hi md first last H0 Hl ltac:(lra))
      as (k & a & b & xyz & nev & n & h' & A & B & X & N & Q & I & J & M & P & V & F & _).
    rewrite Rmax_right in * by lra.
    destruct (Survey_xyz_len _ _ _ _ _ _ _ HS) as [_ LN].
    destruct (Survey_inv _ _ _ _ _ _ _ HS) as [_ [_ [L _]]].
    destruct (nth_error_some_lt _ (sv_nev s) 0 ltac:(lia)) as [p0 P0].
    exists p0, n, h'. split; auto. split; auto. split; auto. apply F. left. rewrite M.
    assert (k = 0%nat).
    { destruct k; auto. exfalso.
      assert (st_md first < st_md a).
      { eapply (increasing_nth_lt (map st_md (sv_rows s)) 0 (S k)); auto. lia.
        rewrite nth_error_map, H0; reflexivity. rewrite nth_error_map, A; reflexivity. }
      lra. }
    subst k. congruence.
Qed.

Lemma md_lookup_station : forall h rows deg sx sn unit s k st p,
  Survey h rows deg sx sn unit = Some s ->
  strictly_increasing (map st_md (sv_rows s)) ->
  (forall i a b, nth_error (sv_rows s) i = Some a -> nth_error (sv_rows s) (S i) = Some b ->
     get_dogleg (st_inc a) (st_azi a) (st_inc b) (st_azi b) < PI) ->
  nth_error (sv_rows s) k = Some st -> nth_error (sv_nev s) k = Some p ->
  exists n h', survey_interpolate_md s (st_md st) = NodeOk n h' /\
    nd_md n = st_md st /\ nd_pos n = p /\ nd_vec n = direction_nev (st_inc st) (st_azi st) /\
    nd_interp n = false.
Proof.
  intros h rows deg sx sn unit s k st p HS Hi HD A P.
  exact (interpolate_md_station _ _ _ _ _ _ _ HS Hi k st p HD A P).
Qed.

(** C46 *)
Lemma ref_azimuths_nth : forall h rows deg sx sn unit s k a,
  Survey h rows deg sx sn unit = Some s -> nth_error (sv_rows s) k = Some a ->
  nth_error (ref_azimuths s) k = Some (st_azi a + grid_offset h).
Proof.
  intros h rows deg sx sn unit s k a HS A.
  destruct (Survey_inv _ _ _ _ _ _ _ HS) as [_ [HH _]].
  rewrite (Survey_rows _ _ _ _ _ _ _ HS), nth_error_map in A.
  unfold ref_azimuths. rewrite HH. unfold grid_offset.
  destruct (nth_error rows k) as [[[md inc] azi]|] eqn:E; [|discriminate]. simpl in A.
  injection A; intros; subst a; clear A. simpl.
  destruct (azi_consistent (h_ref h) (h_convergence h) (h_declination h) deg azi) as [T [M _]].
  destruct (h_ref h) eqn:R.
  - unfold Survey in HS. destruct (negb _); [discriminate|].
    match type of HS with context [MinCurve ?l sx unit] => destruct (MinCurve l sx unit) end; [|discriminate].
    injection HS; intros; subst s; simpl. rewrite nth_error_map, E. cbn [option_map snd]. f_equal. rewrite ?R. simpl in T, M |- *. destruct deg; simpl in T, M |- *; lra.
  - unfold Survey in HS. destruct (negb _); [discriminate|].
    match type of HS with context [MinCurve ?l sx unit] => destruct (MinCurve l sx unit) end; [|discriminate].
    injection HS; intros; subst s; simpl. rewrite nth_error_map, E. cbn [option_map snd]. f_equal. rewrite ?R. simpl in T, M |- *. destruct deg; simpl in T, M |- *; lra.
  - rewrite nth_error_map, (Survey_rows _ _ _ _ _ _ _ HS), nth_error_map, E. cbn [option_map st_azi]. rewrite R. f_equal. simpl. ring.
Qed.
Lemma ref_azimuths_length : forall h rows deg sx sn unit s,
  Survey h rows deg sx sn unit = Some s -> length (ref_azimuths s) = length (sv_rows s).
Proof.
  intros h rows deg sx sn unit s HS.
  destruct (Survey_inv _ _ _ _ _ _ _ HS) as [_ [HH _]].
  unfold ref_azimuths. rewrite (Survey_rows _ _ _ _ _ _ _ HS) at 2. rewrite map_length.
  unfold Survey in HS. destruct (negb _); [discriminate|].
  match type of HS with context [MinCurve ?l sx unit] => destruct (MinCurve l sx unit) end; [|discriminate].
  injection HS; intros; subst s; simpl. destruct (h_ref h); rewrite !map_length; auto.
Qed.

Lemma vs_survey_first : forall h rows deg sx sn unit s vs,
  Survey h rows deg sx sn unit = Some s ->
  length (fst (survey_vertical_section s vs)) = length rows /\ nth_error (fst (survey_vertical_section s vs)) 0 = Some 0.
Proof.
  intros h rows deg sx sn unit s vs HS.
  destruct (Survey_inv _ _ _ _ _ _ _ HS) as [_ [_ [L [LR _]]]].
  destruct (Survey_xyz_len _ _ _ _ _ _ _ HS) as [_ LN].
  pose proof (ref_azimuths_length _ _ _ _ _ _ _ HS) as LA.
  unfold survey_vertical_section. rewrite <- LR, <- LN. apply vs_length.
  - rewrite map_length; auto.
  - congruence.
  - lia.
Qed.

Lemma vs_survey_increment : forall h rows deg sx sn unit s vs k a b p q v w,
  Survey h rows deg sx sn unit = Some s ->
  nth_error (sv_rows s) k = Some a -> nth_error (sv_rows s) (S k) = Some b ->
  nth_error (sv_nev s) k = Some p -> nth_error (sv_nev s) (S k) = Some q ->
  nth_error (fst (survey_vertical_section s vs)) k = Some v ->
  nth_error (fst (survey_vertical_section s vs)) (S k) = Some w ->
  st_inc a = st_inc b -> 0 < st_inc a <= PI -> st_md a <= st_md b ->
  get_dogleg (st_inc a) (st_azi a) (st_inc b) (st_azi b) < PI ->
  let section := vs - match h_ref h with RefGrid => 0 | RefTrue => h_convergence h
                                    | RefMagnetic => h_convergence h - h_declination h end in
  let proj := (vx q - vx p) * cos section + (vy q - vy p) * sin section in
  (Rabs (st_azi b - st_azi a) <= PI -> w - v = proj) /\
  (PI <= Rabs (st_azi b - st_azi a) <= 2 * PI -> w - v = - proj).
Proof.
  intros h rows deg sx sn unit s vs k a b p q v w HS A B P Q V W Ei Hi Hm Hd section proj.
  pose proof (Survey_nev_step _ _ _ _ _ _ _ _ _ _ _ _ HS A B P Q) as S.
  assert (D : w - v = cos (section - (st_azi b + st_azi a)/2) * hypot_step p q).
  { rewrite (vs_increment vs (map st_inc (sv_rows s)) (ref_azimuths s) (sv_nev s) k
      (st_inc a) (st_inc b) (st_azi a + grid_offset h) (st_azi b + grid_offset h) p q v w);
    rewrite ?nth_error_map, ?A, ?B; auto; try (eapply ref_azimuths_nth; eauto).
    rewrite <- Ei. destruct (Req_EM_T (st_inc a) 0); [lra|]. f_equal. f_equal. unfold section.
    change (vs - match h_ref h with RefGrid => 0 | RefTrue => h_convergence h
                                    | RefMagnetic => h_convergence h - h_declination h end) with (vs - grid_offset h).
    field. }
  unfold step_between in S. rewrite <- Ei in S, Hd.
  pose proof (vs_equal_inc (st_md b - st_md a) (st_inc a) (st_azi a) (st_azi b) section p ltac:(lra) ltac:(lra) Hd) as [E1 E2].
  rewrite <- S in E1, E2.
  assert (PX : vx (min_curve_step (st_md b - st_md a) (st_inc a) (st_azi a) (st_inc a) (st_azi b)) = vx q - vx p).
  { rewrite S at 1. destruct p; simpl. ring. }
  assert (PY : vy (min_curve_step (st_md b - st_md a) (st_inc a) (st_azi a) (st_inc a) (st_azi b)) = vy q - vy p).
  { rewrite S at 1. destruct p; simpl. ring. }
  rewrite PX, PY in E1, E2. fold proj in E1, E2.
  split; intro H.
  - rewrite D. apply E1. apply cos_half_nonneg; auto.
  - rewrite D. apply E2. apply cos_half_nonpos; auto.
Qed.
Lemma vs_mutation : forall h rows deg sx sn unit s vs k a,
  Survey h rows deg sx sn unit = Some s -> nth_error (sv_rows s) k = Some a ->
  exists before after,
    nth_error (ref_azimuths s) k = Some before /\ nth_error (snd (survey_vertical_section s vs)) k = Some after /\ (st_inc a = 0 -> after = vs) /\ (st_inc a <> 0 -> after = before).
Proof.
  intros h rows deg sx sn unit s vs k a HS A.
  pose proof (ref_azimuths_nth _ _ _ _ _ _ _ _ _ HS A) as B.
  exists (st_azi a + grid_offset h), (if Req_EM_T (st_inc a) 0 then vs else st_azi a + grid_offset h).
  split; auto. split.
  - unfold survey_vertical_section, get_vertical_section; simpl.
    apply vs_azimuths_nth; auto. rewrite nth_error_map, A. reflexivity.
  - destruct (Req_EM_T (st_inc a) 0); split; intros; auto; contradiction.
Qed.

(** the radial position of pos_nev *)
Lemma pos_nev_agrees : forall h rows deg sx sn unit s,
  Survey h rows deg sx sn unit = Some s -> h_gsf h = 1 -> sx = vzero ->
  sv_pos_nev s = sv_nev s.
Proof.
  intros h rows deg sx sn unit s HS G Z. unfold Survey in HS. destruct (negb _); [discriminate|].
  match type of HS with context [MinCurve ?l sx unit] => destruct (MinCurve l sx unit) end; [|discriminate].
  injection HS; intros; subst s; simpl. apply map_ext. intros [x y z]. subst sx. rewrite G.
  unfold get_nev; unf. f_equal; ring.
Qed.
Lemma ex_two_stations : exists s,
  Survey (mkHeader RefGrid 0 0 1 None "meters") [(0, 0, 0); (100, 0, 0)] false (mkV 5 6 7) vzero "meters" = Some s
  /\ sv_pos_nev s <> sv_nev s.
Proof.
  destruct (Survey_total (mkHeader RefGrid 0 0 1 None "meters") [(0, 0, 0); (100, 0, 0)] false (mkV 5 6 7) vzero)
    as [s HS]; [left; reflexivity | simpl; auto |].
  exists s. split; auto. intro E.
  destruct (Survey_inv _ _ _ _ _ _ _ HS) as [_ [_ [L _]]].
  destruct (Survey_xyz_len _ _ _ _ _ _ _ HS) as [_ LN].
  destruct (nth_error_some_lt _ (sv_nev s) 0 ltac:(lia)) as [p P].
  assert (Q : nth_error (sv_pos_nev s) 0 = Some p) by (rewrite E; auto).
  destruct (Survey_pos_nev _ _ _ _ _ _ _ _ _ _ HS P Q) as [_ [_ Z]]. simpl in Z. lra.
Qed.

(** slicing *)
Lemma slice_spec : forall s start stop r,
  slice_survey s start stop = Some r ->
  sv_rows r = map (fun st => mkSt (st_md st) (st_inc st) (st_azi st - grid_offset (sv_header s)))
     (firstn (stop - start) (skipn start (sv_rows s)))
  /\ sv_nev r = firstn (stop - start) (skipn start (sv_nev s)).
Proof.
  intros s start stop r H. destruct (slice_rows_azimuth _ _ _ _ H) as [E1 E2]. split; auto.
  rewrite E1. apply map_ext. intro a. f_equal. unfold grid_offset. destruct (h_ref (sv_header s)); ring.
Qed.
Lemma project_ahead_straight : forall pos vec delta_md toolface md,
  project_ahead pos vec delta_md 0 toolface md = (vadd pos (vscale delta_md vec), vec, md + delta_md).
Proof. intros. unfold project_ahead. destruct (Rlt_dec 0 0); [lra|]. reflexivity. Qed.
