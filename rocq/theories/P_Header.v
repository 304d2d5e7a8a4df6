(** Proofs about M_Header.v. *)
Require Import Reals ZArith Bool String List Lra Lia Psatz.
Require Import Verif.Base Verif.NumPy Verif.M_Utils Verif.M_Survey Verif.P_Survey Verif.M_Header Verif.Spec_Header.
Import ListNotations.
Open Scope R_scope.

Lemma in_bounds_iff : forall x b, in_bounds x b = true <-> (forall v, x = Some v -> - b <= v <= b).
Proof.
  intros [v|] b; simpl.
  - destruct (Rle_dec (- b) v); [destruct (Rle_dec v b)|]; split; intro H; try discriminate; auto;
      try (intros v' E; injection E as <-; lra); exfalso; specialize (H v eq_refl); lra.
  - split; auto. discriminate.
Qed.

Lemma azi_ref_iff : forall s, azi_ref_of s <> None <-> s = "true"%string \/ s = "magnetic"%string \/ s = "grid"%string.
Proof.
  intro s. unfold azi_ref_of.
  destruct (String.eqb_spec s "true"); [split; auto; discriminate|].
  destruct (String.eqb_spec s "magnetic"); [split; auto; discriminate|].
  destruct (String.eqb_spec s "grid"); [split; auto; discriminate|].
  split; [congruence|]. intros [H|[H|H]]; contradiction.
Qed.

Ltac outc :=
  split; [split; [try discriminate; tauto|tauto || (intros; exfalso; tauto)]|];
  split; [split; [try discriminate; tauto|tauto || (intros; exfalso; tauto)]|];
  split; [split; [try discriminate; tauto|tauto || (intros; exfalso; tauto)]|];
  split; [let h := fresh in let K := fresh in intros [h K]; discriminate|intros; exfalso; tauto].

(** ** outcomes *)
Lemma header_outcomes : forall w a,
  let in_range (x : option R) b := forall v, x = Some v -> - b <= v <= b in
  let located := in_range (ha_latitude a) 90 /\ in_range (ha_longitude a) 180 /\
    (ha_azi_reference a = "true" \/ ha_azi_reference a = "magnetic" \/ ha_azi_reference a = "grid")%string in
  let dated := forall d, ha_date a = Some d -> w_valid_date w d = true in
  let m := fst (mag_source w (ha_defaults a) (match ha_date a with None => w_today w | Some d => d end)) in
  let sourced := (ha_dip a = None -> mg_dip m <> None) /\ (ha_declination a = None -> mg_declination m <> None) in
  (SurveyHeader w a = HAssertion <-> ~ located) /\
  (SurveyHeader w a = HValue <-> located /\ ~ dated) /\
  (SurveyHeader w a = HType <-> located /\ dated /\ ~ sourced) /\
  ((exists h, SurveyHeader w a = HOk h) <-> located /\ dated /\ sourced).
Proof.
  intros w a in_range located dated m sourced.
  assert (HL : forall x b, in_bounds x b = true <-> in_range x b) by (intros; apply in_bounds_iff).
  assert (HD : (match ha_date a with None => true | Some d => w_valid_date w d end) = true <-> dated).
  { unfold dated. destruct (ha_date a); split; intro H; auto; try discriminate.
    intros d E; injection E as <-; auto. }
  assert (HR : azi_ref_of (ha_azi_reference a) <> None <->
     (ha_azi_reference a = "true" \/ ha_azi_reference a = "magnetic" \/ ha_azi_reference a = "grid")%string) by apply azi_ref_iff.
  unfold SurveyHeader.
  destruct (in_bounds (ha_latitude a) 90) eqn:E1; simpl.
  2:{ assert (N : ~ located). { intros (L & _). apply HL in L. congruence. }
      outc. }
  destruct (in_bounds (ha_longitude a) 180) eqn:E2; simpl.
  2:{ assert (N : ~ located). { intros (_ & L & _). apply HL in L. congruence. }
      outc. }
  destruct (azi_ref_of (ha_azi_reference a)) as [ref|] eqn:E3.
  2:{ assert (N : ~ located). { intros (_ & _ & L). apply HR in L. congruence. }
      outc. }
  assert (L : located). { split; [apply HL; auto|]. split; [apply HL; auto|]. apply HR. congruence. }
  destruct (match ha_date a with None => true | Some d => w_valid_date w d end) eqn:E4; simpl.
  2:{ assert (N : ~ dated). { intro D. apply HD in D. congruence. }
      outc. }
  assert (D : dated) by (apply HD; auto).
  unfold sourced, m in *.
  destruct (mag_source w (ha_defaults a) (match ha_date a with None => w_today w | Some d => d end)) as [mg dt]. cbn [fst] in *.
  destruct (header_dip (ha_deg a) (ha_dip a) (mg_dip mg)) as [dip|] eqn:E5.
  2:{ assert (N : ~ (ha_dip a = None -> mg_dip mg <> None)).
      { intro H. unfold header_dip in E5. destruct (ha_dip a); [discriminate|]. destruct (mg_dip mg); [discriminate|]. apply H; auto. }
      outc. }
  assert (S1 : ha_dip a = None -> mg_dip mg <> None).
  { intros Z Y. rewrite Z, Y in E5. discriminate. }
  destruct (header_declination (ha_deg a) (ha_declination a) (mg_declination mg)) as [decl|] eqn:E6.
  2:{ assert (N : ~ (ha_declination a = None -> mg_declination mg <> None)).
      { intro H. unfold header_declination in E6. destruct (ha_declination a); [discriminate|]. destruct (mg_declination mg); [discriminate|]. apply H; auto. }
      outc. }
  assert (S2 : ha_declination a = None -> mg_declination mg <> None).
  { intros Z Y. rewrite Z, Y in E6. discriminate. }
  split; [split; [discriminate|tauto]|]. split; [split; [discriminate|tauto]|].
  split; [split; [discriminate|tauto]|]. split; [tauto|eauto].
Qed.

(** ** the values *)
Lemma radians_if_twice : forall deg v, radians_if deg (radians_if (negb deg) v) = radians v.
Proof. intros [|] v; reflexivity. Qed.

Lemma header_values : forall w a h, SurveyHeader w a = HOk h ->
  let rad x := if ha_deg a then x * (PI / 180) else x in
  hd_convergence h = rad (ha_convergence a) /\ hd_inc_limit h = rad (ha_inc_limit a) /\
  hd_vs_azimuth h = rad (ha_vs_azimuth a) /\ hd_gsf h = ha_gsf a /\
  (forall b, ha_b_total a = Some b -> hd_b_total h = Some b) /\
  (forall d, ha_dip a = Some d -> hd_dip h = rad d) /\
  (forall d, ha_declination a = Some d -> hd_declination h = rad d) /\
  (forall x, ha_latitude a = Some x -> hd_latitude h = x) /\ (ha_latitude a = None -> hd_latitude h = 51.4934) /\
  (forall x, ha_longitude a = Some x -> hd_longitude h = x) /\ (ha_longitude a = None -> hd_longitude h = 0.0098) /\
  (forall x, ha_altitude a = Some x -> hd_altitude h = x) /\ (ha_altitude a = None -> hd_altitude h = 0) /\
  (hd_azi_reference h = RefTrue <-> ha_azi_reference a = "true"%string) /\
  (hd_azi_reference h = RefMagnetic <-> ha_azi_reference a = "magnetic"%string) /\
  (hd_azi_reference h = RefGrid <-> ha_azi_reference a = "grid"%string).
Proof.
  intros w a h H rad. unfold SurveyHeader in H.
  destruct (negb (in_bounds (ha_latitude a) 90)); [discriminate|].
  destruct (negb (in_bounds (ha_longitude a) 180)); [discriminate|].
  destruct (azi_ref_of (ha_azi_reference a)) as [ref|] eqn:ER; [|discriminate].
  match type of H with (if ?c then _ else _) = _ => destruct c; [discriminate|] end.
  destruct (mag_source w (ha_defaults a) _) as [m dt].
  destruct (header_dip (ha_deg a) (ha_dip a) (mg_dip m)) as [dip|] eqn:E5; [|discriminate].
  destruct (header_declination (ha_deg a) (ha_declination a) (mg_declination m)) as [decl|] eqn:E6; [|discriminate].
  injection H as <-. cbn [hd_convergence hd_inc_limit hd_vs_azimuth hd_gsf hd_b_total hd_dip hd_declination hd_latitude hd_longitude hd_altitude hd_azi_reference].
  unfold header_dip in E5. unfold header_declination in E6. unfold or_default.
  assert (R : forall x, radians_if (ha_deg a) x = rad x) by (intro; unfold rad, radians_if, radians; destruct (ha_deg a); auto).
  rewrite !R. repeat (split; [solve [auto]|]).
  split. { intros b Hb. rewrite Hb. auto. }
  split. { intros d Hd. rewrite Hd in E5. rewrite R in E5. congruence. }
  split. { intros d Hd. rewrite Hd in E6. rewrite R in E6. congruence. }
  split. { intros x Hx. rewrite Hx. auto. }
  split. { intros Hx. rewrite Hx. lra. }
  split. { intros x Hx. rewrite Hx. auto. }
  split. { intros Hx. rewrite Hx. lra. }
  split. { intros x Hx. rewrite Hx. auto. }
  split. { intros Hx. rewrite Hx. auto. }
  unfold azi_ref_of in ER.
  destruct (String.eqb_spec (ha_azi_reference a) "true") as [->|N1]; [injection ER as <-; intuition discriminate|].
  destruct (String.eqb_spec (ha_azi_reference a) "magnetic") as [->|N2]; [injection ER as <-; intuition discriminate|].
  destruct (String.eqb_spec (ha_azi_reference a) "grid") as [->|N3]; [injection ER as <-; intuition discriminate|].
  discriminate.
Qed.

(** what fills in for omitted values, and the date *)
Lemma header_omitted : forall w a h, SurveyHeader w a = HOk h ->
  let given := match ha_date a with None => w_today w | Some d => d end in
  exists m,
    (w_installed w = true /\ w_first w = Some m /\ hd_date h = given \/
     w_installed w = true /\ w_first w = None /\ w_second w = Some m /\ hd_date h = w_today w \/
     w_installed w = true /\ w_first w = None /\ w_second w = None /\ m = ha_defaults a /\ hd_date h = w_today w \/
     w_installed w = false /\ m = ha_defaults a /\ hd_date h = given) /\
    (ha_b_total a = None -> hd_b_total h = mg_b_total m) /\
    (ha_dip a = None -> exists v, mg_dip m = Some v /\ hd_dip h = - (v * (PI / 180))) /\
    (ha_declination a = None -> exists v, mg_declination m = Some v /\ hd_declination h = v * (PI / 180)).
Proof.
  intros w a h H given. unfold SurveyHeader in H.
  destruct (negb (in_bounds (ha_latitude a) 90)); [discriminate|].
  destruct (negb (in_bounds (ha_longitude a) 180)); [discriminate|].
  destruct (azi_ref_of (ha_azi_reference a)); [|discriminate].
  match type of H with (if ?c then _ else _) = _ => destruct c; [discriminate|] end.
  change (match ha_date a with None => w_today w | Some d => d end) with given in H.
  destruct (mag_source w (ha_defaults a) given) as [m dt] eqn:EM.
  destruct (header_dip (ha_deg a) (ha_dip a) (mg_dip m)) as [dip|] eqn:E5; [|discriminate].
  destruct (header_declination (ha_deg a) (ha_declination a) (mg_declination m)) as [decl|] eqn:E6; [|discriminate].
  injection H as <-. cbn [hd_b_total hd_dip hd_declination hd_date]. exists m. split; [|split; [|split]].
  - unfold mag_source in EM. destruct (w_installed w).
    + destruct (w_first w) as [m1|].
      * injection EM as <- <-. left. auto.
      * destruct (w_second w) as [m2|]; injection EM as <- <-; right; [left; auto|right; left; auto].
    + injection EM as <- <-. right. right. right. auto.
  - intro Z. rewrite Z. auto.
  - intro Z. rewrite Z in E5. unfold header_dip in E5. destruct (mg_dip m) as [v|]; [|discriminate].
    exists v. split; auto. rewrite radians_if_twice in E5. injection E5 as <-. unfold radians. ring.
  - intro Z. rewrite Z in E6. unfold header_declination in E6. destruct (mg_declination m) as [v|]; [|discriminate].
    exists v. split; auto. rewrite radians_if_twice in E6. injection E6 as <-. unfold radians. ring.
Qed.

(** giving the source's own values explicitly *)
Lemma explicit_source : forall w a h h' b d c, w_installed w = false ->
  ha_deg a = true -> ha_defaults a = mkMag (Some b) (Some d) (Some c) ->
  SurveyHeader w (with_mag a None None None) = HOk h ->
  SurveyHeader w (with_mag a (Some b) (Some d) (Some c)) = HOk h' ->
  hd_b_total h' = hd_b_total h /\ hd_declination h' = hd_declination h /\ hd_dip h' = - hd_dip h.
Proof.
  intros w a h h' b d c W DG DF H H'.
  destruct (header_omitted _ _ _ H) as (m & O & OB & OD & OC).
  assert (Em : m = mkMag (Some b) (Some d) (Some c)).
  { cbn [with_mag ha_defaults] in O. rewrite W, DF in O.
    destruct O as [O|[O|[O|O]]]; destruct O as [O1 O2]; try discriminate. destruct O2; auto. }
  subst m. cbn [mg_b_total mg_dip mg_declination] in *.
  destruct (header_values _ _ _ H') as (_ & _ & _ & _ & VB & VD & VC & _).
  cbn [with_mag ha_b_total ha_dip ha_declination ha_deg] in *. rewrite DG in *.
  rewrite (VB b eq_refl), (VD d eq_refl), (VC c eq_refl), (OB eq_refl).
  destruct (OD eq_refl) as (v & E & ->). injection E as <-.
  destruct (OC eq_refl) as (v & E & ->). injection E as <-.
  split; [auto|]. split; [auto|]. ring.
Qed.

(** ** degrees and radians *)
Lemma header_deg_rad : forall w a, ha_deg a = true -> SurveyHeader w (in_radians a) = SurveyHeader w a.
Proof.
  intros w a D. unfold SurveyHeader, in_radians;
  cbn [ha_latitude ha_longitude ha_altitude ha_date ha_b_total ha_dip ha_declination ha_convergence ha_azi_reference
       ha_inc_limit ha_deg ha_depth_unit ha_surface_unit ha_defaults ha_vs_azimuth ha_gsf].
  rewrite D.
  destruct (negb (in_bounds (ha_latitude a) 90)); auto.
  destruct (negb (in_bounds (ha_longitude a) 180)); auto.
  destruct (azi_ref_of (ha_azi_reference a)); auto.
  match goal with |- (if ?c then _ else _) = _ => destruct c; auto end.
  destruct (mag_source w (ha_defaults a) _) as [m dt].
  assert (E : header_dip false (option_map (fun x => x * (PI / 180)) (ha_dip a)) (mg_dip m) = header_dip true (ha_dip a) (mg_dip m)).
  { unfold header_dip. destruct (ha_dip a); simpl; auto. }
  assert (E' : header_declination false (option_map (fun x => x * (PI / 180)) (ha_declination a)) (mg_declination m)
     = header_declination true (ha_declination a) (mg_declination m)).
  { unfold header_declination. destruct (ha_declination a); simpl; auto. }
  rewrite E, E'. reflexivity.
Qed.

Lemma default_limit_refuted :
  let w := mkWorld false None None "2024-01-01" (fun _ => true) in
  exists h h', SurveyHeader w default_args = HOk h /\
    SurveyHeader w (mkArgs None None None None None None None 0 "true" (1 / 10000) false "meters" "meters"
      default_mag 0 1) = HOk h' /\
    hd_inc_limit h = radians (1 / 10000) /\ hd_inc_limit h' = 1 / 10000 /\
    hd_dip h' = hd_dip h /\ hd_declination h' = hd_declination h /\ hd_inc_limit h < hd_inc_limit h'.
Proof.
  cbv zeta. eexists. eexists. split; [reflexivity|]. split; [reflexivity|].
  cbn [hd_inc_limit hd_dip hd_declination radians_if ha_deg default_args ha_inc_limit].
  split; [reflexivity|]. split; [reflexivity|]. split; [reflexivity|]. split; [reflexivity|].
  unfold radians. pose proof PI_4. lra.
Qed.

(** the retry replaces the survey date *)
Lemma date_lost : forall w a h, SurveyHeader w a = HOk h ->
  forall d, ha_date a = Some d ->
  (hd_date h = d <-> w_installed w = false \/ w_first w <> None \/ d = w_today w).
Proof.
  intros w a h H d D. destruct (header_omitted _ _ _ H) as (m & O & _). rewrite D in O.
  destruct O as [(A & B & C)|[(A & B & C & E)|[(A & B & C & E & F)|(A & B & C)]]].
  - rewrite C. split; auto. intros _. right. left. congruence.
  - rewrite E. split; [intros <-; auto|]. intros [Z|[Z|Z]]; [congruence|congruence|auto].
  - rewrite F. split; [intros <-; auto|]. intros [Z|[Z|Z]]; [congruence|congruence|auto].
  - rewrite C. split; auto.
Qed.

(** when all three values are given the calculator only matters for the date *)
Lemma header_all_given : forall w w' a h h' b d c,
  ha_b_total a = Some b -> ha_dip a = Some d -> ha_declination a = Some c ->
  SurveyHeader w a = HOk h -> SurveyHeader w' a = HOk h' ->
  hd_b_total h = hd_b_total h' /\ hd_dip h = hd_dip h' /\ hd_declination h = hd_declination h'.
Proof.
  intros w w' a h h' b d c B D C H H'.
  destruct (header_values _ _ _ H) as (_ & _ & _ & _ & VB & VD & VC & _).
  destruct (header_values _ _ _ H') as (_ & _ & _ & _ & VB' & VD' & VC' & _).
  rewrite (VB b B), (VB' b B), (VD d D), (VD' d D), (VC c C), (VC' c C). auto.
Qed.

(** a header made from get_factors_from_x_y's dip agrees with one that asks the
    calculator itself *)
Lemma factors_dip_agrees : forall w a h v, SurveyHeader w a = HOk h ->
  w_installed w = true -> ha_dip a = None ->
  (exists m, w_first w = Some m /\ mg_dip m = Some v) ->
  hd_dip h = radians (factors_dip true v) /\ hd_dip h = - radians (factors_dip false v).
Proof.
  intros w a h v H I N (m & F & V). destruct (header_omitted _ _ _ H) as (m' & O & _ & OD & _).
  destruct (OD N) as (v' & E & ->).
  destruct O as [(A & B & C)|[(A & B & C & _)|[(A & B & C & _)|(A & B & C)]]]; try congruence.
  assert (m' = m) by congruence. subst m'. assert (v' = v) by congruence. subst v'.
  unfold factors_dip, radians. split; ring.
Qed.

(** unrecognised units are stored as None and refused by Survey *)
Lemma header_units : forall w a h, SurveyHeader w a = HOk h ->
  (hd_depth_unit h = Some "meters"%string <-> ha_depth_unit a = "m"%string \/ ha_depth_unit a = "meters"%string) /\
  (hd_depth_unit h = Some "feet"%string <-> ha_depth_unit a = "ft"%string \/ ha_depth_unit a = "feet"%string) /\
  (hd_surface_unit h = Some "meters"%string <-> ha_surface_unit a = "m"%string \/ ha_surface_unit a = "meters"%string) /\
  (hd_surface_unit h = Some "feet"%string <-> ha_surface_unit a = "ft"%string \/ ha_surface_unit a = "feet"%string) /\
  (hd_surface_unit h = None <-> ~ In (ha_surface_unit a) ["m"; "meters"; "ft"; "feet"]%string) /\
  (header_view h = None <-> ~ In (ha_depth_unit a) ["m"; "meters"; "ft"; "feet"]%string).
Proof.
  intros w a h H. unfold SurveyHeader in H.
  destruct (negb (in_bounds (ha_latitude a) 90)); [discriminate|].
  destruct (negb (in_bounds (ha_longitude a) 180)); [discriminate|].
  destruct (azi_ref_of (ha_azi_reference a)); [|discriminate].
  match type of H with (if ?c then _ else _) = _ => destruct c; [discriminate|] end.
  destruct (mag_source w (ha_defaults a) _) as [m dt].
  destruct (header_dip (ha_deg a) (ha_dip a) (mg_dip m)) as [dip|] eqn:E5; [|discriminate].
  destruct (header_declination (ha_deg a) (ha_declination a) (mg_declination m)) as [decl|] eqn:E6; [|discriminate].
  injection H as <-. unfold header_view. cbn [hd_depth_unit hd_surface_unit].
  assert (G : forall u, (get_unit u = Some "meters" <-> u = "m" \/ u = "meters")%string /\
    (get_unit u = Some "feet" <-> u = "ft" \/ u = "feet")%string /\
    (get_unit u = None <-> ~ In u ["m"; "meters"; "ft"; "feet"]%string)).
  { intro u. unfold get_unit.
    destruct (String.eqb_spec u "m") as [->|N1]; [simpl; intuition discriminate|].
    destruct (String.eqb_spec u "meters") as [->|N2]; [simpl; intuition discriminate|].
    destruct (String.eqb_spec u "ft") as [->|N3]; [simpl; intuition discriminate|].
    destruct (String.eqb_spec u "feet") as [->|N4]; [simpl; intuition discriminate|].
    simpl. intuition congruence. }
  destruct (G (ha_depth_unit a)) as (G1 & G2 & G3). destruct (G (ha_surface_unit a)) as (G4 & G5 & G6).
  split; [exact G1|]. split; [exact G2|]. split; [exact G4|]. split; [exact G5|]. split; [exact G6|].
  rewrite <- G3. destruct (get_unit (ha_depth_unit a)); split; intro K; congruence.
Qed.
