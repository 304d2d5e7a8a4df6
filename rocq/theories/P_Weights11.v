(** When the weight functions can be evaluated; the totals of a tool model. *)
Require Import Reals ZArith Lra Psatz Lia Bool String List.
Require Import Verif.Base Verif.NumPy Verif.M_Utils Verif.M_Error Verif.Spec Verif.Spec_Error Verif.M_Weights Verif.Spec_Weights.
Require Import Verif.P_Trig Verif.P_Error Verif.P_Error2 Verif.P_Weights Verif.P_Weights2 Verif.P_Weights3 Verif.P_Weights4
  Verif.P_Weights5 Verif.P_Weights6 Verif.P_Weights7 Verif.P_Weights8 Verif.P_Weights9 Verif.P_Weights10.
Import ListNotations.
Local Open Scope R_scope.

(** ** Course length terms *)
Lemma sin_wrapped : forall d, Rabs (sin (Rabs (wrapped d))) = Rabs (sin d).
Proof.
  intro d. assert (E : sin (wrapped d) = sin d).
  { unfold wrapped. replace (rmod (d + PI) (2 * PI) - PI) with (- (PI - rmod (d + PI) (2 * PI))) by ring.
    rewrite sin_neg, sin_PI_x, sin_rmod, neg_sin. ring. }
  unfold Rabs at 2. destruct (Rcase_abs (wrapped d)).
  - rewrite sin_neg, Rabs_Ropp, E. reflexivity.
  - rewrite E. reflexivity.
Qed.
Lemma xcl_rows : forall (f : wstation -> wstation -> V3) rev4 l code mag p e,
  xcl_error (pairwise f l) rev4 l code mag p = Made e ->
  er_e_NEV_star e = er_e_NEV e /\ length (er_e_NEV e) = length l /\
  (forall s, nth_error l 0 = Some s -> nth_error (er_e_NEV e) 0 = Some vzero) /\
  forall k a b, nth_error l k = Some a -> nth_error l (S k) = Some b ->
    nth_error (er_e_NEV e) (S k) = Some (vscale mag (f a b)).
Proof.
  intros f rev4 l code mag p e H. unfold xcl_error in H. apply of_generate_made in H.
  apply generate_cases in H. destruct H as [_ [_ [E _]]].
  set (M := map (vscale mag) match l with [] => [] | _ => vzero :: pairwise f l end) in *.
  assert (E1 : er_e_NEV e = M) by congruence. assert (E2 : er_e_NEV_star e = M) by congruence. clear E.
  rewrite E1, E2. split; auto. split; [|split].
  - unfold M. destruct l as [|x l]; auto. rewrite map_length. cbn [length]. rewrite pairwise_length. cbn. lia.
  - intros s Hs. unfold M. destruct l as [|x l]; [discriminate|]. cbn. f_equal. vring.
  - intros k a b Ha Hb. unfold M. destruct l as [|x l]; [destruct k; discriminate|].
    apply scaled_nth. rewrite nth_S. apply pairwise_nth'; auto.
Qed.
Lemma xcla_rows : forall t rev4 h l code mag p e, XCLA t rev4 h l code mag p = Made e ->
  forall k a b, nth_error l k = Some a -> nth_error l (S k) = Some b ->
  exists turn, (vertical h a -> turn = 0) /\
    (~ vertical h a -> turn = Rabs (sin (w_inc b) * sin (w_azt b - w_azt a))) /\
    nth_error (er_e_NEV e) (S k) = Some (vscale (mag * ((w_md b - w_md a) * Rmax turn (t * (w_md b - w_md a)))) (right_side b)) /\
    nth_error (er_e_NEV_star e) (S k) = Some (vscale (mag * ((w_md b - w_md a) * Rmax turn (t * (w_md b - w_md a)))) (right_side b)).
Proof.
  intros t rev4 h l code mag p e H k a b Ha Hb. destruct (xcl_rows _ _ _ _ _ _ _ H) as (S & _ & _ & R).
  exists (xcla_turn h a b). split; [|split].
  - intro V. unfold xcla_turn. rewrite (proj2 (is_sing_iff h a) V). reflexivity.
  - intro V. unfold xcla_turn. destruct (is_sing h a) eqn:E; [apply is_sing_iff in E; contradiction|].
    rewrite !Rabs_mult, sin_wrapped. reflexivity.
  - rewrite S, (R k a b Ha Hb). split; f_equal; unfold w_XCLA, right_side; apply V3_eq; cbn [vx vy vz vscale]; ring.
Qed.
Lemma xclh_rows : forall t rev4 h l code mag p e, XCLH t rev4 h l code mag p = Made e ->
  forall k a b, nth_error l k = Some a -> nth_error l (S k) = Some b ->
    let v := vscale (mag * ((w_md b - w_md a) * Rmax (Rabs (w_inc b - w_inc a)) (t * (w_md b - w_md a)))) (high_side b) in
    nth_error (er_e_NEV e) (S k) = Some v /\ nth_error (er_e_NEV_star e) (S k) = Some v.
Proof.
  intros t rev4 h l code mag p e H k a b Ha Hb v. destruct (xcl_rows _ _ _ _ _ _ _ H) as (S & _ & _ & R).
  rewrite S, (R k a b Ha Hb). unfold v. split; f_equal; unfold w_XCLH, high_side; apply V3_eq; cbn [vx vy vz vscale]; ring.
Qed.
(** the uncertainty grows from station to station by the row of the station *)
Lemma xcl_generated : forall (f : wstation -> wstation -> V3) rev4 l code mag p e,
  xcl_error (pairwise f l) rev4 l code mag p = Made e ->
  exists ed, generate_error (drdp rev4 (map survey_rad l)) code ed p (Some (ed, ed)) = Some e.
Proof. intros f rev4 l code mag p e H. unfold xcl_error in H. apply of_generate_made in H. eexists. exact H. Qed.
Lemma xcl_random : forall (f : wstation -> wstation -> V3) rev4 l code mag e,
  xcl_error (pairwise f l) rev4 l code mag "random" = Made e ->
  (l <> [] -> nth_error (er_cov_NEV e) 0 = Some mzero) /\
  forall k v c, nth_error (er_e_NEV e) (S k) = Some v -> nth_error (er_cov_NEV e) k = Some c ->
    nth_error (er_cov_NEV e) (S k) = Some (madd c (outer v v)).
Proof.
  intros f rev4 l code mag e H. destruct (xcl_rows _ _ _ _ _ _ _ H) as (S & L & Z & _).
  destruct (xcl_generated _ _ _ _ _ _ _ H) as [ed G].
  assert (L' : length (er_e_NEV e) = length (er_e_NEV_star e)) by congruence.
  split.
  - intro N. destruct l as [|s l]; [contradiction|]. assert (Q := Z s eq_refl).
    rewrite (random_law _ _ _ _ _ _ vzero G L'); [|congruence]. cbn [firstn map msum]. f_equal. apply M3_eq; apply V3_eq; cbn; ring.
  - intros k v c Hv Hc.
    destruct (nth_error (er_e_NEV e) k) as [u|] eqn:U.
    2:{ apply nth_error_None in U. assert (Datatypes.S k < length (er_e_NEV e))%nat by (apply nth_error_Some; congruence). lia. }
    assert (U' : nth_error (er_e_NEV_star e) k = Some u) by congruence.
    assert (V' : nth_error (er_e_NEV_star e) (Datatypes.S k) = Some v) by congruence.
    rewrite (random_law _ _ _ _ _ _ u G L' U') in Hc. injection Hc as <-.
    rewrite (random_law _ _ _ _ _ _ v G L' V'). f_equal.
    assert (F : firstn (Datatypes.S k) (er_e_NEV e) = firstn k (er_e_NEV e) ++ [u]).
    { clear -U. revert k u U. induction (er_e_NEV e) as [|x m IH]; intros [|k] u U; try discriminate.
      - cbn in *. congruence.
      - cbn [firstn app]. f_equal. apply IH. exact U. }
    rewrite F, map_app. cbn [map].
    assert (A : forall m x, msum (m ++ [x]) = madd (msum m) x).
    { clear. induction m; intro x; [unfold msum; cbn; apply M3_eq; apply V3_eq; cbn; ring|].
      change (madd a (msum (m ++ [x])) = madd (madd a (msum m)) x). rewrite IHm. apply M3_eq; apply V3_eq; cbn; ring. }
    rewrite A. apply M3_eq; apply V3_eq; cbn; ring.
Qed.
Lemma cl_random : forall az t rev4 h l code func mag e, In func ["XCL"; "XCLA"; "XCLH"]%string ->
  call_func az t rev4 h l code func mag "random" = Made e ->
  (l <> [] -> nth_error (er_cov_NEV e) 0 = Some mzero) /\
  forall k v c, nth_error (er_e_NEV e) (S k) = Some v -> nth_error (er_cov_NEV e) k = Some c ->
    nth_error (er_cov_NEV e) (S k) = Some (madd c (outer v v)).
Proof.
  intros az t rev4 h l code func mag e I H.
  assert (X : exists f, xcl_error (pairwise f l) rev4 l code mag "random" = Made e).
  { destruct I as [<-|[<-|[<-|[]]]].
    - change (XCL t rev4 h l code mag "random" = Made e) in H. unfold XCL in H. destruct (String.eqb code "XCLA"); eexists; exact H.
    - eexists. exact H.
    - eexists. exact H. }
  destruct X as [f X]. eapply xcl_random. exact X.
Qed.
Lemma xcl_dispatch : forall az t rev4 h l code mag p,
  call_func az t rev4 h l code "XCL" mag p =
  call_func az t rev4 h l code (if string_dec code "XCLA" then "XCLA" else "XCLH") mag p.
Proof.
  intros. change (XCL t rev4 h l code mag p = call_func az t rev4 h l code (if string_dec code "XCLA" then "XCLA" else "XCLH")%string mag p).
  unfold XCL. destruct (string_dec code "XCLA") as [->|N].
  - reflexivity.
  - apply String.eqb_neq in N. rewrite N. reflexivity.
Qed.

(** ** Vertical rows that depend on the azimuth or on the axis *)
Lemma e_vertical_refuted : forall rev4 h l code mag p e e', 
  XYM3E rev4 h l code mag p = Made e -> XYM4E rev4 h l code mag p = Made e' ->
  forall k a b c, nth_error l k = Some a -> nth_error l (S k) = Some b -> nth_error l (S (S k)) = Some c ->
  vertical h b -> w_inc b = 0 -> cos (w_azt b) = 0 -> (rev4 = true \/ (1 <= k)%nat) ->
  nth_error (er_e_NEV e) (S k) = Some vzero /\ nth_error (er_e_NEV_star e) (S k) = Some vzero /\
  nth_error (er_e_NEV e') (S k) = Some vzero /\ nth_error (er_e_NEV_star e') (S k) = Some vzero.
Proof.
  intros rev4 h l code mag p e e' H H' k a b c Ha Hb Hc V I A Hr.
  destruct (xym3e_vertical _ _ _ _ _ _ _ H k a b c Ha Hb Hc V I Hr) as [-> ->].
  destruct (xym4e_vertical _ _ _ _ _ _ _ H' k a b c Ha Hb Hc V I Hr) as [-> ->].
  rewrite A. repeat split; f_equal; unfold vzero; f_equal; ring.
Qed.
