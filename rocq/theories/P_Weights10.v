(** XYM3L, XYM4L and the course length terms. *)
Require Import Reals ZArith Lra Psatz Lia Bool String List.
Require Import Verif.Base Verif.NumPy Verif.M_Utils Verif.M_Error Verif.M_Weights Verif.Spec_Weights.
Require Import Verif.P_Error Verif.P_Error2 Verif.P_Weights Verif.P_Weights2 Verif.P_Weights3 Verif.P_Weights4
  Verif.P_Weights5 Verif.P_Weights6 Verif.P_Weights7 Verif.P_Weights8 Verif.P_Weights9.
Import ListNotations.
Local Open Scope R_scope.

Lemma nth_S : forall A (x : A) l k, nth_error (x :: l) (S k) = nth_error l k.
Proof. reflexivity. Qed.
Lemma long_length : forall ax l cs c1 mag, (3 <= length l)%nat -> length cs = (length l - 1)%nat ->
  length (long_sing ax l cs c1 mag) = length l /\ length (long_star ax l mag) = length l.
Proof.
  intros ax l cs c1 mag L C. unfold long_sing, long_star. rewrite !set_nth_length. cbn [length].
  rewrite app_length, pairwise_length. unfold map2. rewrite map_length, combine_length, triplewise_length. cbn [length]. split; lia.
Qed.
Lemma long_sing_mid : forall ax l cs c1 mag k a b c K, nth_error l k = Some a -> nth_error l (S k) = Some b ->
  nth_error l (S (S k)) = Some c -> nth_error cs k = Some K -> (1 <= k)%nat -> length cs = (length l - 1)%nat ->
  nth_error (long_sing ax l cs c1 mag) (S k) = Some (ax (K * (w_md c - w_md a) / 2 * mag)).
Proof.
  intros ax l cs c1 mag k a b c K Ha Hb Hc HK H1 L. assert (S (S k) < length l)%nat by (apply nth_error_Some; congruence).
  unfold long_sing. rewrite !set_nth_other by lia. cbn [nth_error].
  rewrite nth_error_app1. 2:{ unfold map2. rewrite map_length, combine_length, triplewise_length. lia. }
  rewrite map2_nth, HK, (triplewise_nth _ _ _ _ _ _ _ _ Ha Hb Hc). reflexivity.
Qed.
Lemma long_sing_first : forall ax a b c l cs c1 mag, length cs = (length (a :: b :: c :: l) - 1)%nat ->
  nth_error (long_sing ax (a :: b :: c :: l) cs c1 mag) 1
  = Some (ax (c1 * ((w_md c - w_md a) + (w_md b - w_md a)) / 2 * mag)).
Proof.
  intros ax a b c l cs c1 mag L. unfold long_sing. rewrite set_nth_other by (cbn; lia).
  rewrite set_nth_same. 2:{ cbn. destruct cs; [discriminate|]. cbn. lia. }
  f_equal. f_equal. f_equal. unfold md_of. cbn [map nth]. unfold Rdiv. ring.
Qed.
Lemma last_nth_error : forall A (l : list A) d k, length l = S k -> nth_error l k = Some (last l d).
Proof.
  intros A l d. induction l as [|x l IH]; intros k H; [discriminate|].
  destruct k; cbn in H.
  - destruct l; [reflexivity|discriminate].
  - destruct l as [|y l]; [discriminate|]. cbn [nth_error]. rewrite (IH k) by (cbn in *; lia). reflexivity.
Qed.
Lemma long_sing_last : forall ax l cs c1 mag k a b K, nth_error l k = Some a -> nth_error l (S k) = Some b ->
  length l = S (S k) -> (1 <= k)%nat -> length cs = (length l - 1)%nat -> nth_error cs k = Some K ->
  nth_error (long_sing ax l cs c1 mag) (S k) = Some (ax (K * (w_md b - w_md a) / 2 * mag)).
Proof.
  intros ax l cs c1 mag k a b K Ha Hb L H1 Lc HK. unfold long_sing.
  replace (length l - 1)%nat with (S k) by lia. rewrite set_nth_same.
  2:{ rewrite set_nth_length. cbn [length]. rewrite app_length. unfold map2. rewrite map_length, combine_length, triplewise_length. cbn. lia. }
  rewrite (last_nth_error _ cs 0 k) in HK by lia. injection HK as ->.
  assert (E : last_interval l = w_md b - w_md a).
  { unfold last_interval. assert (Q := last_nth_error _ (pairwise (fun a b => w_md b - w_md a) l) 0 k).
    rewrite pairwise_length in Q. rewrite (pairwise_nth' _ _ _ _ _ _ _ Ha Hb) in Q.
    assert (Some (w_md b - w_md a) = Some (last (pairwise (fun a b => w_md b - w_md a) l) 0)) by (apply Q; lia).
    injection H as <-. reflexivity. }
  rewrite E. reflexivity.
Qed.
Lemma long_star_rows : forall ax l mag k a b, nth_error l k = Some a -> nth_error l (S k) = Some b ->
  nth_error (long_star ax l mag) (S k) = Some (ax ((w_md b - w_md a) * (if Nat.eqb k 0 then 1 else 1/2) * mag)).
Proof.
  intros ax l mag k a b Ha Hb. unfold long_star. destruct k.
  - rewrite set_nth_same.
    2:{ destruct l as [|x [|y l]]; try discriminate. cbn. lia. }
    destruct l as [|x [|y l]]; try discriminate. cbn in Ha, Hb. injection Ha as ->. injection Hb as ->.
    unfold md_of. cbn. f_equal. f_equal. ring.
  - rewrite set_nth_other by lia. rewrite nth_S. cbn [Nat.eqb].
    rewrite (pairwise_nth' _ _ _ _ _ _ _ Ha Hb). f_equal. f_equal. field.
Qed.
Lemma long_rows_intro : forall ax first h l mag cs e d ed,
  coeffs l = Some cs -> (3 <= length l)%nat -> (first < 2)%nat -> length d = length l -> length ed = length l ->
  er_e_NEV e = replace_sing h l d (long_sing ax l cs (nth first cs 0) mag) ->
  er_e_NEV_star e = replace_sing h l ed (long_star ax l mag) -> long_rows ax first h l mag e.
Proof.
  intros ax first h l mag cs e d ed C L F Ld Led E1 E2 k a b Ha Hb V.
  assert (Lc := coeffs_length _ _ C).
  destruct (long_length ax l cs (nth first cs 0) mag L Lc) as [S1 S2].
  assert (Hk : (S k < length l)%nat) by (apply nth_error_Some; congruence).
  assert (PICK : forall (dd sg : list V3) x, length dd = length l -> nth_error sg (S k) = Some x ->
     nth_error (replace_sing h l dd sg) (S k) = Some x).
  { intros dd sg x Ldd N. destruct (nth_error dd (S k)) as [u|] eqn:U; [|apply nth_error_None in U; lia].
    rewrite (replace_sing_nth _ _ _ _ _ _ _ _ Hb U N), (proj2 (is_sing_iff h b) V). reflexivity. }
  destruct (coeffs_nth _ _ _ _ _ C Ha Hb) as [Pos HK].
  split; [|split].
  - intros c H1 Hc. rewrite E1. apply PICK; auto.
    rewrite (long_sing_mid ax l cs _ mag k a b c _ Ha Hb Hc HK H1 Lc). f_equal. f_equal. unfold short_factor. field.
  - intros c a1 b1 -> Hc Ha1 Hb1. rewrite E1. apply PICK; auto.
    destruct (coeffs_nth _ _ _ _ _ C Ha1 Hb1) as [_ HK1]. rewrite (nth_error_nth _ _ _ HK1).
    destruct l as [|a' [|b' [|c' l]]]; try discriminate. cbn in Ha, Hb, Hc. injection Ha as ->. injection Hb as ->. injection Hc as ->.
    rewrite long_sing_first by auto. f_equal. f_equal. unfold short_factor. field.
  - rewrite E2. apply PICK; auto. rewrite (long_star_rows ax l mag k a b Ha Hb). f_equal. f_equal. ring.
Qed.
Lemma xym3l_rows : forall rev4 h l code mag p e, XYM3L rev4 h l code mag p = Made e ->
  long_rows northward 1 h l mag e.
Proof.
  intros rev4 h l code mag p e H. unfold XYM3L in H.
  destruct (Nat.ltb (length l) 2); [discriminate|].
  destruct (coeffs l) as [cs|] eqn:C; [|discriminate].
  destruct (seq_opt (map2 w_XYM3L (tl l) cs)) as [rows|] eqn:Q; [|discriminate].
  assert (Lc := coeffs_length _ _ C).
  destruct (existsb (is_sing h) l) eqn:X.
  - destruct (Nat.ltb_spec (length l) 3); [discriminate|]. cbv zeta in H.
    assert (Lt : length (tl l) = (length l - 1)%nat) by (destruct l; cbn; lia).
    assert (Lr : length rows = length (tl l)) by (eapply rows_length; eauto; lia).
    destruct (e_NEV_length rev4 (map survey_rad l) (map (vscale mag) (nth 0 rows vzero :: rows))) as [Y1 Y2].
    { rewrite map_length. lia. } { rewrite !map_length. cbn. lia. }
    rewrite map_length in Y1, Y2. set (ED := map (vscale mag) (nth 0 rows vzero :: rows)) in *. clearbody ED.
    apply of_generate_made in H. apply generate_cases in H. destruct H as [_ [_ [E _]]]. injection E as E1 E2.
    exact (long_rows_intro on_north 1 h l mag cs e _ _ C H0 (le_n _) Y1 Y2 E1 E2).
  - intros k a b Ha Hb V. exfalso. apply is_sing_iff in V.
    assert (T : existsb (is_sing h) l = true).
    { apply existsb_exists. exists b. split; auto. eapply nth_error_In; eauto. }
    congruence.
Qed.
Lemma xym4l_rows : forall rev4 h l code mag p e, XYM4L rev4 h l code mag p = Made e ->
  long_rows eastward 0 h l mag e.
Proof.
  intros rev4 h l code mag p e H. unfold XYM4L in H.
  destruct (coeffs l) as [cs|] eqn:C; [|discriminate].
  destruct (seq_opt (map2 w_XYM4L l (1 :: cs))) as [rows|] eqn:Q; [|discriminate].
  assert (Lc := coeffs_length _ _ C).
  destruct (existsb (is_sing h) l) eqn:X.
  - destruct (Nat.ltb_spec (length l) 3); [discriminate|]. cbv zeta in H.
    assert (Lr : length rows = length l) by (eapply rows_length; eauto; cbn; lia).
    destruct (e_NEV_length rev4 (map survey_rad l) (map (vscale mag) rows)) as [Y1 Y2].
    { rewrite map_length. lia. } { rewrite !map_length. cbn. lia. }
    rewrite map_length in Y1, Y2.
    apply of_generate_made in H. apply generate_cases in H. destruct H as [_ [_ [E _]]]. injection E as E1 E2.
    exact (long_rows_intro on_east 0 h l mag cs e _ _ C H0 (le_S _ _ (le_n _)) Y1 Y2 E1 E2).
  - intros k a b Ha Hb V. exfalso. apply is_sing_iff in V.
    assert (T : existsb (is_sing h) l = true).
    { apply existsb_exists. exists b. split; auto. eapply nth_error_In; eauto. }
    congruence.
Qed.
