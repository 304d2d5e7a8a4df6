(** Covariances of a tool model do not depend on the stations below (C121): the
    remaining weight functions, the dispatch. *)
Require Import Reals ZArith Lra Psatz Lia Bool String List.
Require Import Verif.Base Verif.NumPy Verif.M_Utils Verif.M_Error Verif.Spec Verif.Spec_Error Verif.M_Weights Verif.Spec_Weights.
Require Import Verif.P_Error Verif.P_Error2 Verif.P_Weights Verif.P_Weights2 Verif.P_Weights5 Verif.P_Weights6
  Verif.P_Weights7 Verif.P_Weights8 Verif.P_Weights9 Verif.P_Weights10 Verif.P_Weights12 Verif.P_Causal.
Import ListNotations.
Local Open Scope R_scope.

Lemma some_nth : forall A (l : list A) j, (j < length l)%nat -> exists x, nth_error l j = Some x.
Proof. intros A l j H. destruct (nth_error l j) eqn:E; eauto. apply nth_error_None in E. lia. Qed.

Lemma cna_match : forall az rev4 h l m code mag p e e' k,
  CNA az rev4 h l code mag p = Made e -> CNA az rev4 h (l ++ m) code mag p = Made e' ->
  (k < length l)%nat -> ((S k < length l)%nat \/ forall s, nth_error l k = Some s -> ~ vertical h s) ->
  rows_match k e e'.
Proof.
  intros az rev4 h l m code mag p e e' k H H' Hk Q. unfold CNA in *.
  assert (X : forall f g l e, existsb (is_sing h) l = false -> simple_error w_CNA rev4 h l code mag p = Made e ->
     sing_error w_CNA f g rev4 h l code mag p = Made e).
  { clear. intros f g l e S H. unfold sing_error. rewrite S. destruct (seq_opt (map (w_CNA h) l)) eqn:Hd; [exact H|].
    unfold simple_error in H. rewrite Hd in H. discriminate. }
  destruct (existsb (is_sing h) (l ++ m)) eqn:S'.
  - destruct (if (az =? "true")%string then Some w_azt else if (az =? "grid")%string then Some w_azg else None) as [azi|]; [|discriminate].
    destruct (existsb (is_sing h) l) eqn:S.
    + eapply stacked_match; [exact H|exact H'|exact Hk|exact Q].
    + eapply stacked_match; [|exact H'|exact Hk|exact Q]. apply X; auto.
  - rewrite existsb_app in S'. apply orb_false_iff in S'. destruct S' as [S' _]. rewrite S' in H.
    eapply simple_match; eauto.
Qed.

Lemma coeffs_prefix : forall l m cs cs', coeffs l = Some cs -> coeffs (l ++ m) = Some cs' ->
  length cs = (length l - 1)%nat /\ length cs' = (length (l ++ m) - 1)%nat /\
  forall j, (S j < length l)%nat -> nth_error cs j = nth_error cs' j.
Proof.
  intros l m cs cs' C C'. split; [apply coeffs_length; auto|]. split; [apply coeffs_length; auto|].
  intros j Hj. destruct (some_nth _ l j ltac:(lia)) as [a Ha]. destruct (some_nth _ l (S j) ltac:(lia)) as [b Hb].
  destruct (coeffs_nth _ _ _ _ _ C Ha Hb) as [_ ->].
  assert (Ha' : nth_error (l ++ m) j = Some a) by (rewrite nth_error_app1; auto; lia).
  assert (Hb' : nth_error (l ++ m) (S j) = Some b) by (rewrite nth_error_app1; auto; lia).
  destruct (coeffs_nth _ _ _ _ _ C' Ha' Hb') as [_ ->]. reflexivity.
Qed.
Lemma map2_prefix : forall (w : wstation -> R -> option V3) l m cs cs' rows rows',
  seq_opt (map2 w l cs) = Some rows -> seq_opt (map2 w (l ++ m) cs') = Some rows' ->
  length cs = length l -> length cs' = length (l ++ m) ->
  (forall j, (j < length l)%nat -> nth_error cs j = nth_error cs' j) ->
  length rows = length l /\ length rows' = length (l ++ m) /\
  forall j, (j < length l)%nat -> nth_error rows j = nth_error rows' j.
Proof.
  intros w l m cs cs' rows rows' Q Q' L L' Pre.
  split. { destruct (seq_opt_nth _ _ _ Q) as [X _]. rewrite X, map2_length; auto. }
  split. { destruct (seq_opt_nth _ _ _ Q') as [X _]. rewrite X, map2_length; auto. }
  intros j Hj. destruct (some_nth _ l j Hj) as [s Hs]. destruct (some_nth _ cs j ltac:(lia)) as [c Hc].
  rewrite (seq_opt_map2_nth _ _ _ _ _ _ _ j s c Q Hs Hc). symmetry.
  apply (seq_opt_map2_nth _ _ _ _ _ _ _ j s c Q'); [rewrite nth_error_app1; auto|].
  rewrite <- Pre; auto.
Qed.

(** ** misalignment of the enhanced models *)
Lemma tl_app : forall A (l m : list A), l <> [] -> tl (l ++ m) = tl l ++ m.
Proof. intros A [|x l] m H; [contradiction|reflexivity]. Qed.
Lemma tl_len : forall A (l : list A), length (tl l) = (length l - 1)%nat.
Proof. intros A [|x l]; cbn; lia. Qed.

Lemma rows_prefix_tl : forall (w : wstation -> R -> option V3) l m cs cs' rows rows',
  (2 <= length l)%nat -> coeffs l = Some cs -> coeffs (l ++ m) = Some cs' ->
  seq_opt (map2 w (tl l) cs) = Some rows -> seq_opt (map2 w (tl (l ++ m)) cs') = Some rows' ->
  length rows = (length l - 1)%nat /\ length rows' = (length (l ++ m) - 1)%nat /\
  forall j, (S j < length l)%nat -> nth_error rows j = nth_error rows' j.
Proof.
  intros w l m cs cs' rows rows' L2 C C' Q Q'.
  destruct (coeffs_prefix _ _ _ _ C C') as (A & B & P).
  assert (N : l <> []) by (intros ->; cbn in L2; lia).
  rewrite (tl_app _ _ _ N) in Q'. rewrite app_length in *.
  destruct (map2_prefix w (tl l) m cs cs' rows rows' Q Q') as (X & Y & Z).
  - rewrite tl_len. exact A.
  - rewrite app_length, tl_len. lia.
  - intros j Hj. rewrite tl_len in Hj. apply P. lia.
  - rewrite app_length, tl_len in *. split; [lia|]. split; [lia|]. intros j Hj. apply Z. lia.
Qed.

Lemma existsb_prefix : forall h l m s j, nth_error l j = Some s -> vertical h s ->
  existsb (is_sing h) l = true /\ existsb (is_sing h) (l ++ m) = true.
Proof.
  intros h l m s j Hs V. assert (X : existsb (is_sing h) l = true).
  { apply existsb_exists. exists s. split; [eapply nth_error_In; eauto|apply is_sing_iff; auto]. }
  split; auto. rewrite existsb_app, X. reflexivity.
Qed.

Lemma map_prefix : forall A B (f : A -> B) l l' j, nth_error l j = nth_error l' j ->
  nth_error (map f l) j = nth_error (map f l') j.
Proof. intros A B f l l' j H. rewrite !map_nth_error', H. reflexivity. Qed.

Lemma xym3e_match : forall rev4 h l m code mag p e e' k,
  XYM3E rev4 h l code mag p = Made e -> XYM3E rev4 h (l ++ m) code mag p = Made e' ->
  (k < length l)%nat -> rows_match k e e'.
Proof.
  intros rev4 h l m code mag p e e' k H H' Hk. unfold XYM3E in *.
  destruct (Nat.ltb_spec (length l) 2) as [L2|L2]; [discriminate|].
  destruct (Nat.ltb_spec (length (l ++ m)) 2) as [L2'|L2']; [discriminate|].
  destruct (coeffs l) as [cs|] eqn:C; [|discriminate]. destruct (coeffs (l ++ m)) as [cs'|] eqn:C'; [|discriminate].
  cbn [bind] in H, H'.
  destruct (seq_opt (map2 (w_XYM3E h) (tl l) cs)) as [rows|] eqn:Q; [|discriminate].
  destruct (seq_opt (map2 (w_XYM3E h) (tl (l ++ m)) cs')) as [rows'|] eqn:Q'; [|discriminate].
  destruct (rows_prefix_tl _ _ _ _ _ _ _ L2 C C' Q Q') as (A & B & P). cbv zeta in H, H'.
  set (ed := map (vscale mag) (vzero :: rows)) in *. set (ed' := map (vscale mag) (vzero :: rows')) in *.
  assert (Led : length ed = length l) by (unfold ed; rewrite map_length; cbn [length]; lia).
  assert (Led' : length ed' = length (l ++ m)) by (unfold ed'; rewrite map_length; cbn [length]; lia).
  assert (Pre : forall j, (j < length l)%nat -> nth_error ed j = nth_error ed' j).
  { intros j Hj. unfold ed, ed'. apply map_prefix. destruct j; [reflexivity|]. cbn [nth_error]. apply P. exact Hj. }
  destruct (e_NEV_length rev4 (map survey_rad l) ed) as [X1 X2]; rewrite ?map_length; try lia.
  destruct (e_NEV_length rev4 (map survey_rad (l ++ m)) ed') as [X1' X2']; rewrite ?map_length; try lia.
  rewrite map_length in X1, X2, X1', X2'.
  destruct (either_rows _ _ _ _ _ _ _ _ _ H) as [E1 E2]; rewrite ?map_length; auto; try lia.
  destruct (either_rows _ _ _ _ _ _ _ _ _ H') as [E1' E2']; rewrite ?map_length; auto; try lia.
  destruct (e_NEV_agree rev4 (map survey_rad l) (map survey_rad (l ++ m)) ed ed' k) as [S T]; rewrite ?map_length; rewrite ?app_length in *; try lia.
  { rewrite map_app, firstn_app_eq; auto. rewrite map_length. lia. }
  { apply nth_firstn. intros i Hi. apply Pre. lia. }
  rewrite <- app_length in Led'.
  eapply core_agree; [exact Hk|exact Led|exact Led'|exact Pre|..|exact E1|exact E2|exact E1'|exact E2'];
    rewrite ?map_length, ?app_length; try lia.
  - intros s Hs V. apply map_prefix. exact S.
  - intros j s Hj Hs V. apply map_prefix. apply (firstn_nth _ _ _ _ T). exact Hj.
Qed.

Lemma xym4e_match : forall rev4 h l m code mag p e e' k,
  XYM4E rev4 h l code mag p = Made e -> XYM4E rev4 h (l ++ m) code mag p = Made e' ->
  (k < length l)%nat -> rows_match k e e'.
Proof.
  intros rev4 h l m code mag p e e' k H H' Hk. unfold XYM4E in *.
  destruct (Nat.ltb_spec (length l) 2) as [L2|L2]; [discriminate|].
  destruct (Nat.ltb_spec (length (l ++ m)) 2) as [L2'|L2']; [discriminate|].
  destruct (coeffs l) as [cs|] eqn:C; [|discriminate]. destruct (coeffs (l ++ m)) as [cs'|] eqn:C'; [|discriminate].
  cbn [bind] in H, H'.
  destruct (seq_opt (map2 (w_XYM4E h) (tl l) cs)) as [rows|] eqn:Q; [|discriminate].
  destruct (seq_opt (map2 (w_XYM4E h) (tl (l ++ m)) cs')) as [rows'|] eqn:Q'; [|discriminate].
  destruct (rows_prefix_tl _ _ _ _ _ _ _ L2 C C' Q Q') as (A & B & P). cbv zeta in H, H'.
  set (ed := map (vscale mag) (vzero :: rows)) in *. set (ed' := map (vscale mag) (vzero :: rows')) in *.
  assert (Led : length ed = length l) by (unfold ed; rewrite map_length; cbn [length]; lia).
  assert (Led' : length ed' = length (l ++ m)) by (unfold ed'; rewrite map_length; cbn [length]; lia).
  assert (Pre : forall j, (j < length l)%nat -> nth_error ed j = nth_error ed' j).
  { intros j Hj. unfold ed, ed'. apply map_prefix. destruct j; [reflexivity|]. cbn [nth_error]. apply P. exact Hj. }
  (* the arrays taken from XYM3E *)
  assert (Y : forall l ed e, (2 <= length l)%nat -> length ed = length l ->
    (if existsb (is_sing h) l
     then match XYM3E rev4 h l code mag p with
          | Made x => given_error rev4 l code ed p
              (replace_sing h l (e_NEV (drdp rev4 (map survey_rad l)) ed) (map (fun v => mkV 0 (vx v) 0) (er_e_NEV x)),
               replace_sing h l (e_NEV_star (drdp rev4 (map survey_rad l)) ed) (map (fun v => mkV 0 (vx v) 0) (er_e_NEV_star x)))
          | ReturnsNone => Raises | o => o end
     else of_generate (generate_error (drdp rev4 (map survey_rad l)) code ed p None)) = Made e ->
    exists sing star,
      (length l <= length sing)%nat /\ (length l <= length star)%nat /\
      er_e_NEV e = replace_sing h l (e_NEV (drdp rev4 (map survey_rad l)) ed) sing /\
      er_e_NEV_star e = replace_sing h l (e_NEV_star (drdp rev4 (map survey_rad l)) ed) star /\
      (existsb (is_sing h) l = true -> exists x, XYM3E rev4 h l code mag p = Made x /\
         sing = map (fun v => mkV 0 (vx v) 0) (er_e_NEV x) /\ star = map (fun v => mkV 0 (vx v) 0) (er_e_NEV_star x))).
  { clear. intros l ed e L2 Led H. destruct (existsb (is_sing h) l) eqn:S.
    - destruct (XYM3E rev4 h l code mag p) as [x| | |] eqn:X; try discriminate.
      assert (LL : length (er_e_NEV x) = length l /\ length (er_e_NEV_star x) = length l).
      { destruct (xym3e_generated _ _ _ _ _ _ _ X) as (ed0 & g & G & Q).
        apply generate_cases in G. destruct G as (_ & _ & E & _). destruct g as [[a b]|].
        - injection E as -> ->. tauto.
        - injection E as -> ->. rewrite <- (map_length survey_rad l). apply e_NEV_length; rewrite map_length; auto; lia. }
      destruct LL as [LL1 LL2].
      apply of_generate_made in H. apply generate_cases in H. destruct H as (_ & _ & E & _). injection E as E1 E2.
      eexists _, _. split; [|split; [|split; [exact E1|split; [exact E2|]]]]; rewrite ?map_length; try lia.
      intros _. exists x. auto.
    - exists (e_NEV (drdp rev4 (map survey_rad l)) ed), (e_NEV_star (drdp rev4 (map survey_rad l)) ed).
      destruct (e_NEV_length rev4 (map survey_rad l) ed) as [X1 X2]; rewrite ?map_length; try lia. rewrite map_length in X1, X2.
      apply of_generate_made in H. apply generate_cases in H. destruct H as (_ & _ & E & _). injection E as E1 E2.
      rewrite !replace_none by (auto; lia). repeat split; auto; try lia. }
  destruct (Y l ed e L2 Led H) as (sing & star & S1 & S2 & E1 & E2 & Z).
  destruct (Y (l ++ m) ed' e' L2' Led' H') as (sing' & star' & S1' & S2' & E1' & E2' & Z').
  assert (M : forall j s, nth_error l j = Some s -> vertical h s -> (j < length l)%nat ->
     forall i, (i <= j)%nat -> (i < length l)%nat ->
       (i = j -> nth_error star j = nth_error star' j) /\ ((i < j)%nat -> nth_error sing i = nth_error sing' i)).
  { intros j s Hs V Hj i Hi Hil. destruct (existsb_prefix h l m s j Hs V) as [B1 B2].
    destruct (Z B1) as (x & X & -> & ->). destruct (Z' B2) as (x' & X' & -> & ->).
    destruct (xym3e_match rev4 h l m code mag p x x' j X X' Hj) as [R1 R2]. split.
    - intros _. apply map_prefix. exact R1.
    - intro Lt. apply map_prefix. apply R2. exact Lt. }
  eapply core_agree; [exact Hk|exact Led|exact Led'|exact Pre|exact S1|exact S2|exact S1'|exact S2'| | |exact E1|exact E2|exact E1'|exact E2'].
  - intros s Hs V. apply (M k s Hs V Hk k); lia.
  - intros j s Hj Hs V. destruct (existsb_prefix h l m s j Hs V) as [B1 B2].
    destruct (Z B1) as (x & X & -> & ->). destruct (Z' B2) as (x' & X' & -> & ->). apply map_prefix.
    destruct (xym3e_match rev4 h l m code mag p x x' k X X' Hk) as [_ R2]. apply R2. exact Hj.
Qed.

(** ** misalignment with the long-interval factor *)
Lemma long_sing_len : forall ax l cs c1 mag, length cs = (length l - 1)%nat -> (length l <= length (long_sing ax l cs c1 mag))%nat.
Proof.
  intros ax l cs c1 mag L. unfold long_sing. rewrite !set_nth_length. cbn [length]. rewrite app_length.
  unfold map2. rewrite map_length, combine_length, triplewise_length. cbn [length]. lia.
Qed.
Lemma long_star_len : forall ax l mag, (1 <= length l)%nat -> length (long_star ax l mag) = length l.
Proof. intros ax l mag L. unfold long_star. rewrite set_nth_length. cbn [length]. rewrite pairwise_length. lia. Qed.

Lemma long_star_agree : forall ax l m mag j, (j < length l)%nat -> 
  nth_error (long_star ax l mag) j = nth_error (long_star ax (l ++ m) mag) j.
Proof.
  intros ax l m mag [|j] Hj.
  - unfold long_star. rewrite !set_nth_other by lia. reflexivity.
  - destruct (some_nth _ l j ltac:(lia)) as [a Ha]. destruct (some_nth _ l (S j) ltac:(lia)) as [b Hb].
    rewrite (long_star_rows ax l mag j a b Ha Hb). symmetry. apply long_star_rows; rewrite nth_error_app1; auto; lia.
Qed.
Lemma long_sing_zero : forall ax l cs c1 mag, (2 <= length l)%nat -> nth_error (long_sing ax l cs c1 mag) 0 = Some vzero.
Proof. intros. unfold long_sing. rewrite !set_nth_other by lia. reflexivity. Qed.
Lemma long_sing_agree : forall ax l m cs cs' c1 mag j, (S j < length l)%nat -> (3 <= length l)%nat ->
  length cs = (length l - 1)%nat -> length cs' = (length (l ++ m) - 1)%nat ->
  (forall j, (S j < length l)%nat -> nth_error cs j = nth_error cs' j) ->
  nth_error (long_sing ax l cs c1 mag) j = nth_error (long_sing ax (l ++ m) cs' c1 mag) j.
Proof.
  intros ax l m cs cs' c1 mag j Hj L3 Lc Lc' P. rewrite app_length in Lc'.
  destruct j as [|[|j]].
  - rewrite !long_sing_zero; auto; rewrite ?app_length; lia.
  - destruct l as [|a [|b [|c l]]]; cbn [length] in L3; try lia.
    rewrite (long_sing_first ax a b c l cs c1 mag Lc). symmetry.
    change ((a :: b :: c :: l) ++ m) with (a :: b :: c :: (l ++ m)). apply long_sing_first.
    cbn [length] in *. rewrite app_length. lia.
  - destruct (some_nth _ l (S j) ltac:(lia)) as [a Ha]. destruct (some_nth _ l (S (S j)) ltac:(lia)) as [b Hb].
    destruct (some_nth _ l (S (S (S j))) ltac:(lia)) as [c Hc]. destruct (some_nth _ cs (S j) ltac:(lia)) as [K HK].
    rewrite (long_sing_mid ax l cs c1 mag (S j) a b c K); auto; try lia. symmetry.
    apply (long_sing_mid ax (l ++ m) cs' c1 mag (S j) a b c K); try (rewrite nth_error_app1; auto; lia); try lia.
    + rewrite <- P; auto. lia.
    + rewrite app_length. exact Lc'.
Qed.

Lemma long_match : forall ax rev4 h l m code p ed ed' cs cs' c1 c1' mag e e' k,
  (if existsb (is_sing h) l
   then if (length l <? 3)%nat then Raises else
     given_error rev4 l code ed p
     (replace_sing h l (e_NEV (drdp rev4 (map survey_rad l)) ed) (long_sing ax l cs c1 mag),
      replace_sing h l (e_NEV_star (drdp rev4 (map survey_rad l)) ed) (long_star ax l mag))
   else of_generate (generate_error (drdp rev4 (map survey_rad l)) code ed p None)) = Made e ->
  (if existsb (is_sing h) (l ++ m)
   then if (length (l ++ m) <? 3)%nat then Raises else
     given_error rev4 (l ++ m) code ed' p
     (replace_sing h (l ++ m) (e_NEV (drdp rev4 (map survey_rad (l ++ m))) ed') (long_sing ax (l ++ m) cs' c1' mag),
      replace_sing h (l ++ m) (e_NEV_star (drdp rev4 (map survey_rad (l ++ m))) ed') (long_star ax (l ++ m) mag))
   else of_generate (generate_error (drdp rev4 (map survey_rad (l ++ m))) code ed' p None)) = Made e' ->
  (k < length l)%nat -> length ed = length l -> length ed' = length (l ++ m) ->
  (forall j, (j < length l)%nat -> nth_error ed j = nth_error ed' j) ->
  length cs = (length l - 1)%nat -> length cs' = (length (l ++ m) - 1)%nat ->
  (forall j, (S j < length l)%nat -> nth_error cs j = nth_error cs' j) ->
  ((3 <= length l)%nat -> c1 = c1') -> rows_match k e e'.
Proof.
  intros ax rev4 h l m code p ed ed' cs cs' c1 c1' mag e e' k H H' Hk Led Led' Pre Lc Lc' P Ec.
  assert (X : forall l ed cs c1 e, (if existsb (is_sing h) l
   then if (length l <? 3)%nat then Raises else
     given_error rev4 l code ed p
     (replace_sing h l (e_NEV (drdp rev4 (map survey_rad l)) ed) (long_sing ax l cs c1 mag),
      replace_sing h l (e_NEV_star (drdp rev4 (map survey_rad l)) ed) (long_star ax l mag))
   else of_generate (generate_error (drdp rev4 (map survey_rad l)) code ed p None)) = Made e ->
   (0 < length l)%nat -> length ed = length l -> length cs = (length l - 1)%nat ->
   (existsb (is_sing h) l = true -> (3 <= length l)%nat) /\
   er_e_NEV e = replace_sing h l (e_NEV (drdp rev4 (map survey_rad l)) ed) (long_sing ax l cs c1 mag) /\
   er_e_NEV_star e = replace_sing h l (e_NEV_star (drdp rev4 (map survey_rad l)) ed) (long_star ax l mag)).
  { clear. intros l ed cs c1 e H L0 Led Lc.
    assert (Q : (if existsb (is_sing h) l then given_error rev4 l code ed p
     (replace_sing h l (e_NEV (drdp rev4 (map survey_rad l)) ed) (long_sing ax l cs c1 mag),
      replace_sing h l (e_NEV_star (drdp rev4 (map survey_rad l)) ed) (long_star ax l mag))
      else of_generate (generate_error (drdp rev4 (map survey_rad l)) code ed p None)) = Made e /\ (existsb (is_sing h) l = true -> (3 <= length l)%nat)).
    { destruct (existsb (is_sing h) l); [|split; [auto|discriminate]].
      destruct (Nat.ltb_spec (length l) 3); [discriminate|]. auto. }
    destruct Q as [Q Q3]. split; auto.
    apply (either_rows _ _ _ _ _ _ _ _ _ Q); auto. apply long_sing_len; auto. rewrite long_star_len; lia. }
  destruct (X _ _ _ _ _ H) as (L3 & E1 & E2); auto; try lia.
  pose proof (app_length l m) as LA.
  destruct (X _ _ _ _ _ H') as (_ & E1' & E2'); auto; try lia.
  eapply core_agree; [exact Hk|exact Led|exact Led'|exact Pre|..|exact E1|exact E2|exact E1'|exact E2'].
  - apply long_sing_len; auto.
  - rewrite long_star_len; lia.
  - apply long_sing_len; auto.
  - rewrite long_star_len; rewrite ?app_length; lia.
  - intros s Hs V. apply long_star_agree. exact Hk.
  - intros j s Hj Hs V. destruct (existsb_prefix h l m s j Hs V) as [B _]. specialize (L3 B). rewrite <- (Ec L3).
    apply long_sing_agree; auto; lia.
Qed.

Lemma nth_of_error : forall A (l l' : list A) j d, nth_error l j = nth_error l' j -> nth j l d = nth j l' d.
Proof.
  intros A l l' j d H. destruct (nth_error l j) as [x|] eqn:E.
  - rewrite (nth_error_nth _ _ _ E), (nth_error_nth _ _ _ (eq_sym H)). reflexivity.
  - symmetry in H. apply nth_error_None in E, H. rewrite !nth_overflow by auto. reflexivity.
Qed.
Lemma xym3l_match : forall rev4 h l m code mag p e e' k,
  XYM3L rev4 h l code mag p = Made e -> XYM3L rev4 h (l ++ m) code mag p = Made e' ->
  (k < length l)%nat -> rows_match k e e'.
Proof.
  intros rev4 h l m code mag p e e' k H H' Hk. unfold XYM3L in *.
  destruct (Nat.ltb_spec (length l) 2) as [L2|L2]; [discriminate|].
  destruct (Nat.ltb_spec (length (l ++ m)) 2) as [L2'|L2']; [discriminate|].
  destruct (coeffs l) as [cs|] eqn:C; [|discriminate]. destruct (coeffs (l ++ m)) as [cs'|] eqn:C'; [|discriminate].
  destruct (seq_opt (map2 w_XYM3L (tl l) cs)) as [rows|] eqn:Q; [|discriminate].
  destruct (seq_opt (map2 w_XYM3L (tl (l ++ m)) cs')) as [rows'|] eqn:Q'; [|discriminate].
  destruct (rows_prefix_tl _ _ _ _ _ _ _ L2 C C' Q Q') as (A & B & P). cbv zeta in H, H'.
  destruct (coeffs_prefix _ _ _ _ C C') as (Lc & Lc' & Pc).
  eapply long_match; [exact H|exact H'|exact Hk|..|exact Lc|exact Lc'|exact Pc|]; rewrite ?map_length; cbn [length]; try lia.
  - intros j Hj. apply map_prefix. destruct j; cbn [nth_error]; [|apply P; exact Hj].
    f_equal. apply nth_of_error. apply P. lia.
  - intro L3. apply nth_of_error. apply Pc. lia.
Qed.
Lemma xym4l_match : forall rev4 h l m code mag p e e' k,
  XYM4L rev4 h l code mag p = Made e -> XYM4L rev4 h (l ++ m) code mag p = Made e' ->
  (k < length l)%nat -> rows_match k e e'.
Proof.
  intros rev4 h l m code mag p e e' k H H' Hk. unfold XYM4L in *.
  destruct (coeffs l) as [cs|] eqn:C; [|discriminate]. destruct (coeffs (l ++ m)) as [cs'|] eqn:C'; [|discriminate].
  destruct (seq_opt (map2 w_XYM4L l (1 :: cs))) as [rows|] eqn:Q; [|discriminate].
  destruct (seq_opt (map2 w_XYM4L (l ++ m) (1 :: cs'))) as [rows'|] eqn:Q'; [|discriminate].
  destruct (coeffs_prefix _ _ _ _ C C') as (Lc & Lc' & Pc). cbv zeta in H, H'.
  destruct (map2_prefix w_XYM4L l m (1 :: cs) (1 :: cs') rows rows' Q Q') as (A & B & P); cbn [length].
  { lia. } { rewrite app_length in *. lia. }
  { intros [|j] Hj; [reflexivity|]. cbn [nth_error]. apply Pc. exact Hj. }
  eapply long_match; [exact H|exact H'|exact Hk|..|exact Lc|exact Lc'|exact Pc|]; rewrite ?map_length; try lia.
  - intros j Hj. apply map_prefix. apply P. exact Hj.
  - intro L3. apply nth_of_error. apply Pc. lia.
Qed.

(** ** course length terms *)
Lemma xcl_match : forall (f : wstation -> wstation -> V3) rev4 l m code mag p e e' k,
  xcl_error (pairwise f l) rev4 l code mag p = Made e ->
  xcl_error (pairwise f (l ++ m)) rev4 (l ++ m) code mag p = Made e' ->
  (k < length l)%nat -> rows_match k e e'.
Proof.
  intros f rev4 l m code mag p e e' k H H' Hk. unfold xcl_error in *. cbv zeta in H, H'.
  apply of_generate_made in H. apply generate_cases in H. destruct H as (_ & _ & E & _). injection E as E1 E2.
  apply of_generate_made in H'. apply generate_cases in H'. destruct H' as (_ & _ & E & _). injection E as E1' E2'.
  assert (P : forall j, (j < length l)%nat ->
    nth_error (map (vscale mag) match l with [] => [] | _ => vzero :: pairwise f l end) j =
    nth_error (map (vscale mag) match l ++ m with [] => [] | _ => vzero :: pairwise f (l ++ m) end) j).
  { intros j Hj. apply map_prefix. destruct l as [|x l]; [cbn in Hj; lia|].
    cbn [app]. destruct j; [reflexivity|]. cbn [nth_error].
    destruct (some_nth _ (x :: l) j ltac:(lia)) as [a Ha]. destruct (some_nth _ (x :: l) (S j) ltac:(lia)) as [b Hb].
    rewrite (pairwise_nth' _ _ f (x :: l) j a b Ha Hb). symmetry.
    change (x :: l ++ m) with ((x :: l) ++ m). apply pairwise_nth'; rewrite nth_error_app1; auto; lia. }
  split.
  - rewrite E2, E2'. apply P. exact Hk.
  - intros j Hj. rewrite E1, E1'. apply P. lia.
Qed.
