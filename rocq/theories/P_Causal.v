(** Covariances of a tool model do not depend on the stations below (C121): the
    rows of each weight function. *)
Require Import Reals ZArith Lra Psatz Lia Bool String List.
Require Import Verif.Base Verif.NumPy Verif.M_Utils Verif.M_Error Verif.Spec Verif.Spec_Error Verif.M_Weights Verif.Spec_Weights.
Require Import Verif.P_Error Verif.P_Error2 Verif.P_Weights Verif.P_Weights2 Verif.P_Weights5 Verif.P_Weights6
  Verif.P_Weights7 Verif.P_Weights8 Verif.P_Weights9 Verif.P_Weights10 Verif.P_Weights12.
Import ListNotations.
Local Open Scope R_scope.

Definition rows_match (k : nat) (e e' : error) : Prop :=
  nth_error (er_e_NEV_star e) k = nth_error (er_e_NEV_star e') k /\
  forall j, (j < k)%nat -> nth_error (er_e_NEV e) j = nth_error (er_e_NEV e') j.

Lemma replace_none : forall h l e sg, existsb (is_sing h) l = false -> length e = length l ->
  (length l <= length sg)%nat -> replace_sing h l e sg = e.
Proof.
  intros h l. induction l as [|s l IH]; intros [|a e] [|b sg] X L1 L2; cbn in *; try lia; auto.
  apply orb_false_iff in X. destruct X as [-> X]. rewrite IH; auto; lia.
Qed.

(** the common ending of the functions with arrays for the vertical stations *)
Lemma either_rows : forall rev4 h l code ed p sing star e,
  (if existsb (is_sing h) l
   then given_error rev4 l code ed p
     (replace_sing h l (e_NEV (drdp rev4 (map survey_rad l)) ed) sing,
      replace_sing h l (e_NEV_star (drdp rev4 (map survey_rad l)) ed) star)
   else of_generate (generate_error (drdp rev4 (map survey_rad l)) code ed p None)) = Made e ->
  (0 < length l)%nat -> length ed = length l ->
  (length l <= length sing)%nat -> (length l <= length star)%nat ->
  er_e_NEV e = replace_sing h l (e_NEV (drdp rev4 (map survey_rad l)) ed) sing /\
  er_e_NEV_star e = replace_sing h l (e_NEV_star (drdp rev4 (map survey_rad l)) ed) star.
Proof.
  intros rev4 h l code ed p sing star e H L0 Le L1 L2.
  destruct (e_NEV_length rev4 (map survey_rad l) ed) as [X1 X2]; rewrite ?map_length; auto.
  rewrite map_length in X1, X2.
  destruct (existsb (is_sing h) l) eqn:S.
  - apply of_generate_made in H. apply generate_cases in H. destruct H as (_ & _ & E & _).
    injection E as -> ->. auto.
  - apply of_generate_made in H. apply generate_cases in H. destruct H as (_ & _ & E & _).
    injection E as -> ->. rewrite !replace_none; auto.
Qed.

Lemma replace_agree : forall h l m e e' sg sg' j,
  (j < length l)%nat -> length e = length l -> length e' = length (l ++ m) ->
  (length l <= length sg)%nat -> (length (l ++ m) <= length sg')%nat ->
  nth_error e j = nth_error e' j ->
  (forall s, nth_error l j = Some s -> vertical h s -> nth_error sg j = nth_error sg' j) ->
  nth_error (replace_sing h l e sg) j = nth_error (replace_sing h (l ++ m) e' sg') j.
Proof.
  intros h l m e e' sg sg' j Hj Le Le' Ls Ls' E Q. rewrite app_length in *.
  destruct (nth_error l j) as [s|] eqn:Es; [|apply nth_error_None in Es; lia].
  assert (Es' : nth_error (l ++ m) j = Some s) by (rewrite nth_error_app1; auto).
  destruct (nth_error e j) as [a|] eqn:Ea; [|apply nth_error_None in Ea; lia].
  destruct (nth_error sg j) as [b|] eqn:Eb; [|apply nth_error_None in Eb; lia].
  destruct (nth_error sg' j) as [b'|] eqn:Eb'; [|apply nth_error_None in Eb'; lia].
  rewrite (replace_sing_nth _ _ _ _ _ _ _ _ Es Ea Eb), (replace_sing_nth _ _ _ _ _ _ _ _ Es' (eq_sym E) Eb').
  destruct (is_sing h s) eqn:V; auto. apply is_sing_iff in V. rewrite <- (Q s eq_refl V). auto.
Qed.

Lemma core_both : forall rev4 h l m ed ed' sing star sing' star' k e e',
  (k < length l)%nat -> length ed = length l -> length ed' = length (l ++ m) ->
  (forall j, (j < length l)%nat -> nth_error ed j = nth_error ed' j) ->
  (length l <= length sing)%nat -> (length l <= length star)%nat ->
  (length (l ++ m) <= length sing')%nat -> (length (l ++ m) <= length star')%nat ->
  (forall j s, (j < k)%nat -> nth_error l j = Some s -> vertical h s -> nth_error sing j = nth_error sing' j) ->
  er_e_NEV e = replace_sing h l (e_NEV (drdp rev4 (map survey_rad l)) ed) sing ->
  er_e_NEV_star e = replace_sing h l (e_NEV_star (drdp rev4 (map survey_rad l)) ed) star ->
  er_e_NEV e' = replace_sing h (l ++ m) (e_NEV (drdp rev4 (map survey_rad (l ++ m))) ed') sing' ->
  er_e_NEV_star e' = replace_sing h (l ++ m) (e_NEV_star (drdp rev4 (map survey_rad (l ++ m))) ed') star' ->
  ((forall s, nth_error l k = Some s -> vertical h s -> nth_error star k = nth_error star' k) ->
   nth_error (er_e_NEV_star e) k = nth_error (er_e_NEV_star e') k) /\
  forall j, (j < k)%nat -> nth_error (er_e_NEV e) j = nth_error (er_e_NEV e') j.
Proof.
  intros rev4 h l m ed ed' sing star sing' star' k e e' Hk Le Le' Pre L1 L2 L1' L2' Sg E1 E2 E1' E2'.
  destruct (e_NEV_length rev4 (map survey_rad l) ed) as [X1 X2]; rewrite ?map_length; try lia.
  destruct (e_NEV_length rev4 (map survey_rad (l ++ m)) ed') as [X1' X2']; rewrite ?map_length; try lia.
  { rewrite app_length. lia. }
  rewrite map_length in X1, X2, X1', X2'.
  destruct (e_NEV_agree rev4 (map survey_rad l) (map survey_rad (l ++ m)) ed ed' k) as [A B]; rewrite ?map_length; rewrite ?app_length in *; try lia.
  { rewrite map_app, firstn_app_eq; auto. rewrite map_length. lia. }
  { apply nth_firstn. intros i Hi. apply Pre. lia. }
  split.
  - intro St. rewrite E2, E2'. apply replace_agree; rewrite ?app_length; auto; try lia.
  - intros j Hj. rewrite E1, E1'. apply replace_agree; rewrite ?app_length; auto; try lia.
    + apply (firstn_nth _ _ _ _ B). exact Hj.
    + intros s Hs V. eapply Sg; eauto.
Qed.

Lemma core_agree : forall rev4 h l m ed ed' sing star sing' star' k e e',
  (k < length l)%nat -> length ed = length l -> length ed' = length (l ++ m) ->
  (forall j, (j < length l)%nat -> nth_error ed j = nth_error ed' j) ->
  (length l <= length sing)%nat -> (length l <= length star)%nat ->
  (length (l ++ m) <= length sing')%nat -> (length (l ++ m) <= length star')%nat ->
  (forall s, nth_error l k = Some s -> vertical h s -> nth_error star k = nth_error star' k) ->
  (forall j s, (j < k)%nat -> nth_error l j = Some s -> vertical h s -> nth_error sing j = nth_error sing' j) ->
  er_e_NEV e = replace_sing h l (e_NEV (drdp rev4 (map survey_rad l)) ed) sing ->
  er_e_NEV_star e = replace_sing h l (e_NEV_star (drdp rev4 (map survey_rad l)) ed) star ->
  er_e_NEV e' = replace_sing h (l ++ m) (e_NEV (drdp rev4 (map survey_rad (l ++ m))) ed') sing' ->
  er_e_NEV_star e' = replace_sing h (l ++ m) (e_NEV_star (drdp rev4 (map survey_rad (l ++ m))) ed') star' ->
  rows_match k e e'.
Proof.
  intros rev4 h l m ed ed' sing star sing' star' k e e' Hk Le Le' Pre L1 L2 L1' L2' St Sg E1 E2 E1' E2'.
  destruct (core_both rev4 h l m ed ed' sing star sing' star' k e e') as [A B]; auto.
  split; auto.
Qed.

(** rows of the weights *)
Lemma weights_prefix : forall (w : weight) h l m dp dp', seq_opt (map (w h) l) = Some dp ->
  seq_opt (map (w h) (l ++ m)) = Some dp' ->
  length dp = length l /\ length dp' = length (l ++ m) /\
  forall j, (j < length l)%nat -> nth_error dp j = nth_error dp' j.
Proof.
  intros w h l m dp dp' Hd Hd'.
  split. { destruct (seq_opt_nth _ _ _ Hd) as [Q _]. rewrite Q, map_length. reflexivity. }
  split. { destruct (seq_opt_nth _ _ _ Hd') as [Q _]. rewrite Q, map_length. reflexivity. }
  intros j Hj. destruct (nth_error l j) as [s|] eqn:Es; [|apply nth_error_None in Es; lia].
  rewrite (weights_nth _ _ _ _ _ _ Hd Es). symmetry. apply (weights_nth _ _ _ _ _ _ Hd').
  rewrite nth_error_app1; auto.
Qed.
Lemma scaled_prefix : forall mag (dp dp' : list V3) n,
  (forall j, (j < n)%nat -> nth_error dp j = nth_error dp' j) ->
  forall j, (j < n)%nat -> nth_error (map (vscale mag) dp) j = nth_error (map (vscale mag) dp') j.
Proof. intros mag dp dp' n H j Hj. rewrite !map_nth_error', H; auto. Qed.

(** ** one function after the other *)
Lemma simple_match : forall w rev4 h l m code mag p e e' k,
  simple_error w rev4 h l code mag p = Made e -> simple_error w rev4 h (l ++ m) code mag p = Made e' ->
  (k < length l)%nat -> rows_match k e e'.
Proof.
  intros w rev4 h l m code mag p e e' k H H' Hk. unfold simple_error in *.
  destruct (seq_opt (map (w h) l)) as [dp|] eqn:Hd; [|discriminate].
  destruct (seq_opt (map (w h) (l ++ m))) as [dp'|] eqn:Hd'; [|discriminate].
  destruct (weights_prefix _ _ _ _ _ _ Hd Hd') as (L & L' & Pre).
  apply of_generate_made in H. apply generate_cases in H. destruct H as (_ & _ & E & _). injection E as E1 E2.
  apply of_generate_made in H'. apply generate_cases in H'. destruct H' as (_ & _ & E & _). injection E as E1' E2'.
  destruct (e_NEV_agree rev4 (map survey_rad l) (map survey_rad (l ++ m)) (map (vscale mag) dp) (map (vscale mag) dp') k) as [A B];
    rewrite ?map_length, ?L, ?L', ?app_length; try lia.
  { rewrite map_app, firstn_app_eq; auto. rewrite map_length. lia. }
  { apply nth_firstn. intros i Hi. eapply scaled_prefix; [exact Pre|lia]. }
  split.
  - rewrite E2, E2'. exact A.
  - intros j Hj. rewrite E1, E1'. apply (firstn_nth _ _ _ _ B). exact Hj.
Qed.

Lemma sing_match : forall w rev4 h l m code mag p e e' sing star sing' star' k,
  sing_error w sing star rev4 h l code mag p = Made e ->
  sing_error w sing' star' rev4 h (l ++ m) code mag p = Made e' ->
  (k < length l)%nat ->
  (length l <= length sing)%nat -> (length l <= length star)%nat ->
  (length (l ++ m) <= length sing')%nat -> (length (l ++ m) <= length star')%nat ->
  (forall s, nth_error l k = Some s -> vertical h s -> nth_error star k = nth_error star' k) ->
  (forall j s, (j < k)%nat -> nth_error l j = Some s -> vertical h s -> nth_error sing j = nth_error sing' j) ->
  rows_match k e e'.
Proof.
  intros w rev4 h l m code mag p e e' sing star sing' star' k H H' Hk L1 L2 L1' L2' St Sg.
  unfold sing_error, simple_error in *.
  destruct (seq_opt (map (w h) l)) as [dp|] eqn:Hd; [|discriminate].
  destruct (seq_opt (map (w h) (l ++ m))) as [dp'|] eqn:Hd'; [|discriminate].
  destruct (weights_prefix _ _ _ _ _ _ Hd Hd') as (L & L' & Pre). cbv zeta in H, H'.
  destruct (either_rows _ _ _ _ _ _ _ _ _ H) as [E1 E2]; rewrite ?map_length; auto; try lia.
  destruct (either_rows _ _ _ _ _ _ _ _ _ H') as [E1' E2']; rewrite ?map_length; auto; try lia.
  { rewrite app_length. lia. }
  eapply (core_agree rev4 h l m (map (vscale mag) dp) (map (vscale mag) dp') sing star sing' star');
    rewrite ?map_length; eauto.
  apply scaled_prefix. exact Pre.
Qed.

Lemma sing_heads : forall w rev4 h l m code mag p e e' sing star sing' star' k,
  sing_error w sing star rev4 h l code mag p = Made e ->
  sing_error w sing' star' rev4 h (l ++ m) code mag p = Made e' ->
  (k < length l)%nat ->
  (length l <= length sing)%nat -> (length l <= length star)%nat ->
  (length (l ++ m) <= length sing')%nat -> (length (l ++ m) <= length star')%nat ->
  (forall j s, (j < k)%nat -> nth_error l j = Some s -> vertical h s -> nth_error sing j = nth_error sing' j) ->
  forall j, (j < k)%nat -> nth_error (er_e_NEV e) j = nth_error (er_e_NEV e') j.
Proof.
  intros w rev4 h l m code mag p e e' sing star sing' star' k H H' Hk L1 L2 L1' L2' Sg.
  unfold sing_error, simple_error in *.
  destruct (seq_opt (map (w h) l)) as [dp|] eqn:Hd; [|discriminate].
  destruct (seq_opt (map (w h) (l ++ m))) as [dp'|] eqn:Hd'; [|discriminate].
  destruct (weights_prefix _ _ _ _ _ _ Hd Hd') as (L & L' & Pre). cbv zeta in H, H'.
  destruct (either_rows _ _ _ _ _ _ _ _ _ H) as [E1 E2]; rewrite ?map_length; auto; try lia.
  destruct (either_rows _ _ _ _ _ _ _ _ _ H') as [E1' E2']; rewrite ?map_length; auto; try lia.
  { rewrite app_length. lia. }
  apply (core_both rev4 h l m (map (vscale mag) dp) (map (vscale mag) dp') sing star sing' star' k e e');
    rewrite ?map_length; eauto.
  apply scaled_prefix. exact Pre.
Qed.

Lemma vstacked_long : forall f l, (length l <= length (vstacked f l))%nat.
Proof. intros. unfold vstacked. cbn [length]. rewrite app_length, triplewise_length. cbn. lia. Qed.
(** the arrays built by stacking agree above the last station of the shorter survey *)
Lemma vstacked_agree : forall f l m j, (S j < length l)%nat -> nth_error (vstacked f l) j = nth_error (vstacked f (l ++ m)) j.
Proof.
  intros f l m [|j] Hj; [reflexivity|]. symmetry. apply stacked_prefix. exact Hj.
Qed.
Lemma stacked_match : forall w f g rev4 h l m code mag p e e' k,
  sing_error w (vstacked f l) (vstacked g l) rev4 h l code mag p = Made e ->
  sing_error w (vstacked f (l ++ m)) (vstacked g (l ++ m)) rev4 h (l ++ m) code mag p = Made e' ->
  (k < length l)%nat -> ((S k < length l)%nat \/ forall s, nth_error l k = Some s -> ~ vertical h s) ->
  rows_match k e e'.
Proof.
  intros w f g rev4 h l m code mag p e e' k H H' Hk Q.
  eapply sing_match; [exact H|exact H'|exact Hk|apply vstacked_long..| |].
  - intros s Hs V. destruct Q as [Q|Q]; [apply vstacked_agree; auto|destruct (Q s Hs V)].
  - intros j s Hj Hs V. apply vstacked_agree. lia.
Qed.

Lemma md_of_app : forall l m j, (j < length l)%nat -> md_of (l ++ m) j = md_of l j.
Proof. intros l m j H. unfold md_of. rewrite map_app, app_nth1; auto. rewrite map_length. exact H. Qed.
Lemma azt_app : forall l m j, (j < length l)%nat -> nth j (map w_azt (l ++ m)) 0 = nth j (map w_azt l) 0.
Proof. intros l m j H. rewrite map_app, app_nth1; auto. rewrite map_length. exact H. Qed.
Lemma stacked_nth_agree : forall f l m j, (S j < length l)%nat -> nth j (vstacked f l) vzero = nth j (vstacked f (l ++ m)) vzero.
Proof.
  intros f l m j Hj. pose proof (vstacked_agree f l m j Hj) as Q. pose proof (vstacked_long f l).
  destruct (nth_error (vstacked f l) j) as [x|] eqn:E; [|apply nth_error_None in E; lia].
  rewrite (nth_error_nth _ _ _ E), (nth_error_nth _ _ _ (eq_sym Q)). reflexivity.
Qed.
Lemma ab_agree : forall h l m mag sp j, (S j < length l)%nat -> (sp = true -> (3 <= length l)%nat) ->
  nth_error (ab_sing h l mag sp) j = nth_error (ab_sing h (l ++ m) mag sp) j /\
  nth_error (ab_star h l mag sp) j = nth_error (ab_star h (l ++ m) mag sp) j.
Proof.
  intros h l m mag sp j Hj L3. unfold ab_sing, ab_star. destruct sp; [|split; apply vstacked_agree; auto].
  specialize (L3 eq_refl). cbv zeta.
  destruct (Nat.eq_dec j 1) as [->|N].
  - rewrite !set_nth_same; try (eapply Nat.lt_le_trans; [|apply vstacked_long]; rewrite ?app_length; lia).
    rewrite !md_of_app, azt_app, <- !(stacked_nth_agree _ l m 1) by lia. auto.
  - rewrite !set_nth_other by auto. split; apply vstacked_agree; auto.
Qed.
Lemma ab_match : forall w sp rev4 h l m code mag p e e' k,
  ab_error w sp rev4 h l code mag p = Made e -> ab_error w sp rev4 h (l ++ m) code mag p = Made e' ->
  (k < length l)%nat -> ((S k < length l)%nat \/ forall s, nth_error l k = Some s -> ~ vertical h s) ->
  rows_match k e e'.
Proof.
  intros w sp rev4 h l m code mag p e e' k H H' Hk Q. unfold ab_error in *.
  assert (X : forall l e, (if existsb (is_sing h) l
     then if sp && (length l <? 3)%nat then Raises else if Req_EM_T (h_G h) 0 then NotFinite
       else sing_error w (ab_sing h l mag sp) (ab_star h l mag sp) rev4 h l code mag p
     else simple_error w rev4 h l code mag p) = Made e ->
     sing_error w (ab_sing h l mag sp) (ab_star h l mag sp) rev4 h l code mag p = Made e /\
     (existsb (is_sing h) l = true -> sp = true -> (3 <= length l)%nat)).
  { clear. intros l e H. destruct (existsb (is_sing h) l) eqn:S.
    - destruct (sp && (length l <? 3)%nat)%bool eqn:B; [discriminate|]. destruct (Req_EM_T (h_G h) 0); [discriminate|].
      split; auto. intros _ ->. destruct (Nat.ltb_spec (length l) 3); [discriminate|lia].
    - split; [|discriminate]. unfold sing_error. rewrite S. destruct (seq_opt (map (w h) l)) eqn:Hd; [exact H|].
      unfold simple_error in H. rewrite Hd in H. discriminate. }
  destruct (X _ _ H) as [Z Z3]. destruct (X _ _ H') as [Z' _].
  assert (SG : forall j s, nth_error l j = Some s -> vertical h s -> existsb (is_sing h) l = true).
  { intros j s Hs V. apply existsb_exists. exists s. split; [eapply nth_error_In; eauto|apply is_sing_iff; auto]. }
  eapply sing_match; [exact Z|exact Z'|exact Hk|apply ab_first..| |].
  - intros s Hs V. destruct Q as [Q|Q]; [|destruct (Q s Hs V)]. apply ab_agree; auto. apply Z3. eapply SG; eauto.
  - intros j s Hj Hs V. apply ab_agree; [lia|]. apply Z3. eapply SG; eauto.
Qed.
