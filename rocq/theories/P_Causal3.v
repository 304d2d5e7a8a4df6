(** Covariances of a tool model do not depend on the stations below (C121): whole
    models, shorter surveys succeed, what a vertical end loses. *)
Require Import Reals ZArith Lra Psatz Lia Bool String List.
Require Import Verif.Base Verif.NumPy Verif.M_Utils Verif.M_Error Verif.Spec Verif.Spec_Error Verif.M_Weights Verif.Spec_Weights
  Verif.Spec_Causal.
Require Import Verif.P_Error Verif.P_Error2 Verif.P_Weights Verif.P_Weights2 Verif.P_Weights3 Verif.P_Weights4 Verif.P_Weights5 Verif.P_Weights6
  Verif.P_Weights7 Verif.P_Weights8 Verif.P_Weights9 Verif.P_Weights10 Verif.P_Weights11 Verif.P_Weights12 Verif.P_Weights13 Verif.P_Weights14
  Verif.P_Weights15 Verif.P_Causal Verif.P_Causal2.
Import ListNotations.
Local Open Scope R_scope.

Lemma call_match : forall az t rev4 h l m code func mag p e e' k,
  call_func az t rev4 h l code func mag p = Made e -> call_func az t rev4 h (l ++ m) code func mag p = Made e' ->
  (k < length l)%nat ->
  ((S k < length l)%nat \/ (forall s, nth_error l k = Some s -> ~ vertical h s) \/ ~ drops_end func) ->
  rows_match k e e'.
Proof.
  intros az t rev4 h l m code func mag p e e' k H H' Hk Q. unfold call_func in *.
  destruct (lookup func simple_weights) as [w|]; [eapply simple_match; eauto|]. cbv zeta in H, H'.
  assert (Q' : drops_end func -> (S k < length l)%nat \/ forall s, nth_error l k = Some s -> ~ vertical h s)
    by (intro D; destruct Q as [Q|[Q|Q]]; auto; contradiction).
  clear Q.
  repeat match type of H with
    | (if String.eqb func ?s then _ else _) = _ => destruct (String.eqb_spec func s) as [->|]
  end; try discriminate.
  - eapply simple_match; eauto.
  - eapply stacked_match; eauto. apply Q'. cbv. auto.
  - eapply stacked_match; eauto. apply Q'. cbv. auto 10.
  - eapply ab_match; eauto. apply Q'. cbv. auto 10.
  - eapply ab_match; eauto. apply Q'. cbv. auto 10.
  - unfold XCL in *. destruct (String.eqb code "XCLA"); eapply xcl_match; eauto.
  - eapply xcl_match; eauto.
  - eapply xcl_match; eauto.
  - eapply xym3l_match; eauto.
  - eapply xym4l_match; eauto.
  - eapply xym3e_match; eauto.
  - eapply xym4e_match; eauto.
  - eapply cna_match; eauto. apply Q'. cbv. auto 10.
Qed.

Lemma generated_lengths : forall rev4 l code p e, (0 < length l)%nat -> generated rev4 l code p e ->
  length (er_e_NEV e) = length l /\ length (er_e_NEV_star e) = length l.
Proof.
  intros rev4 l code p e L (ed & g & G & Q). apply generate_cases in G. destruct G as (_ & _ & E & _).
  destruct g as [[a b]|]; injection E as -> ->; [tauto|].
  rewrite <- (map_length survey_rad l). apply e_NEV_length; rewrite map_length; auto.
Qed.

Lemma match_cov : forall rev4 l m code p e e' k, generated rev4 l code p e -> generated rev4 (l ++ m) code p e' ->
  (k < length l)%nat -> rows_match k e e' -> nth_error (er_cov_NEV e) k = nth_error (er_cov_NEV e') k.
Proof.
  intros rev4 l m code p e e' k G G' Hk [R1 R2].
  assert (L0 : (0 < length l)%nat) by lia.
  assert (L0' : (0 < length (l ++ m))%nat) by (rewrite app_length; lia).
  destruct k as [|k].
  { rewrite (generated_first _ _ _ _ _ L0 G), (generated_first _ _ _ _ _ L0' G'). reflexivity. }
  destruct (generated_lengths _ _ _ _ _ L0 G) as [A B]. destruct (generated_lengths _ _ _ _ _ L0' G') as [A' B'].
  destruct G as (ed & g & G & _). destruct G' as (ed' & g' & G' & _).
  destruct (some_nth _ (er_e_NEV_star e) (S k)) as [a Ha]; [lia|].
  eapply (cov_agree _ _ _ _ _ _ _ _ _ _ _ _ a G G'); try congruence.
  apply nth_firstn. intros j Hj. apply R2. lia.
Qed.

Lemma call_causal : forall az t rev4 h l m code func mag p e e' k,
  call_func az t rev4 h l code func mag p = Made e -> call_func az t rev4 h (l ++ m) code func mag p = Made e' ->
  (k < length l)%nat ->
  ((S k < length l)%nat \/ (forall s, nth_error l k = Some s -> ~ vertical h s) \/ ~ drops_end func) ->
  nth_error (er_cov_NEV e) k = nth_error (er_cov_NEV e') k.
Proof.
  intros az t rev4 h l m code func mag p e e' k H H' Hk Q.
  eapply match_cov; [eapply call_generated; [|exact H]; lia|eapply call_generated; [|exact H']; rewrite app_length; lia|exact Hk|].
  eapply call_match; eauto.
Qed.

(** ** totals *)
Lemma totals_at : forall n errs t k, tool_totals n (map Some errs) = Some t -> Forall (ok_err n) errs -> (k < n)%nat ->
  nth_error (t_all t) k = Some (sum_at (fun _ => true) errs k) /\
  nth_error (t_random t) k = Some (sum_at (is_prop "random") errs k) /\
  nth_error (t_systematic t) k = Some (sum_at (is_prop "systematic") errs k) /\
  nth_error (t_global t) k = Some (sum_at (is_prop "global") errs k) /\
  nth_error (t_within_pad t) k = Some (sum_at (is_prop "within_pad") errs k).
Proof.
  intros n errs t k T F Hk. unfold tool_totals in T.
  destruct (sum_errors_some n errs _ (zeros_ok n) F) as (t' & T' & (O1 & O2 & O3 & O4 & O5) & K).
  rewrite T in T'. injection T' as <-. destruct (K k) as (A & B & C & D & E). cbn [t_all t_random t_systematic t_global t_within_pad] in *.
  rewrite at_zeros, !madd_0_l in A, B, C, D, E.
  rewrite !nth_at by lia. rewrite A, B, C, D, E. auto.
Qed.
Lemma sum_same : forall f errs errs' k,
  Forall2 (fun e e' => er_propagation e = er_propagation e' /\ nth_error (er_cov_NEV e) k = nth_error (er_cov_NEV e') k) errs errs' ->
  (forall e e', er_propagation e = er_propagation e' -> f e = f e') -> sum_at f errs k = sum_at f errs' k.
Proof.
  intros f errs errs' k F H. unfold sum_at. induction F as [|e e' l l' [P C] F IH]; auto.
  cbn [filter]. rewrite (H e e' P). destruct (f e'); auto. cbn [map].
  unfold msum in *. cbn [fold_right]. rewrite IH. f_equal. unfold at_. apply nth_of_error. exact C.
Qed.
Lemma totals_same : forall n n' errs errs' t t' k,
  tool_totals n (map Some errs) = Some t -> tool_totals n' (map Some errs') = Some t' ->
  Forall (ok_err n) errs -> Forall (ok_err n') errs' -> (k < n)%nat -> (k < n')%nat ->
  Forall2 (fun e e' => er_propagation e = er_propagation e' /\ nth_error (er_cov_NEV e) k = nth_error (er_cov_NEV e') k) errs errs' ->
  same_at k t t'.
Proof.
  intros n n' errs errs' t t' k T T' F F' Hk Hk' Q.
  destruct (totals_at _ _ _ _ T F Hk) as (A & B & C & D & E). destruct (totals_at _ _ _ _ T' F' Hk') as (A' & B' & C' & D' & E').
  unfold same_at. rewrite A, B, C, D, E, A', B', C', D', E'.
  assert (IP : forall s e e', er_propagation e = er_propagation e' -> is_prop s e = is_prop s e') by (intros s e e' P; unfold is_prop; rewrite P; reflexivity).
  rewrite (sum_same _ _ _ _ Q) by auto. rewrite !(sum_same (is_prop _) _ _ _ Q) by apply IP. auto.
Qed.

Lemma yaml_errors : forall az tort mi rev4 h l codes t, (0 < length l)%nat ->
  yaml_tool_error az tort mi rev4 h l codes = Totals t ->
  exists errs, tool_totals (length l) (map Some errs) = Some t /\
  Forall2 (fun c e => call_func az tort rev4 h l (c_name c) (c_function c) (c_magnitude c) (c_propagation c) = Made e) codes errs.
Proof.
  intros az tort mi rev4 h l codes t L H. unfold yaml_tool_error in H.
  match type of H with (if ?b then _ else _) = _ => destruct b; [|discriminate] end. cbv zeta in H.
  set (f := fun c => call_func az tort rev4 h l (c_name c) (c_function c) (c_magnitude c) (c_propagation c)) in *.
  destruct (existsb fails (map f codes)) eqn:EF; [discriminate|]. destruct (existsb not_finite (map f codes)) eqn:EN; [discriminate|].
  destruct (tool_totals (length l) (map made (map f codes))) as [t'|] eqn:T; [|discriminate]. injection H as ->.
  assert (X : exists errs, map made (map f codes) = map Some errs /\ Forall2 (fun c e => f c = Made e) codes errs).
  { clear T. induction codes as [|c codes IH]; [exists []; split; auto|]. cbn [map existsb] in *.
    apply orb_false_iff in EF, EN. destruct EF as [F1 F2]. destruct EN as [N1 N2]. destruct (IH F2 N2) as (errs & E & F).
    destruct (f c) as [e| | |] eqn:Ec; try discriminate. exists (e :: errs). cbn [map made]. rewrite E. split; auto. }
  destruct X as (errs & E & F). exists errs. rewrite <- E. auto.
Qed.

Lemma call_ok : forall az t rev4 h l code func mag p e, (0 < length l)%nat -> call_func az t rev4 h l code func mag p = Made e ->
  ok_err (length l) e /\ er_propagation e = propagated func p.
Proof.
  intros az t rev4 h l code func mag p e L H. pose proof (call_generated _ _ _ _ _ _ _ _ _ _ L H) as G. split.
  - apply generated_from in G. rewrite <- (map_length survey_rad l) in G |- *.
    apply from_generate_ok in G; [tauto|]. rewrite map_length. auto.
  - destruct G as (ed & g & G & _). apply generate_cases in G. tauto.
Qed.

Lemma yaml_causal : forall az tort mi rev4 h l m codes t t' k,
  yaml_tool_error az tort mi rev4 h l codes = Totals t ->
  yaml_tool_error az tort mi rev4 h (l ++ m) codes = Totals t' ->
  (k < length l)%nat ->
  ((S k < length l)%nat \/ (forall s, nth_error l k = Some s -> ~ vertical h s) \/ (forall c, In c codes -> ~ drops_end (c_function c))) ->
  same_at k t t'.
Proof.
  intros az tort mi rev4 h l m codes t t' k H H' Hk Q.
  assert (L0' : (0 < length (l ++ m))%nat) by (rewrite app_length; lia).
  assert (L0 : (0 < length l)%nat) by lia.
  destruct (yaml_errors _ _ _ _ _ _ _ _ L0 H) as (errs & T & F).
  destruct (yaml_errors _ _ _ _ _ _ _ _ L0' H') as (errs' & T' & F').
  assert (OK : forall l codes errs, (0 < length l)%nat ->
     Forall2 (fun c e => call_func az tort rev4 h l (c_name c) (c_function c) (c_magnitude c) (c_propagation c) = Made e) codes errs ->
     Forall (ok_err (length l)) errs).
  { clear. intros l codes errs L F. induction F; constructor; auto. eapply call_ok; eauto. }
  eapply (totals_same _ _ _ _ _ _ k T T'); eauto; try (rewrite app_length; lia).
  clear T T' H H' OK. revert errs' F'. induction F as [|c e codes errs E F IH]; intros errs' F'; inversion F' as [|? e' ? errs'' E' F'']; subst; constructor.
  - destruct (call_ok _ _ _ _ _ _ _ _ _ _ L0 E) as [_ P]. destruct (call_ok _ _ _ _ _ _ _ _ _ _ L0' E') as [_ P'].
    split; [congruence|]. eapply call_causal; eauto. destruct Q as [Q|[Q|Q]]; auto. right. right. apply Q. left. reflexivity.
  - apply IH; auto. destruct Q as [Q|[Q|Q]]; auto. right. right. intros c' Hc'. apply Q. right. exact Hc'.
Qed.

(** ** the shorter survey succeeds *)
Lemma seq_opt_prefix : forall A (a b : list (option A)) r, seq_opt b = Some r ->
  (length a <= length b)%nat -> (forall j, (j < length a)%nat -> nth_error a j = nth_error b j) ->
  exists q, seq_opt a = Some q.
Proof.
  intros A a. induction a as [|x a IH]; intros b r H L P; [exists []; reflexivity|].
  destruct b as [|y b]; [cbn in L; lia|]. pose proof (P 0%nat ltac:(cbn; lia)) as P0. cbn in P0. injection P0 as <-.
  cbn in H. destruct x as [x|]; [|discriminate]. cbn in H. destruct (seq_opt b) as [r'|] eqn:E; [|discriminate].
  destruct (IH b r' E) as [q Q]; [cbn in L; lia|intros j Hj; apply (P (S j)); cbn; lia|]. cbn. rewrite Q. cbn. eauto.
Qed.
Lemma generate_any : forall d code e p g er, of_generate (generate_error d code e p g) = Made er ->
  forall d' code' e' g', exists er', of_generate (generate_error d' code' e' p g') = Made er'.
Proof.
  intros d code e p g er H d' code' e' g'. apply generate_known. apply of_generate_made in H.
  apply generate_cases in H. destruct H as (_ & _ & _ & [[I _]|[-> _]]); cbv in *; tauto.
Qed.
Lemma weights_prefix_ok : forall (w : weight) h l m dp', seq_opt (map (w h) (l ++ m)) = Some dp' ->
  exists dp, seq_opt (map (w h) l) = Some dp.
Proof.
  intros w h l m dp' H. eapply seq_opt_prefix; [exact H|rewrite !map_length, app_length; lia|].
  intros j Hj. rewrite map_length in Hj. apply map_prefix. rewrite nth_error_app1; auto.
Qed.
Lemma simple_prefix : forall w rev4 h l m code mag p e', simple_error w rev4 h (l ++ m) code mag p = Made e' ->
  exists e, simple_error w rev4 h l code mag p = Made e.
Proof.
  intros w rev4 h l m code mag p e' H. unfold simple_error in *.
  destruct (seq_opt (map (w h) (l ++ m))) as [dp'|] eqn:Hd'; [|discriminate].
  destruct (weights_prefix_ok _ _ _ _ _ Hd') as [dp ->]. eapply generate_any; eauto.
Qed.
Lemma sing_prefix : forall w sg st sg' st' rev4 h l m code mag p e', sing_error w sg' st' rev4 h (l ++ m) code mag p = Made e' ->
  exists e, sing_error w sg st rev4 h l code mag p = Made e.
Proof.
  intros w sg st sg' st' rev4 h l m code mag p e' H. unfold sing_error, simple_error in *.
  destruct (seq_opt (map (w h) (l ++ m))) as [dp'|] eqn:Hd'; [|discriminate].
  destruct (weights_prefix_ok _ _ _ _ _ Hd') as [dp ->].
  destruct (existsb (is_sing h) (l ++ m)), (existsb (is_sing h) l); cbv zeta in *; eapply generate_any; eauto.
Qed.
Lemma sing_simple : forall w sg st rev4 h l m code mag p e', sing_error w sg st rev4 h (l ++ m) code mag p = Made e' ->
  exists e, simple_error w rev4 h l code mag p = Made e.
Proof.
  intros w sg st rev4 h l m code mag p e' H. unfold sing_error, simple_error in *.
  destruct (seq_opt (map (w h) (l ++ m))) as [dp'|] eqn:Hd'; [|discriminate].
  destruct (weights_prefix_ok _ _ _ _ _ Hd') as [dp ->].
  destruct (existsb (is_sing h) (l ++ m)); cbv zeta in *; eapply generate_any; eauto.
Qed.
Lemma existsb_shorter : forall h l m, existsb (is_sing h) l = true -> existsb (is_sing h) (l ++ m) = true.
Proof. intros h l m H. rewrite existsb_app, H. reflexivity. Qed.
Lemma ab_prefix : forall w sp rev4 h l m code mag p e', (3 <= length l)%nat -> ab_error w sp rev4 h (l ++ m) code mag p = Made e' ->
  exists e, ab_error w sp rev4 h l code mag p = Made e.
Proof.
  intros w sp rev4 h l m code mag p e' L3 H. unfold ab_error in *.
  destruct (existsb (is_sing h) l) eqn:S.
  - rewrite (existsb_shorter h l m S) in H.
    destruct (sp && (length (l ++ m) <? 3)%nat)%bool; [discriminate|]. destruct (Req_EM_T (h_G h) 0); [discriminate|].
    destruct (Nat.ltb_spec (length l) 3); [lia|]. rewrite andb_false_r. eapply sing_prefix; eauto.
  - destruct (existsb (is_sing h) (l ++ m)); [|eapply simple_prefix; eauto].
    destruct (sp && (length (l ++ m) <? 3)%nat)%bool; [discriminate|]. destruct (Req_EM_T (h_G h) 0); [discriminate|].
    eapply sing_simple; eauto.
Qed.
Lemma cna_prefix : forall az rev4 h l m code mag p e', CNA az rev4 h (l ++ m) code mag p = Made e' ->
  exists e, CNA az rev4 h l code mag p = Made e.
Proof.
  intros az rev4 h l m code mag p e' H. unfold CNA in *.
  destruct (existsb (is_sing h) l) eqn:S.
  - rewrite (existsb_shorter h l m S) in H.
    destruct (if (az =? "true")%string then Some w_azt else if (az =? "grid")%string then Some w_azg else None); [|discriminate].
    eapply sing_prefix; eauto.
  - destruct (existsb (is_sing h) (l ++ m)); [|eapply simple_prefix; eauto].
    destruct (if (az =? "true")%string then Some w_azt else if (az =? "grid")%string then Some w_azg else None); [|discriminate].
    eapply sing_simple; eauto.
Qed.
Lemma coeffs_prefix_ok : forall l m cs', coeffs (l ++ m) = Some cs' -> exists cs, coeffs l = Some cs.
Proof.
  intros l m cs' H. apply coeffs_iff. assert (A : advancing (l ++ m)) by (apply coeffs_iff; eauto).
  intros k a b Ha Hb. apply (A k); rewrite nth_error_app1; auto; apply nth_error_Some; congruence.
Qed.
Lemma rows_prefix_ok : forall (w : wstation -> R -> option V3) l m cs cs' rows',
  (2 <= length l)%nat -> coeffs l = Some cs -> coeffs (l ++ m) = Some cs' ->
  seq_opt (map2 w (tl (l ++ m)) cs') = Some rows' -> exists rows, seq_opt (map2 w (tl l) cs) = Some rows.
Proof.
  intros w l m cs cs' rows' L2 C C' Q'. destruct (coeffs_prefix _ _ _ _ C C') as (A & B & P).
  assert (N : l <> []) by (intros ->; cbn in L2; lia). rewrite (tl_app _ _ _ N) in Q'. rewrite app_length in B.
  eapply seq_opt_prefix; [exact Q'| |].
  - rewrite !map2_length; rewrite ?app_length, ?tl_len; lia.
  - intros j Hj. rewrite map2_length, tl_len in Hj by (rewrite tl_len; lia).
    rewrite !map2_nth. rewrite nth_error_app1 by (rewrite tl_len; lia). rewrite (P j) by lia. reflexivity.
Qed.
Lemma xym3e_prefix : forall rev4 h l m code mag p e', (3 <= length l)%nat -> XYM3E rev4 h (l ++ m) code mag p = Made e' ->
  exists e, XYM3E rev4 h l code mag p = Made e.
Proof.
  intros rev4 h l m code mag p e' L3 H. unfold XYM3E in *.
  destruct (Nat.ltb_spec (length l) 2); [lia|]. destruct (Nat.ltb_spec (length (l ++ m)) 2); [discriminate|].
  destruct (coeffs (l ++ m)) as [cs'|] eqn:C'; [|discriminate]. destruct (coeffs_prefix_ok _ _ _ C') as [cs C]. rewrite C. cbn [bind] in *.
  destruct (seq_opt (map2 (w_XYM3E h) (tl (l ++ m)) cs')) as [rows'|] eqn:Q'; [|discriminate].
  destruct (rows_prefix_ok (w_XYM3E h) l m cs cs' rows' ltac:(lia) C C' Q') as [rows ->]. cbv zeta in *.
  destruct (existsb (is_sing h) (l ++ m)), (existsb (is_sing h) l); eapply generate_any; eauto.
Qed.
Lemma xym4e_prefix : forall rev4 h l m code mag p e', (3 <= length l)%nat -> XYM4E rev4 h (l ++ m) code mag p = Made e' ->
  exists e, XYM4E rev4 h l code mag p = Made e.
Proof.
  intros rev4 h l m code mag p e' L3 H. unfold XYM4E in *.
  destruct (Nat.ltb_spec (length l) 2); [lia|]. destruct (Nat.ltb_spec (length (l ++ m)) 2); [discriminate|].
  destruct (coeffs (l ++ m)) as [cs'|] eqn:C'; [|discriminate]. destruct (coeffs_prefix_ok _ _ _ C') as [cs C]. rewrite C. cbn [bind] in *.
  destruct (seq_opt (map2 (w_XYM4E h) (tl (l ++ m)) cs')) as [rows'|] eqn:Q'; [|discriminate].
  destruct (rows_prefix_ok (w_XYM4E h) l m cs cs' rows' ltac:(lia) C C' Q') as [rows ->]. cbv zeta in *.
  destruct (existsb (is_sing h) l) eqn:S.
  - rewrite (existsb_shorter h l m S) in H.
    destruct (XYM3E rev4 h (l ++ m) code mag p) as [x'| | |] eqn:X'; try discriminate.
    destruct (xym3e_prefix _ _ _ _ _ _ _ _ L3 X') as [x ->]. eapply generate_any; eauto.
  - destruct (existsb (is_sing h) (l ++ m)); [|eapply generate_any; eauto].
    destruct (XYM3E rev4 h (l ++ m) code mag p) as [x'| | |] eqn:X'; try discriminate. eapply generate_any; eauto.
Qed.
Lemma xym3l_prefix : forall rev4 h l m code mag p e', (3 <= length l)%nat -> XYM3L rev4 h (l ++ m) code mag p = Made e' ->
  exists e, XYM3L rev4 h l code mag p = Made e.
Proof.
  intros rev4 h l m code mag p e' L3 H. unfold XYM3L in *.
  destruct (Nat.ltb_spec (length l) 2); [lia|]. destruct (Nat.ltb_spec (length (l ++ m)) 2); [discriminate|].
  destruct (coeffs (l ++ m)) as [cs'|] eqn:C'; [|discriminate]. destruct (coeffs_prefix_ok _ _ _ C') as [cs C]. rewrite C.
  destruct (seq_opt (map2 w_XYM3L (tl (l ++ m)) cs')) as [rows'|] eqn:Q'; [|discriminate].
  destruct (rows_prefix_ok w_XYM3L l m cs cs' rows' ltac:(lia) C C' Q') as [rows ->]. cbv zeta in *.
  destruct (Nat.ltb_spec (length l) 3); [lia|].
  destruct (existsb (is_sing h) (l ++ m)), (existsb (is_sing h) l);
    try (destruct (Nat.ltb_spec (length (l ++ m)) 3); [discriminate|]); eapply generate_any; eauto.
Qed.
Lemma xym4l_prefix : forall rev4 h l m code mag p e', (3 <= length l)%nat -> XYM4L rev4 h (l ++ m) code mag p = Made e' ->
  exists e, XYM4L rev4 h l code mag p = Made e.
Proof.
  intros rev4 h l m code mag p e' L3 H. unfold XYM4L in *.
  destruct (coeffs (l ++ m)) as [cs'|] eqn:C'; [|discriminate]. destruct (coeffs_prefix_ok _ _ _ C') as [cs C]. rewrite C.
  destruct (seq_opt (map2 w_XYM4L (l ++ m) (1 :: cs'))) as [rows'|] eqn:Q'; [|discriminate].
  destruct (seq_map2_some _ _ _ w_XYM4L l (1 :: cs)) as [rows ->]. { intros a b _. eexists. reflexivity. }
  cbv zeta in *. destruct (Nat.ltb_spec (length l) 3); [lia|].
  destruct (existsb (is_sing h) (l ++ m)), (existsb (is_sing h) l);
    try (destruct (Nat.ltb_spec (length (l ++ m)) 3); [discriminate|]); eapply generate_any; eauto.
Qed.

Lemma call_prefix : forall az t rev4 h l m code func mag p e', (3 <= length l)%nat ->
  call_func az t rev4 h (l ++ m) code func mag p = Made e' ->
  exists e, call_func az t rev4 h l code func mag p = Made e.
Proof.
  intros az t rev4 h l m code func mag p e' L3 H. unfold call_func in *.
  destruct (lookup func simple_weights) as [w|]; [eapply simple_prefix; eauto|]. cbv zeta in *.
  repeat match type of H with
    | (if String.eqb func ?s then _ else _) = _ => destruct (String.eqb func s)
  end; try discriminate.
  - eapply simple_prefix; eauto.
  - eapply sing_prefix; eauto.
  - eapply sing_prefix; eauto.
  - eapply ab_prefix; eauto.
  - eapply ab_prefix; eauto.
  - unfold XCL in *. destruct (String.eqb code "XCLA"); eapply generate_any; eauto.
  - eapply generate_any; eauto.
  - eapply generate_any; eauto.
  - eapply xym3l_prefix; eauto.
  - eapply xym4l_prefix; eauto.
  - eapply xym3e_prefix; eauto.
  - eapply xym4e_prefix; eauto.
  - eapply cna_prefix; eauto.
Qed.

Lemma yaml_prefix : forall az tort mi rev4 h l m codes t', (3 <= length l)%nat ->
  yaml_tool_error az tort mi rev4 h (l ++ m) codes = Totals t' ->
  exists t, yaml_tool_error az tort mi rev4 h l codes = Totals t /\
  forall k, (k < length l)%nat ->
    ((S k < length l)%nat \/ (forall s, nth_error l k = Some s -> ~ vertical h s) \/
     (forall c, In c codes -> ~ drops_end (c_function c))) ->
    same_at k t t'.
Proof.
  intros az tort mi rev4 h l m codes t' L3 H.
  assert (X : exists t, yaml_tool_error az tort mi rev4 h l codes = Totals t).
  { destruct (proj1 (yaml_iff az tort mi rev4 h (l ++ m) codes)) as [M C]; [eauto|]. apply yaml_iff. split.
    - intros q Hq s Hs. apply (M q Hq). apply in_or_app. auto.
    - intros c Hc. destruct (C c Hc) as [e' E]. eapply call_prefix; eauto. }
  destruct X as [t T]. exists t. split; auto. intros k Hk Q. eapply yaml_causal; eauto.
Qed.
