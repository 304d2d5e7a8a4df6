(** C121: JSON tool models; what is missing at the end of a survey that ends
    vertically. *)
Require Import Reals ZArith Lra Psatz Lia Bool String List.
Require Import Verif.Base Verif.NumPy Verif.M_Utils Verif.M_Error Verif.Spec Verif.Spec_Error Verif.M_Weights Verif.Spec_Weights
  Verif.Spec_Causal.
Require Import Verif.P_Error Verif.P_Error2 Verif.P_Weights Verif.P_Weights2 Verif.P_Weights3 Verif.P_Weights4 Verif.P_Weights5 Verif.P_Weights6
  Verif.P_Weights7 Verif.P_Weights8 Verif.P_Weights9 Verif.P_Weights10 Verif.P_Weights11 Verif.P_Weights12 Verif.P_Weights13 Verif.P_Weights14
  Verif.P_Weights15 Verif.P_Causal Verif.P_Causal2 Verif.P_Causal3.
Import ListNotations.
Local Open Scope R_scope.

(** ** JSON models *)
Definition same_entry (n more : nat) (x y : string * term) : Prop :=
  fst x = fst y /\ same_term n more (snd x) (snd y).
Lemma dict_same : forall n more k t t' d d', same_term n more t t' -> Forall2 (same_entry n more) d d' ->
  Forall2 (same_entry n more) (dict_set k t d) (dict_set k t' d').
Proof.
  intros n more k t t' d d' T F. induction F as [|[a x] [b y] d d' [E S] F IH]; cbn [dict_set].
  - constructor; [split; auto|constructor].
  - cbn [fst snd] in *. subst b. destruct (String.eqb k a); constructor; auto; split; auto.
Qed.
Lemma codes_same : forall n more terms terms', Forall2 (same_term n more) terms terms' ->
  Forall2 (same_entry n more) (json_codes terms) (json_codes terms').
Proof.
  intros n more terms terms' F. unfold json_codes.
  assert (G : forall d d', Forall2 (same_entry n more) d d' ->
    Forall2 (same_entry n more) (fold_left (fun d t => dict_set (tm_name t) t d) terms d)
      (fold_left (fun d t => dict_set (tm_name t) t d) terms' d')).
  { induction F as [|t t' l l' T F IH]; intros d d' D; cbn [fold_left]; auto.
    apply IH. destruct T as (N & T). rewrite <- N. apply dict_same; auto. split; auto. }
  apply G. constructor.
Qed.
Lemma interp_same : forall rev4 sv more t t' er, (0 < length sv)%nat ->
  same_term (length sv) (length more) t t' -> call_interpreter (drdp rev4 (sv ++ more)) t' = Some er ->
  exists e, call_interpreter (drdp rev4 sv) t = Some e /\ er_propagation e = er_propagation er /\
    length (er_cov_NEV e) = length sv /\ length (er_cov_NEV er) = length (sv ++ more) /\
    forall k, (k < length sv)%nat -> nth_error (er_cov_NEV e) k = nth_error (er_cov_NEV er) k.
Proof.
  intros rev4 sv more t t' er L0 (N & V & M & U & D) H. unfold call_interpreter in *. cbv zeta in *.
  assert (L0' : (0 < length (sv ++ more))%nat) by (rewrite app_length; lia).
  rewrite <- N, <- V, <- M, <- U in H. set (c := tm_value t * mag_unit_to_base (tm_unit t)) in *.
  set (dp := match tm_dpde t with Some l => l | None => repeat vzero (length (drdp rev4 sv)) end) in *.
  set (dp' := match tm_dpde t' with Some l => l | None => repeat vzero (length (drdp rev4 (sv ++ more))) end) in *.
  assert (X : length dp = length sv /\ length dp' = length (sv ++ more) /\ firstn (length sv) dp' = dp).
  { unfold dp, dp'. destruct D as [[-> ->]|(d & d' & -> & -> & L & L')].
    - rewrite !repeat_length, !drdp_length by auto. split; [auto|split; [auto|]]. rewrite app_length, repeat_app, firstn_app, repeat_length, Nat.sub_diag, firstn_O, app_nil_r.
      apply firstn_all2. rewrite repeat_length. lia.
    - rewrite !app_length. split; [auto|split; [lia|]]. rewrite firstn_app, L, Nat.sub_diag, firstn_O, app_nil_r. apply firstn_all2. lia. }
  clearbody dp dp'. destruct X as (L1 & L2 & P).
  assert (O : of_generate (generate_error (drdp rev4 (sv ++ more)) (tm_name t) (map (vscale c) dp') (json_propagation (tm_mode t)) None) = Made er) by (rewrite H; reflexivity).
  destruct (generate_any _ _ _ _ _ _ O (drdp rev4 sv) (tm_name t) (map (vscale c) dp) None) as [e E]. apply of_generate_made in E.
  exists e. split; [exact E|]. split.
  { apply generate_cases in E, H. destruct E as (-> & _). destruct H as (-> & _). reflexivity. }
  destruct (e_NEV_length rev4 sv (map (vscale c) dp)) as [A B]; rewrite ?map_length; auto.
  destruct (e_NEV_length rev4 (sv ++ more) (map (vscale c) dp')) as [A' B']; rewrite ?map_length; auto.
  destruct (generate_cases _ _ _ _ _ _ E) as (_ & _ & Q & _). injection Q as Q1 Q2.
  destruct (generate_cases _ _ _ _ _ _ H) as (_ & _ & Q & _). injection Q as Q1' Q2'.
  split. { rewrite (cov_length _ _ _ _ _ _ E); rewrite ?Q1, ?Q2; lia. }
  split. { rewrite (cov_length _ _ _ _ _ _ H); rewrite ?Q1', ?Q2'; lia. }
  intros k Hk. eapply (causality rev4 sv (sv ++ more)); [| | | | | |exact E|exact H]; rewrite ?map_length; auto.
  - rewrite app_length. lia.
  - symmetry. apply firstn_app_eq. lia.
  - rewrite !firstn_map. f_equal. rewrite <- P. rewrite firstn_firstn. f_equal. lia.
Qed.

Lemma json_causal : forall rev4 mi sv more terms terms' t', (0 < length sv)%nat ->
  Forall2 (same_term (length sv) (length more)) terms terms' ->
  json_tool_error rev4 mi (sv ++ more) terms' = Some t' ->
  exists t, json_tool_error rev4 mi sv terms = Some t /\
  forall k, (k < length sv)%nat -> same_at k t t'.
Proof.
  intros rev4 mi sv more terms terms' t' L0 F H. unfold json_tool_error in *.
  destruct (fold_right _ true (sv ++ more)) eqn:I'; [|discriminate].
  assert (I : fold_right (fun s b => ((if Rlt_dec (st_inc s) mi then true else false) && b)%bool) true sv = true).
  { apply inc_check. rewrite inc_check in I'. intros s Hs. apply I'. apply in_or_app. auto. }
  rewrite I. pose proof (codes_same _ _ _ _ F) as C. set (cs := json_codes terms) in *. set (cs' := json_codes terms') in *. clearbody cs cs'.
  assert (X : exists errs errs',
     map (fun kt : string * term => call_interpreter (drdp rev4 sv) (snd kt)) cs = map Some errs /\
     map (fun kt : string * term => call_interpreter (drdp rev4 (sv ++ more)) (snd kt)) cs' = map Some errs' /\
     Forall (ok_err (length sv)) errs /\ Forall (ok_err (length (sv ++ more))) errs' /\
     forall k, (k < length sv)%nat ->
       Forall2 (fun e e' => er_propagation e = er_propagation e' /\ nth_error (er_cov_NEV e) k = nth_error (er_cov_NEV e') k) errs errs').
  { assert (NN : ~ In None (map (fun kt : string * term => call_interpreter (drdp rev4 (sv ++ more)) (snd kt)) cs')).
    { intro Q. apply (tool_none (length (sv ++ more))) in Q. congruence. }
    clear H. induction C as [|x y cs cs' [_ S] C IH].
    - exists [], []. repeat split; auto.
    - cbn [map] in *. destruct IH as (errs & errs' & E1 & E2 & F1 & F2 & P); [intro Q; apply NN; right; exact Q|].
      destruct (call_interpreter (drdp rev4 (sv ++ more)) (snd y)) as [er|] eqn:G; [|exfalso; apply NN; left; reflexivity].
      destruct (interp_same _ _ _ _ _ _ L0 S G) as (e & Ee & PP & LL & LL' & K).
      exists (e :: errs), (er :: errs'). rewrite Ee, E1, E2. cbn [map]. split; [auto|split; [auto|split; [constructor; auto|split; [constructor; auto|]]]].
      intros k Hk. constructor; auto. }
  destruct X as (errs & errs' & E1 & E2 & F1 & F2 & P). rewrite E1. rewrite E2 in H.
  destruct (sum_errors_some (length sv) errs _ (zeros_ok (length sv)) F1) as (t & T & _).
  exists t. split; [exact T|]. intros k Hk.
  eapply totals_same; [exact T|exact H|exact F1|exact F2|exact Hk|rewrite app_length; lia|auto].
Qed.

(** ** a survey that ends vertically *)
Lemma end_cov : forall rev4 l m code p e e' k v, generated rev4 l code p e -> generated rev4 (l ++ m) code p e' ->
  (S k < length l)%nat -> nth_error (er_e_NEV_star e) (S k) = Some vzero -> nth_error (er_e_NEV_star e') (S k) = Some v ->
  (forall j, (j < S k)%nat -> nth_error (er_e_NEV e) j = nth_error (er_e_NEV e') j) ->
  (p = "random"%string -> exists c, nth_error (er_cov_NEV e) (S k) = Some c /\ nth_error (er_cov_NEV e') (S k) = Some (madd c (outer v v))) /\
  (p <> "random"%string -> exists u, nth_error (er_cov_NEV e) (S k) = Some (outer u u) /\
     nth_error (er_cov_NEV e') (S k) = Some (outer (vadd u v) (vadd u v))).
Proof.
  intros rev4 l m code p e e' k v G G' Hk Z V P.
  assert (L0 : (0 < length l)%nat) by lia. assert (L0' : (0 < length (l ++ m))%nat) by (rewrite app_length; lia).
  destruct (generated_lengths _ _ _ _ _ L0 G) as [A B]. destruct (generated_lengths _ _ _ _ _ L0' G') as [A' B'].
  destruct G as (ed & g & G & _). destruct G' as (ed' & g' & G' & _).
  assert (F : firstn (S k) (er_e_NEV e) = firstn (S k) (er_e_NEV e')) by (apply nth_firstn; auto).
  split.
  - intros ->. assert (LE : length (er_e_NEV e) = length (er_e_NEV_star e)) by congruence.
    assert (LE' : length (er_e_NEV e') = length (er_e_NEV_star e')) by congruence.
    eexists. split; [exact (random_law _ _ _ _ _ _ _ G LE Z)|].
    rewrite (random_law _ _ _ _ _ _ _ G' LE' V). rewrite <- F. f_equal.
    set (x := msum _). clearbody x. clear. destruct x as [[a b c] [d e f] [g h i]], v as [r s t]. unfold madd, outer, vadd, vscale, vzero. cbn. f_equal; f_equal; ring.
  - intro N. exists (vsum (firstn (S k) (er_e_NEV e))).
    rewrite (systematic_law _ _ _ _ _ _ _ _ G N ltac:(congruence) Z), (systematic_law _ _ _ _ _ _ _ _ G' N ltac:(congruence) V).
    replace (Nat.max 1 (S k)) with (S k) by lia. rewrite <- F.
    set (u := vsum _). clearbody u. split; f_equal.
    + replace (vadd vzero u) with u; [reflexivity|]. destruct u as [x y z]. unfold vadd, vzero. cbn. f_equal; ring.
    + replace (vadd v u) with (vadd u v); [reflexivity|]. destruct u as [x y z], v as [x' y' z']. unfold vadd. cbn. f_equal; ring.
Qed.

Lemma sing_end : forall w rev4 h l m code mag p e e' sg st sg' st' k b v,
  sing_error w sg st rev4 h l code mag p = Made e -> sing_error w sg' st' rev4 h (l ++ m) code mag p = Made e' ->
  (S k < length l)%nat -> nth_error l (S k) = Some b -> vertical h b ->
  (length l <= length sg)%nat -> (length l <= length st)%nat ->
  (length (l ++ m) <= length sg')%nat -> (length (l ++ m) <= length st')%nat ->
  (forall j, (S j < length l)%nat -> nth_error sg j = nth_error sg' j) ->
  length l = S (S k) -> nth_error st (S k) = Some vzero -> nth_error st' (S k) = Some v ->
  nth_error (er_e_NEV_star e) (S k) = Some vzero /\ nth_error (er_e_NEV_star e') (S k) = Some v /\
  forall j, (j < S k)%nat -> nth_error (er_e_NEV e) j = nth_error (er_e_NEV e') j.
Proof.
  intros w rev4 h l m code mag p e e' sg st sg' st' k b v H H' Hk Hb V L1 L2 L1' L2' P L Z Z'.
  destruct (sing_error_rows _ _ _ _ _ _ _ _ _ _ H) as (dp & _ & _ & _ & R).
  destruct (sing_error_rows _ _ _ _ _ _ _ _ _ _ H') as (dp' & _ & _ & _ & R').
  assert (Hb' : nth_error (l ++ m) (S k) = Some b) by (rewrite nth_error_app1; auto).
  rewrite app_length in L1', L2'.
  destruct (some_nth _ sg (S k)) as [x Hx]; [lia|]. destruct (some_nth _ sg' (S k)) as [x' Hx']; [lia|].
  split; [apply (proj1 (R _ _ Hb) V x vzero Hx Z)|]. split; [apply (proj1 (R' _ _ Hb') V x' v Hx' Z')|].
  eapply sing_heads; [exact H|exact H'|exact Hk|exact L1|exact L2|rewrite app_length; lia..|].
  intros j s Hj _ _. apply P. lia.
Qed.

Lemma vertical_end : forall az t rev4 h l x m code func mag p e e' k a b,
  drops_end func ->
  call_func az t rev4 h l code func mag p = Made e ->
  call_func az t rev4 h (l ++ x :: m) code func mag p = Made e' ->
  length l = S (S k) -> nth_error l k = Some a -> nth_error l (S k) = Some b -> vertical h b ->
  exists v, dot v v = (1/2 * (w_md b - w_md a) * angle_of func h mag) ^ 2 /\
  (p = "random"%string -> exists c, nth_error (er_cov_NEV e) (S k) = Some c /\ nth_error (er_cov_NEV e') (S k) = Some (madd c (outer v v))) /\
  (p <> "random"%string -> exists u, nth_error (er_cov_NEV e) (S k) = Some (outer u u) /\
     nth_error (er_cov_NEV e') (S k) = Some (outer (vadd u v) (vadd u v))).
Proof.
  intros az t rev4 h l x m code func mag p e e' k a b D H H' L Ha Hb V.
  assert (L0 : (0 < length l)%nat) by lia.
  assert (L0' : (0 < length (l ++ x :: m))%nat) by (rewrite app_length; lia).
  assert (PP : propagated func p = p).
  { unfold propagated. destruct D as [<-|[<-|[<-|[<-|[<-|[]]]]]]; reflexivity. }
  pose proof (call_generated _ _ _ _ _ _ _ _ _ _ L0 H) as G. pose proof (call_generated _ _ _ _ _ _ _ _ _ _ L0' H') as G'.
  rewrite PP in G, G'.
  assert (Ha' : nth_error (l ++ x :: m) k = Some a) by (rewrite nth_error_app1; auto; lia).
  assert (Hb' : nth_error (l ++ x :: m) (S k) = Some b) by (rewrite nth_error_app1; auto; lia).
  assert (Hx' : nth_error (l ++ x :: m) (S (S k)) = Some x).
  { rewrite nth_error_app2 by lia. replace (S (S k) - length l)%nat with O by lia. reflexivity. }
  destruct (existsb_prefix h l (x :: m) b (S k) Hb V) as [S1 S2].
  assert (STK : forall w f g, sing_error w (vstacked f l) (vstacked g l) rev4 h l code mag p = Made e ->
     sing_error w (vstacked f (l ++ x :: m)) (vstacked g (l ++ x :: m)) rev4 h (l ++ x :: m) code mag p = Made e' ->
     (p = "random"%string -> exists c, nth_error (er_cov_NEV e) (S k) = Some c /\ nth_error (er_cov_NEV e') (S k) = Some (madd c (outer (g a b x) (g a b x)))) /\
     (p <> "random"%string -> exists u, nth_error (er_cov_NEV e) (S k) = Some (outer u u) /\
        nth_error (er_cov_NEV e') (S k) = Some (outer (vadd u (g a b x)) (vadd u (g a b x))))).
  { intros w f g Q Q'.
    destruct (sing_end _ _ _ _ _ _ _ _ _ _ _ _ _ _ k b (g a b x) Q Q') as (A & B & C); try apply vstacked_long; auto; try lia.
    - intros j Hj. apply vstacked_agree. exact Hj.
    - apply vstacked_last. exact L.
    - apply vstacked_mid; auto.
    - eapply end_cov; [exact G|exact G'|lia|exact A|exact B|exact C]. }
  assert (AB : forall w sp, ab_error w sp rev4 h l code mag p = Made e -> ab_error w sp rev4 h (l ++ x :: m) code mag p = Made e' ->
     exists v, dot v v = (1/2 * (w_md b - w_md a) * (mag / h_G h)) ^ 2 /\
     (p = "random"%string -> exists c, nth_error (er_cov_NEV e) (S k) = Some c /\ nth_error (er_cov_NEV e') (S k) = Some (madd c (outer v v))) /\
     (p <> "random"%string -> exists u, nth_error (er_cov_NEV e) (S k) = Some (outer u u) /\
        nth_error (er_cov_NEV e') (S k) = Some (outer (vadd u v) (vadd u v)))).
  { intros w sp Q Q'. unfold ab_error in Q, Q'. rewrite S1 in Q. rewrite S2 in Q'.
    destruct (sp && (length l <? 3)%nat)%bool eqn:B3; [discriminate|].
    destruct (sp && (length (l ++ x :: m) <? 3)%nat)%bool; [discriminate|].
    destruct (Req_EM_T (h_G h) 0) as [|NG]; [discriminate|].
    assert (SP : sp = true -> (3 <= length l)%nat).
    { intros ->. destruct (Nat.ltb_spec (length l) 3); [discriminate|lia]. }
    assert (OR : sp = false \/ (1 <= k)%nat) by (destruct sp; auto; specialize (SP eq_refl); lia).
    destruct (ab_arrays h (l ++ x :: m) mag sp k a b x Ha' Hb' Hx' OR NG) as [_ AR].
    exists (vscale (1/2 * (w_md b - w_md a) * (mag / h_G h)) (right_side b)). split.
    { unfold dot, vscale, right_side. cbn [vx vy vz]. pose proof (sin2_cos2 (w_azt b)) as T. unfold Rsqr in T.
      set (c := 1/2 * (w_md b - w_md a) * (mag / h_G h)). clearbody c.
      set (s := sin (w_azt b)) in *. set (o := cos (w_azt b)) in *. clearbody s o. assert (T' : o * o = 1 - s * s) by lra. ring [T']. }
    destruct (sing_end _ _ _ _ _ _ _ _ _ _ _ _ _ _ k b (vscale (1/2 * (w_md b - w_md a) * (mag / h_G h)) (right_side b)) Q Q') as (A & B & C); try apply ab_first; auto; try lia.
    - intros j Hj. apply ab_agree; auto.
    - unfold ab_star. destruct sp; [rewrite set_nth_other by (destruct OR; [discriminate|lia])|]; apply vstacked_last; exact L.
    - eapply end_cov; [exact G|exact G'|lia|exact A|exact B|exact C]. }
  unfold angle_of. destruct D as [<-|[<-|[<-|[<-|[<-|[]]]]]]; cbn [string_dec];
    repeat match goal with |- context [if string_dec ?a ?b then _ else _] =>
       let N := fresh in destruct (string_dec a b) as [N|N]; [try discriminate N|try (exfalso; apply N; reflexivity)]; clear N end.
  - eexists. split; [|exact (STK _ _ _ H H')]. unfold dot. cbn [vx vy vz]. ring.
  - eexists. split; [|exact (STK _ _ _ H H')]. unfold dot. cbn [vx vy vz]. ring.
  - change (CNA az rev4 h l code mag p = Made e) in H. change (CNA az rev4 h (l ++ x :: m) code mag p = Made e') in H'.
    unfold CNA in H, H'. rewrite S1 in H. rewrite S2 in H'.
    destruct (if (az =? "true")%string then Some w_azt else if (az =? "grid")%string then Some w_azg else None) as [azi|]; [|discriminate].
    eexists. split; [|exact (STK _ _ _ H H')]. unfold dot. cbn [vx vy vz].
    pose proof (sin2_cos2 (azi b)) as T. unfold Rsqr in T.
    set (s := sin (azi b)) in *. set (o := cos (azi b)) in *. clearbody s o. assert (T' : o * o = 1 - s * s) by lra. ring [T'].
  - exact (AB _ _ H H').
  - exact (AB _ _ H H').
Qed.

(** ** witnesses *)
Lemma two_stations_refuted :
  call_func "true" 0 true plumb [hanging 0; hanging 100] "a" "ABIXY_TI2" 1 "systematic" = Raises /\
  exists e, call_func "true" 0 true plumb [hanging 0; hanging 100; hanging 200] "a" "ABIXY_TI2" 1 "systematic" = Made e.
Proof.
  split.
  - change (ABIXY_TI2 true plumb [hanging 0; hanging 100] "a" 1 "systematic" = Raises). unfold ABIXY_TI2, ab_error.
    replace (existsb (is_sing plumb) [hanging 0; hanging 100]) with true; [reflexivity|].
    symmetry. apply existsb_exists. exists (hanging 0). split; [left; reflexivity|]. apply is_sing_iff. unfold vertical, plumb, hanging. cbn. lra.
  - apply plain_ok; [exact slanted_sensible|cbn; tauto|cbn; tauto|cbn; lia| |auto].
    intros s [<-|[<-|[<-|[]]]]; cbn; rewrite sin_0; lra.
Qed.
(** a source of 2 radians at the end of a vertical well of 300 m *)
Lemma vertical_model_refuted :
  exists t t', yaml_tool_error "true" 0 None true plumb [hanging 0; hanging 100; hanging 300] [mkCode "a" "XYM3" 2 "random"] = Totals t /\
  yaml_tool_error "true" 0 None true plumb [hanging 0; hanging 100; hanging 300; hanging 400] [mkCode "a" "XYM3" 2 "random"] = Totals t' /\
  ~ same_at 2 t t'.
Proof.
  assert (S : forall l, (3 <= length l)%nat -> (forall s, In s l -> exists d, s = hanging d) ->
     exists t e, yaml_tool_error "true" 0 None true plumb l [mkCode "a" "XYM3" 2 "random"] = Totals t /\
     call_func "true" 0 true plumb l "a" "XYM3" 2 "random" = Made e /\
     forall k, (k < length l)%nat -> nth_error (t_all t) k = nth_error (er_cov_NEV e) k).
  { intros l L Hl. assert (L0 : (0 < length l)%nat) by lia.
    destruct (plain_ok "true" 0 true plumb l "a" "XYM3" 2 "random") as [e E];
      [exact slanted_sensible|cbn; tauto|cbn; tauto|exact L| |auto|].
    - intros s Hs. destruct (Hl s Hs) as [d ->]. cbn. rewrite sin_0. lra.
    - destruct (proj2 (yaml_iff "true" 0 None true plumb l [mkCode "a" "XYM3" 2 "random"])) as [t T].
      + split; [discriminate|]. intros c [<-|[]]. exists e. exact E.
      + exists t, e. split; [exact T|]. split; [exact E|]. intros k Hk.
        destruct (yaml_errors _ _ _ _ _ _ _ _ L0 T) as (errs & TT & F).
        destruct (call_ok _ _ _ _ _ _ _ _ _ _ L0 E) as [OK _].
        inversion F as [|x y lx ly C1 F' Q1 Q2]. inversion F'. subst. cbn [c_name c_function c_magnitude c_propagation] in C1.
        assert (y = e) by congruence. subst y.
        destruct (totals_at _ _ _ k TT) as (X & _); auto.
        rewrite X. unfold sum_at. cbn. rewrite ?madd_0_l, ?madd_0_r. unfold ok_err in OK.
        rewrite (nth_at _ k) by (rewrite OK; exact Hk). reflexivity. }
  destruct (S [hanging 0; hanging 100; hanging 300]) as (t & e & T & E & K);
    [cbn; lia|intros s [<-|[<-|[<-|[]]]]; eauto|].
  destruct (S [hanging 0; hanging 100; hanging 300; hanging 400]) as (t' & e' & T' & E' & K');
    [cbn; lia|intros s [<-|[<-|[<-|[<-|[]]]]]; eauto|].
  exists t, t'. split; [exact T|]. split; [exact T'|]. intros (A & _). rewrite K, K' in A by (cbn; lia).
  destruct (vertical_end "true" 0 true plumb [hanging 0; hanging 100; hanging 300] (hanging 400) [] "a" "XYM3" 2 "random" e e' 1 (hanging 100) (hanging 300))
    as (v & D & R & _); auto; try reflexivity.
  - left. reflexivity.
  - unfold vertical, plumb, hanging. cbn. lra.
  - destruct (R eq_refl) as (c & C & C'). rewrite C, C' in A. injection A as A.
    assert (TR : dot v v = 0).
    { apply (f_equal trace) in A. clear - A. destruct c as [[a b c] [d e f] [g h i]], v as [r s t]. unfold trace, madd, outer, vadd, vscale, dot in *. cbn in *. lra. }
    rewrite TR in D. unfold angle_of in D. destruct (string_dec _ _) as [Q|_]; [discriminate Q|].
    destruct (string_dec _ _) as [Q|_]; [discriminate Q|]. cbn in D. lra.
Qed.
