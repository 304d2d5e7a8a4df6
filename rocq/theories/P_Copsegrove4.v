(** Formulas beside weight functions; the concrete files. *)
Require Import Reals ZArith Ascii String List Bool Lra Lia.
Require Import Verif.Base Verif.NumPy Verif.M_Utils Verif.M_DmsText Verif.M_Text Verif.Spec_Text Verif.M_Ingest Verif.Spec_Ingest Verif.P_Ingest Verif.P_Ingest2.
Require Import Verif.M_Validate Verif.M_Copsegrove Verif.Spec_Copsegrove Verif.P_Copsegrove Verif.P_Copsegrove2 Verif.P_Copsegrove3.
Import ListNotations.
Open Scope list_scope.
Local Open Scope nat_scope.

(** ** names *)
Lemma unit_spec : forall u v, in_radians u v (v * unit_factor u)%R.
Proof.
  intros u v. unfold in_radians, unit_factor. destruct u as [t|].
  - cbn [existsb]. destruct (text_eqb t (lit "deg") || (text_eqb t (lit "deg/hr") || (text_eqb t (lit "deg/nT") || false)))%bool eqn:E.
    + left. rewrite !orb_true_iff, !text_eqb_spec in E. split; [|reflexivity]. destruct E as [->|[->|[->|E]]]; [auto|auto|auto|discriminate].
    + right. rewrite !orb_false_iff, !text_eqb_neq in E. destruct E as (A & B & C & _). split; [|ring]. intros [H|[H|H]]; [apply A|apply B|apply C]; congruence.
  - right. split; [|ring]. intros [H|[H|H]]; discriminate.
Qed.
Lemma underscored_map : forall s, underscored s (replace (lit "-") (lit "_") s).
Proof.
  intro s. rewrite replace_dash. unfold underscored. induction s as [|a s IH]; cbn [map]; constructor; [|exact IH].
  destruct (Ascii.eqb_spec a "-"); auto.
Qed.
Lemma underscored_unique : forall s t u, underscored s t -> underscored s u -> t = u.
Proof.
  intros s t u A. revert u. induction A as [|a b s t H A IH]; intros u B; inversion B as [|? c ? u' H' B']; subst; [reflexivity|]. f_equal; [|apply IH; exact B'].
  destruct H as [[? ->]|[? ->]], H' as [[? ->]|[? ->]]; congruence.
Qed.
Lemma function_name_spec : forall t fn, function_name t fn <-> fn = legacy_fn_name t.
Proof.
  intros t fn. unfold function_name, legacy_fn_name. split.
  - intros (s & U & [[E N]|[[E|E] ->]]); rewrite E.
    + destruct s as [|c r]; [contradiction|]. eapply underscored_unique; [exact U|apply underscored_map].
    + eapply underscored_unique; [exact U|apply underscored_map].
    + eapply underscored_unique; [exact U|apply underscored_map].
  - intros ->. destruct (jt_wt_fn t) as [[|c r]|]; eexists; (split; [apply underscored_map|]); [right; auto|left; split; [reflexivity|discriminate]|right; auto].
Qed.
Lemma mode_spec : forall m n, mode_name m n <-> n = legacy_mode m.
Proof.
  intros m n. unfold mode_name, legacy_mode. destruct (text_eqb m (lit "Random")) eqn:E1.
  { apply text_eqb_spec in E1. subst m. split; [|intros ->; auto]. intros [[_ H]|[[H _]|[[H _]|[H _]]]]; [exact H|discriminate|discriminate|contradiction]. }
  destruct (text_eqb m (lit "Global")) eqn:E2.
  { apply text_eqb_spec in E2. subst m. split; [|intros ->; auto]. intros [[H _]|[[_ H]|[[H _]|(_ & H & _)]]]; [discriminate|exact H|discriminate|contradiction]. }
  destruct (text_eqb m (lit "Well")) eqn:E3.
  { apply text_eqb_spec in E3. subst m. split; [|intros ->; auto]. intros [[H _]|[[H _]|[[_ H]|(_ & _ & H & _)]]]; [discriminate|discriminate|exact H|contradiction]. }
  apply text_eqb_neq in E1, E2, E3. split; [|intros ->; tauto]. intros [[H _]|[[H _]|[[H _]|(_ & _ & _ & H)]]]; contradiction || exact H.
Qed.

(** ** np.max and < *)
Lemma emax2_below : forall x y tol, below (emax2 x y) tol = (below x tol && below y tol)%bool.
Proof.
  intros [a| | |] [b| | |] tol; cbn; try rewrite andb_true_r; try rewrite andb_false_r; try reflexivity.
  repeat destruct Rlt_dec as [?|?]; try reflexivity; exfalso; revert n || revert r; unfold Rmax in *; destruct Rle_dec; lra.
Qed.
Lemma fold_below : forall l x tol, below (fold_left emax2 l x) tol = (below x tol && forallb (fun y => below y tol) l)%bool.
Proof. induction l as [|y l IH]; intros x tol; cbn; [rewrite andb_true_r; reflexivity|]. rewrite IH, emax2_below, andb_assoc. reflexivity. Qed.
Lemma np_max_below : forall l x tol, np_max l = Some x -> (below x tol = true <-> Forall (fun y => below y tol = true) l).
Proof.
  intros [|y l] x tol H; [discriminate|]. cbn in H. injection H as <-. rewrite fold_below, andb_true_iff, forallb_forall. split.
  - intros [A B]. constructor; [exact A|]. apply Forall_forall. exact B.
  - intro F. inversion F; subst. split; [assumption|]. apply Forall_forall. assumption.
Qed.
Lemma entry_below : forall mag v w tol, below (eabs (esub w (scaled_by mag v))) tol = true <-> exists x y, v = Fin x /\ w = Fin y /\ (Rabs (y - x * mag) < tol)%R.
Proof.
  intros mag v w tol. split.
  - intro H. destruct v as [x| | |], w as [y| | |]; cbn in H; try discriminate; try (destruct (Rlt_dec 0 mag), (Rlt_dec mag 0); cbn in H; discriminate).
    exists x, y. split; [reflexivity|]. split; [reflexivity|]. destruct Rlt_dec; [assumption|discriminate].
  - intros (x & y & -> & -> & H). cbn. destruct Rlt_dec; [reflexivity|contradiction].
Qed.
Lemma flat_entry : forall d i a k v, length i = length d -> length a = length d -> (nth_error (flat_rows d i a) k = Some v <-> row_entry d i a k v).
Proof.
  induction d as [|dk d IH]; intros [|ik i] [|ak a] k v LI LA; try discriminate; cbn [flat_rows].
  - unfold row_entry. split; [destruct k; discriminate|]. intros (n & [[_ H]|[[_ H]|[_ H]]]); destruct n; discriminate.
  - injection LI as LI. injection LA as LA. destruct k as [|[|[|k]]].
    + unfold row_entry. split; [intro H; exists 0; auto|]. intros (n & [[E H]|[[E H]|[E H]]]); [|lia|lia]. destruct n; [exact H|lia].
    + unfold row_entry. split; [intro H; exists 0; auto|]. intros (n & [[E H]|[[E H]|[E H]]]); [lia| |lia]. destruct n; [exact H|lia].
    + unfold row_entry. split; [intro H; exists 0; auto|]. intros (n & [[E H]|[[E H]|[E H]]]); [lia|lia|]. destruct n; [exact H|lia].
    + change (nth_error (dk :: ik :: ak :: flat_rows d i a) (S (S (S k)))) with (nth_error (flat_rows d i a) k). rewrite (IH i a k v LI LA). unfold row_entry. split.
      * intros (n & C). exists (S n). cbn [nth_error]. destruct C as [[E H]|[[E H]|[E H]]]; [left|right; left|right; right]; (split; [lia|exact H]).
      * intros ([|n] & C); [lia|]. exists n. cbn [nth_error] in C. destruct C as [[E H]|[[E H]|[E H]]]; [left|right; left|right; right]; (split; [lia|exact H]).
Qed.
Lemma agrees_spec : forall tol mag d i a l m, length i = length d -> length a = length d ->
  np_max (map (fun xy => eabs (esub (fst xy) (snd xy))) (combine l (map (scaled_by mag) (flat_rows d i a)))) = Some m ->
  (below m tol = true <-> agrees tol mag d i a l).
Proof.
  intros tol mag d i a l m LI LA H. rewrite (np_max_below _ _ tol H), Forall_map, Forall_forall. unfold agrees. clear H. split.
  - intros F k v w E W. apply flat_entry in E; [|exact LI|exact LA]. apply entry_below. apply (F (w, scaled_by mag v)).
    apply (map_nth_error (scaled_by mag)) in E. revert k E W. generalize (map (scaled_by mag) (flat_rows d i a)). clear. intros r k E W. revert l r E W.
    induction k as [|k IH]; intros [|y l] [|x r] E W; try discriminate; cbn in *; [left; congruence|right; apply IH; assumption].
  - intros A [w z] I. cbn [fst snd]. assert (exists k, nth_error l k = Some w /\ nth_error (map (scaled_by mag) (flat_rows d i a)) k = Some z) as (k & W & Z).
    { revert I. generalize (map (scaled_by mag) (flat_rows d i a)). clear. induction l as [|y l IH]; intros [|x r] I; cbn in I; try contradiction. destruct I as [E|I]; [injection E as -> ->; exists 0; auto|].
      destruct (IH r I) as (k & K). exists (S k). exact K. }
    rewrite nth_error_map in Z. destruct (nth_error (flat_rows d i a) k) as [v|] eqn:E; [|discriminate]. injection Z as <-. apply entry_below. apply (A k v w); [apply flat_entry; assumption|exact W].
Qed.
Lemma flat_length : forall d i a, length i = length d -> length a = length d -> length (flat_rows d i a) = 3 * length d.
Proof. induction d as [|x d IH]; intros [|y i] [|z a] LI LA; try discriminate; [reflexivity|]. injection LI as LI. injection LA as LA. cbn [flat_rows length]. rewrite (IH i a LI LA). lia. Qed.

(** ** the verdict on a weight function *)
Lemma classify_spec : forall eval legacy t r n,
  (forall f l, eval f = Some l -> length l = n) ->
  compare_term eval legacy t = Some r ->
  exists mag fn mode, in_radians (jt_unit t) (jt_value t) mag /\ function_name t fn /\ mode_name (jt_mode t) mode /\ tr_function r = fn /\ tr_name r = jt_name t /\
  (classify r = INTERP_FAILED <-> ~ evaluated eval t) /\
  (classify r = NO_LEGACY <-> evaluated eval t /\ legacy (jt_name t) fn mag mode = None) /\
  (classify r = T_MATCH <-> exists d i a l, values_of eval t d i a /\ legacy (jt_name t) fn mag mode = Some l /\ agrees (1 / 10 ^ 10) mag d i a l) /\
  (classify r = T_NEAR_MATCH <-> exists d i a l, values_of eval t d i a /\ legacy (jt_name t) fn mag mode = Some l /\ ~ agrees (1 / 10 ^ 10) mag d i a l /\ agrees (1 / 10 ^ 6) mag d i a l).
Proof.
  intros eval legacy t r n OE H. exists (jt_value t * unit_factor (jt_unit t))%R, (legacy_fn_name t), (legacy_mode (jt_mode t)).
  split; [apply unit_spec|]. split; [apply function_name_spec; reflexivity|]. split; [apply mode_spec; reflexivity|]. unfold compare_term in H.
  set (mag := (jt_value t * unit_factor (jt_unit t))%R) in *. set (fn := legacy_fn_name t) in *.
  assert (U : forall d i a d' i' a', values_of eval t d i a -> values_of eval t d' i' a' -> d' = d /\ i' = i /\ a' = a) by (intros d i a d' i' a' (A & B & Z) (A' & B' & Z'); repeat split; congruence).
  assert (F : ~ evaluated eval t -> r = mkTermResult (jt_name t) fn false false NaN -> tr_function r = fn /\ tr_name r = jt_name t /\
    (classify r = INTERP_FAILED <-> ~ evaluated eval t) /\
    (classify r = NO_LEGACY <-> evaluated eval t /\ legacy (jt_name t) fn mag (legacy_mode (jt_mode t)) = None) /\
    (classify r = T_MATCH <-> exists d i a l, values_of eval t d i a /\ legacy (jt_name t) fn mag (legacy_mode (jt_mode t)) = Some l /\ agrees (1 / 10 ^ 10) mag d i a l) /\
    (classify r = T_NEAR_MATCH <-> exists d i a l, values_of eval t d i a /\ legacy (jt_name t) fn mag (legacy_mode (jt_mode t)) = Some l /\ ~ agrees (1 / 10 ^ 10) mag d i a l /\ agrees (1 / 10 ^ 6) mag d i a l)).
  { intros NE ->. split; [reflexivity|]. split; [reflexivity|]. change (classify (mkTermResult (jt_name t) fn false false NaN)) with INTERP_FAILED.
    split; [tauto|]. split; [split; [discriminate|tauto]|]. split; (split; [discriminate|]); intros (d & i & a & l & V & _); elim NE; exists d, i, a; exact V. }
  destruct (eval (jt_depth t)) as [d|] eqn:E1; [|injection H as <-; apply F; [intros (d & i & a & A & _); congruence|reflexivity]].
  destruct (eval (jt_inc t)) as [i|] eqn:E2; [|injection H as <-; apply F; [intros (d' & i & a & _ & A & _); congruence|reflexivity]].
  destruct (eval (jt_azi t)) as [a|] eqn:E3; [|injection H as <-; apply F; [intros (d' & i' & a & _ & _ & A); congruence|reflexivity]].
  assert (V : values_of eval t d i a) by (unfold values_of; auto). assert (EV : evaluated eval t) by (exists d, i, a; exact V).
  assert (LI : length i = length d) by (rewrite (OE _ _ E1), (OE _ _ E2); reflexivity). assert (LA : length a = length d) by (rewrite (OE _ _ E1), (OE _ _ E3); reflexivity).
  destruct (legacy (jt_name t) fn mag (legacy_mode (jt_mode t))) as [l|] eqn:L.
  - destruct (np_max _) as [m|] eqn:M in H; [|discriminate]. injection H as <-. split; [reflexivity|]. split; [reflexivity|].
    pose proof (fun tol => agrees_spec tol mag d i a l m LI LA M) as A. unfold classify. cbn [tr_interp tr_legacy tr_max_abs negb].
    assert (A1 := A (1 / 10 ^ 10)%R). assert (A2 := A (1 / 10 ^ 6)%R).
    assert (W : forall P : list ext -> list ext -> list ext -> list ext -> Prop, (exists d0 i0 a0 l0, values_of eval t d0 i0 a0 /\ Some l = Some l0 /\ P d0 i0 a0 l0) <-> P d i a l).
    { intro P. split; [|intro H; exists d, i, a, l; auto]. intros (d0 & i0 & a0 & l0 & V0 & E & H). injection E as <-. destruct (U _ _ _ _ _ _ V V0) as (-> & -> & ->). exact H. }
    rewrite (W (fun d i a l => agrees (1 / 10 ^ 10) mag d i a l)), (W (fun d i a l => ~ agrees (1 / 10 ^ 10) mag d i a l /\ agrees (1 / 10 ^ 6) mag d i a l)).
    rewrite <- A1, <- A2. clear - EV. destruct (below m (1 / 10 ^ 10)), (below m (1 / 10 ^ 6)); repeat split; intros; try discriminate; try tauto; try (repeat match goal with H : _ /\ _ |- _ => destruct H end; congruence).
  - injection H as <-. split; [reflexivity|]. split; [reflexivity|]. change (classify (mkTermResult (jt_name t) fn false true NaN)) with NO_LEGACY.
    split; [split; [discriminate|tauto]|]. split; [tauto|]. split; (split; [discriminate|]); intros (d' & i' & a' & l & _ & E & _); discriminate.
Qed.
(** no exception: there is a station *)
Lemma compare_runs : forall eval legacy t n, (forall f l, eval f = Some l -> length l = n) -> 0 < n ->
  (forall l name fn mag mode, legacy name fn mag mode = Some l -> length l = 3 * n) -> exists r, compare_term eval legacy t = Some r.
Proof.
  intros eval legacy t n OE N OL. unfold compare_term. destruct (eval (jt_depth t)) as [d|] eqn:E1; [|eexists; reflexivity]. destruct (eval (jt_inc t)) as [i|] eqn:E2; [|eexists; reflexivity].
  destruct (eval (jt_azi t)) as [a|] eqn:E3; [|eexists; reflexivity]. destruct (legacy _ _ _ _) as [l|] eqn:L; [|eexists; reflexivity].
  assert (LI : length i = length d) by (rewrite (OE _ _ E1), (OE _ _ E2); reflexivity). assert (LA : length a = length d) by (rewrite (OE _ _ E1), (OE _ _ E3); reflexivity).
  pose proof (flat_length d i a LI LA) as LF. rewrite (OE _ _ E1) in LF. apply OL in L. destruct l as [|w l]; [cbn in L; lia|]. destruct (flat_rows d i a) as [|v r]; [cbn in LF; lia|]. cbn. eexists. reflexivity.
Qed.
Lemma demo_one : forall d i a f l, demo_values d i a f = Some l -> length l = 1.
Proof.
  intros d i a f l. unfold demo_values. destruct (text_eqb f (lit "D")); [intro E; injection E as <-; reflexivity|]. destruct (text_eqb f (lit "I")); [intro E; injection E as <-; reflexivity|].
  destruct (text_eqb f (lit "A")); [intro E; injection E as <-; reflexivity|discriminate].
Qed.
(** the threshold is absolute: wrong by a factor of infinity, yet a match *)
Lemma small_errors_match : exists (eval : text -> option (list ext)) legacy t r, compare_term eval legacy t = Some r /\ classify r = T_MATCH /\
  exists d i a l, values_of eval t d i a /\ legacy (jt_name t) (lit "AB") 1%R (lit "random") = Some l /\ length l = 3 /\
    exists x, d = [Fin x] /\ nth_error l 0 = Some (Fin 0) /\ (1 / 10 ^ 9 * Rabs 0 + 1 / 10 ^ 12 < Rabs (x - 0))%R.
Proof.
  pose (x := (5 / 10 ^ 11)%R). pose (eval := demo_values (Fin x) (Fin 0) (Fin 0)). pose (legacy := fun (_ _ : text) (_ : R) (_ : text) => Some [Fin 0; Fin 0; Fin 0]).
  assert (V : values_of eval demo_term [Fin x] [Fin 0] [Fin 0]) by (repeat split; reflexivity).
  destruct (compare_runs eval legacy demo_term 1) as (r & C).
  { intros f l. apply demo_one. }
  { lia. } { intros l name fn mag mode E. injection E as <-. reflexivity. }
  exists eval, legacy, demo_term, r. split; [exact C|]. split.
  - destruct (classify_spec eval legacy demo_term r 1) as (mag & fn & mode & U & FN & M & _ & _ & _ & _ & MA & _); [|exact C|].
    { intros f l. apply demo_one. }
    apply MA. exists [Fin x], [Fin 0], [Fin 0], [Fin 0; Fin 0; Fin 0]. split; [exact V|]. split; [reflexivity|].
    assert (mag = 1%R) as ->. { destruct U as [[[H|[H|H]] _]|[_ ->]]; [discriminate|discriminate|discriminate|reflexivity]. }
    intros k v w (n & E) W. assert (n = 0) by (destruct n; [reflexivity|exfalso; destruct E as [[_ E]|[[_ E]|[_ E]]]; destruct n; discriminate]). subst n.
    destruct E as [[-> E]|[[-> E]|[-> E]]]; cbn in E, W; injection E as <-; injection W as <-; eexists _, _; (split; [reflexivity|]); (split; [reflexivity|]); unfold x, Rabs; destruct Rcase_abs; lra.
  - exists [Fin x], [Fin 0], [Fin 0], [Fin 0; Fin 0; Fin 0]. split; [exact V|]. split; [reflexivity|]. split; [reflexivity|]. exists x. split; [reflexivity|]. split; [reflexivity|].
    unfold x, Rabs. repeat destruct Rcase_abs; lra.
Qed.

(** ** the concrete file *)
Ltac dval := match goal with |- context [digits_value ?x] => let y := eval vm_compute in (digits_value x) in change (digits_value x) with y end; cbn [length pow lit list_ascii_of_string]; lra.
Ltac dec1 := repeat split; try discriminate; try (repeat constructor; cbn; lia).
Lemma demo_sig : sig_line (lit "AB svy 0.0 0.5 0.25 9.9") (lit "AB") (0, 5 / 10, 25 / 100)%R.
Proof.
  exists [], (lit " "), (lit " "), (lit " "), (lit " "), (lit "0.0"), (lit "0.5"), (lit "0.25"), (lit " 9.9"). split; [reflexivity|]. split; [constructor|].
  assert (G : gap_text (lit " ")) by (split; [discriminate|repeat constructor]). repeat (split; [exact G|]).
  split; [exists "A"%char, (lit "B"); split; [reflexivity|]; split; [split; cbn; lia|]; constructor; [left; split; cbn; lia|constructor]|].
  split; [intros c r E; injection E as <- _; unfold is_digit; cbn; lia|]. cbn [fst snd]. split; [|split].
  - exists false, (lit "0"), (lit "0"). dec1. dval.
  - exists false, (lit "0"), (lit "5"). dec1. dval.
  - exists false, (lit "0"), (lit "25"). dec1. dval.
Qed.
Lemma demo_station : station_line (lit "30.00 Inc: 1.5 Az (True): -2.0 TF: 0.0") 30 (15 / 10) (- 2).
Proof.
  exists [], (lit " "), (lit " "), (lit " "), (lit " "), (lit " "), (lit "30.00"), (lit "1.5"), (lit "-2.0"), (lit " TF: 0.0"). split; [reflexivity|]. split; [constructor|].
  assert (G : gap_text (lit " ")) by (split; [discriminate|repeat constructor]). repeat (split; [exact G|]). split; [apply G|]. split; [exact G|].
  split; [intros c r E; injection E as <- _; unfold is_digit; cbn; lia|]. split; [|split].
  - split; [|intros (t & E); discriminate]. exists false, (lit "30"), (lit "00"). dec1. dval.
  - exists false, (lit "1"), (lit "5"). dec1. dval.
  - exists true, (lit "2"), (lit "0"). dec1. dval.
Qed.
Lemma demo_parse : parse_copsegrove demo_lines = [mkStation 30 (15 / 10) (- 2) [(lit "AB", (0, 5 / 10, 25 / 100)%R)]].
Proof.
  unfold parse_copsegrove, demo_lines. cbn [parse_lines]. rewrite (sig_found _ _ _ demo_sig). rewrite no_label by (destruct demo_sig as (p & q1 & q2 & q3 & q4 & x & y & z & rest & S); apply S).
  destruct (sig_match (lit "30.00 Inc: 1.5 Az (True): -2.0 TF: 0.0")) as [[code v]|] eqn:E; [apply sig_spec in E; elim (kinds_differ _ _ _ _ _ _ E demo_station)|].
  rewrite (station_found _ _ _ _ demo_station). reflexivity.
Qed.
(** one undefined value among the defined ones does not count *)
Lemma undefined_matches : exists r, validate_random_terms (fun _ => demo_values NaN (Fin 0) (Fin (5 / 10))) demo_lines [demo_term] (5 / 10 ^ 4) = [r] /\ vr_verdict r = MATCH /\
  reading (lit "AB") (parse_copsegrove demo_lines) [NaN] [Fin 0] [Fin (5 / 10)] NaN (25 / 100).
Proof.
  eexists. split; [reflexivity|]. rewrite demo_parse. split.
  - set (sts := [mkStation 30 (15 / 10) (- 2) [(lit "AB", (0, 5 / 10, 25 / 100)%R)]]).
    destruct (term_cases (demo_values NaN (Fin 0) (Fin (5 / 10))) sts (5 / 10 ^ 4) demo_term _ eq_refl) as [_ C].
    { intros f l. apply demo_one. }
    assert (V : values_of (demo_values NaN (Fin 0) (Fin (5 / 10))) demo_term [NaN] [Fin 0] [Fin (5 / 10)]) by (repeat split; reflexivity).
    assert (A : all_near (lit "AB") 1 (5 / 10 ^ 4) sts [NaN] [Fin 0] [Fin (5 / 10)]).
    { split.
      - intros v s (k & st & hs & lat & ah & K & D & R) N. destruct k as [|k]; [|destruct k; discriminate]. cbn in K. injection K as <-. cbn in D. injection D as <- <- <-.
        destruct R as [[R ->]|[[R ->]|[R ->]]]; cbn in R; injection R as <-; [| |elim N; left; reflexivity]; eexists; (split; [reflexivity|]); unfold Rabs; repeat destruct Rcase_abs; lra.
      - intros v (k & st & K & _ & R & _) U. destruct k as [|k]; [|destruct k; discriminate]. cbn in R. injection R as <-. destruct U as [U|[_ [U|U]]]; discriminate. }
    destruct C as [(D & _)|[(_ & N & _)|[(_ & N & _)|[(_ & _ & N & _)|(d & i & a & (_ & V' & _) & _ & C)]]]].
    + destruct D as [D|[D|D]]; discriminate.
    + elim N. reflexivity.
    + elim N. exists [NaN], [Fin 0], [Fin (5 / 10)]. exact V.
    + elim N. eexists _, _. split; [left; reflexivity|]. reflexivity.
    + assert (d = [NaN] /\ i = [Fin 0] /\ a = [Fin (5 / 10)]) as (-> & -> & ->) by (destruct V as (X & Y & Z), V' as (X' & Y' & Z'); repeat split; congruence).
      destruct C as [(_ & E)|[(N & _)|(N & _)]]; [exact E|contradiction|contradiction].
  - exists 0, (mkStation 30 (15 / 10) (- 2) [(lit "AB", (0, 5 / 10, 25 / 100)%R)]), 0%R, (5 / 10)%R, (25 / 100)%R. split; [reflexivity|]. split; [reflexivity|]. right. right. auto.
Qed.
