(** The verdicts on formulas. *)
Require Import Reals ZArith Ascii String List Bool Lra Lia.
Require Import Verif.Base Verif.NumPy Verif.M_Utils Verif.M_Text Verif.Spec_Text Verif.M_Ingest Verif.Spec_Ingest Verif.P_Ingest.
Require Import Verif.M_Validate Verif.M_Copsegrove Verif.Spec_Copsegrove Verif.P_Copsegrove Verif.P_Copsegrove2.
Import ListNotations.
Open Scope list_scope.
Local Open Scope nat_scope.

(** ** max() *)
Lemma greater_nan : forall y, greater y NaN = false.
Proof. intros []; reflexivity. Qed.
Lemma nan_stays : forall l, fold_left (fun m y => if greater y m then y else m) l NaN = NaN.
Proof. induction l as [|y l IH]; [reflexivity|]. cbn [fold_left]. rewrite greater_nan. exact IH. Qed.
Lemma larger_covers : forall y m tol, m <> NaN -> (at_most (if greater y m then y else m) tol = true <-> at_most m tol = true /\ (y = NaN \/ at_most y tol = true)).
Proof.
  intros y m tol N. destruct m as [a| | |]; [| | |contradiction]; destruct y as [b| | |]; cbn [greater];
    try (destruct (Rlt_dec a b)); cbn [at_most]; repeat destruct Rle_dec; split; intros; try tauto;
    try (exfalso; repeat match goal with H : _ /\ _ |- _ => destruct H | H : _ \/ _ |- _ => destruct H end; discriminate);
    try (split; [|right]; reflexivity || lra); try (exfalso; lra).
  all: try (split; [reflexivity|right; reflexivity]).
Qed.
Lemma larger_number : forall y m, m <> NaN -> (if greater y m then y else m) <> NaN.
Proof. intros y m N. destruct (greater y m) eqn:G; [|exact N]. intros ->. discriminate. Qed.
Lemma max_covers : forall l m tol, m <> NaN ->
  (at_most (fold_left (fun m y => if greater y m then y else m) l m) tol = true <-> at_most m tol = true /\ forall y, In y l -> y = NaN \/ at_most y tol = true).
Proof.
  induction l as [|y l IH]; intros m tol N; cbn [fold_left].
  - split; [intro H; split; [exact H|intros y []]|tauto].
  - rewrite (IH _ tol (larger_number y m N)), (larger_covers y m tol N). split.
    + intros [[A B] C]. split; [exact A|]. intros z [<-|I]; auto.
    + intros [A B]. split; [split; [exact A|apply B; left; reflexivity]|]. intros z I. apply B. right. exact I.
Qed.
Lemma py_max_covers : forall x l tol, (exists m, py_max (x :: l) = Some m /\ at_most m tol = true) <-> x <> NaN /\ forall y, In y (x :: l) -> y = NaN \/ at_most y tol = true.
Proof.
  intros x l tol. cbn [py_max]. split.
  - intros (m & E & A). injection E as <-. assert (N : x <> NaN) by (intros ->; rewrite nan_stays in A; discriminate). split; [exact N|].
    apply max_covers in A; [|exact N]. destruct A as [A B]. intros y [<-|I]; auto.
  - intros [N H]. eexists. split; [reflexivity|]. apply max_covers; [exact N|]. split; [destruct (H x (or_introl eq_refl)); [contradiction|assumption]|]. intros y I. apply H. right. exact I.
Qed.

(** ** one difference *)
Lemma distance_nan : forall mag v s, distance_to s (scaled_by mag (eabs v)) = NaN <-> undefined mag v.
Proof.
  intros mag v s. unfold undefined. destruct v; cbn [eabs scaled_by].
  - cbn. split; [discriminate|]. intros [H|[_ [H|H]]]; discriminate.
  - destruct (Rlt_dec 0 mag); [cbn; split; [discriminate|intros [H|[H _]]; [discriminate|lra]]|]. destruct (Rlt_dec mag 0); cbn; (split; [|intros [H|[H _]]; [discriminate|]]); try discriminate; try lra; try reflexivity.
    intros _. right. split; [lra|auto].
  - destruct (Rlt_dec 0 mag); [cbn; split; [discriminate|intros [H|[H _]]; [discriminate|lra]]|]. destruct (Rlt_dec mag 0); cbn; (split; [|intros [H|[H _]]; [discriminate|]]); try discriminate; try lra; try reflexivity.
    intros _. right. split; [lra|auto].
  - cbn. split; [auto|reflexivity].
Qed.
Lemma distance_most : forall mag v s tol, ~ undefined mag v -> (at_most (distance_to s (scaled_by mag (eabs v))) tol = true <-> near mag tol v s).
Proof.
  intros mag v s tol N. unfold near. destruct v as [x| | |]; cbn [eabs scaled_by].
  - cbn. destruct Rle_dec as [L|L]; split; try discriminate.
    + intros _. exists x. auto.
    + reflexivity.
    + intros (y & E & H). injection E as <-. contradiction.
  - assert (E : at_most (distance_to s (if Rlt_dec 0 mag then PInf else if Rlt_dec mag 0 then NInf else NaN)) tol = false) by (destruct (Rlt_dec 0 mag), (Rlt_dec mag 0); reflexivity).
    rewrite E. split; [discriminate|]. intros (y & H & _). discriminate.
  - assert (E : at_most (distance_to s (if Rlt_dec 0 mag then PInf else if Rlt_dec mag 0 then NInf else NaN)) tol = false) by (destruct (Rlt_dec 0 mag), (Rlt_dec mag 0); reflexivity).
    rewrite E. split; [discriminate|]. intros (y & H & _). discriminate.
  - elim N. left. reflexivity.
Qed.

(** ** the differences of a term *)
Lemma diffs_in : forall name mag stations d i a y, one_each stations d -> one_each stations i -> one_each stations a ->
  (In y (fst (term_diffs name mag stations d i a)) <-> exists v s, reading name stations d i a v s /\ y = distance_to s (scaled_by mag (eabs v))).
Proof.
  unfold one_each. intros name mag stations. induction stations as [|st stations IH]; intros [|dk d] [|ik i] [|ak a] y LD LI LA; try discriminate.
  - cbn. split; [intros []|]. intros (v & s & (k & st & hs & lat & ah & K & _) & _). destruct k; discriminate.
  - cbn [term_diffs]. injection LD as LD. injection LI as LI. injection LA as LA. specialize (IH d i a y LD LI LA). destruct (term_diffs name mag stations d i a) as [l n]. cbn [fst] in IH.
    destruct (dget text_eqb name (st_sigmas st)) as [[[hs lat] ah]|] eqn:D; cbn [fst].
    + split.
      * intros [<-|[<-|[<-|I]]].
        -- exists ik, hs. split; [|reflexivity]. exists 0, st, hs, lat, ah. split; [reflexivity|]. split; [exact D|]. left. auto.
        -- exists ak, lat. split; [|reflexivity]. exists 0, st, hs, lat, ah. split; [reflexivity|]. split; [exact D|]. right. left. auto.
        -- exists dk, ah. split; [|reflexivity]. exists 0, st, hs, lat, ah. split; [reflexivity|]. split; [exact D|]. right. right. auto.
        -- apply IH in I. destruct I as (v & s & (k & st' & R) & E). exists v, s. split; [|exact E]. exists (S k), st'. exact R.
      * intros (v & s & (k & st' & hs' & lat' & ah' & K & D' & C) & ->). destruct k as [|k].
        -- cbn in K. injection K as <-. rewrite D in D'. injection D' as <- <- <-. cbn in C. destruct C as [[C ->]|[[C ->]|[C ->]]]; injection C as ->; [left|right; left|right; right; left]; reflexivity.
        -- right. right. right. apply IH. exists v, s. split; [|reflexivity]. exists k, st', hs', lat', ah'. auto.
    + rewrite IH. split.
      * intros (v & s & (k & st' & R) & E). exists v, s. split; [|exact E]. exists (S k), st'. exact R.
      * intros (v & s & (k & st' & hs' & lat' & ah' & K & D' & C) & E). destruct k as [|k]; [cbn in K; injection K as <-; congruence|]. exists v, s. split; [|exact E]. exists k, st', hs', lat', ah'. auto.
Qed.
Lemma diffs_head : forall name mag stations d i a, one_each stations d -> one_each stations i -> one_each stations a ->
  match fst (term_diffs name mag stations d i a) with
  | [] => ~ mentioned name stations
  | y :: _ => mentioned name stations /\ exists v s, first_reading name stations i v /\ y = distance_to s (scaled_by mag (eabs v))
  end.
Proof.
  unfold one_each. intros name mag stations. induction stations as [|st stations IH]; intros [|dk d] [|ik i] [|ak a] LD LI LA; try discriminate.
  - cbn. intros (s & v & [] & _).
  - cbn [term_diffs]. injection LD as LD. injection LI as LI. injection LA as LA. specialize (IH d i a LD LI LA). destruct (term_diffs name mag stations d i a) as [l n]. cbn [fst] in IH.
    destruct (dget text_eqb name (st_sigmas st)) as [[[hs lat] ah]|] eqn:D; cbn [fst].
    + split; [exists st, (hs, lat, ah); split; [left; reflexivity|exact D]|]. exists ik, hs. split; [|reflexivity]. exists 0, st. split; [reflexivity|]. split; [eexists; exact D|]. split; [reflexivity|]. intros j st' J. lia.
    + destruct l as [|y l].
      * intros (s & v & [<-|I] & V); [congruence|]. apply IH. exists s, v. auto.
      * destruct IH as ((s & v & I & V) & w & t & (k & st' & K & (z & Z) & W & B) & E). split; [exists s, v; split; [right; exact I|exact V]|]. exists w, t. split; [|exact E].
        exists (S k), st'. split; [exact K|]. split; [eexists; exact Z|]. split; [exact W|]. intros [|j] st'' J H; [cbn in H; injection H as <-; exact D|]. apply (B j st''); [lia|exact H].
Qed.
Lemma first_unique : forall name stations i v w, first_reading name stations i v -> first_reading name stations i w -> v = w.
Proof.
  intros name stations i v w (k & st & K & (x & X) & V & B) (k' & st' & K' & (x' & X') & V' & B').
  destruct (Nat.lt_trichotomy k k') as [L|[->|L]]; [specialize (B' k st L K); congruence|congruence|specialize (B k' st' L K'); congruence].
Qed.
Lemma diffs_covered : forall name mag tol stations d i a, one_each stations d -> one_each stations i -> one_each stations a ->
  ((exists m, py_max (fst (term_diffs name mag stations d i a)) = Some m /\ at_most m tol = true) <-> mentioned name stations /\ all_near name mag tol stations d i a).
Proof.
  intros name mag tol stations d i a LD LI LA. pose proof (diffs_head name mag stations d i a LD LI LA) as H. pose proof (fun y => diffs_in name mag stations d i a y LD LI LA) as IN.
  destruct (fst (term_diffs name mag stations d i a)) as [|y l]; [split; [intros (m & E & _); discriminate|tauto]|]. destruct H as (M & v0 & s0 & F & E0). rewrite py_max_covers. split.
  - intros [N A]. split; [exact M|]. split.
    + intros v s R U. apply distance_most; [exact U|]. destruct (A (distance_to s (scaled_by mag (eabs v)))) as [Z|Z]; [apply IN; exists v, s; auto|apply distance_nan in Z; contradiction|exact Z].
    + intros v F'. rewrite <- (first_unique name stations i v0 v F F'). intro U. apply N. rewrite E0. apply distance_nan. exact U.
  - intros [_ [A B]]. split; [rewrite E0; intro Z; apply distance_nan in Z; exact (B v0 F Z)|]. intros z I. apply IN in I. destruct I as (v & s & R & ->).
    destruct (distance_to s (scaled_by mag (eabs v))) eqn:E; try (left; reflexivity); right; rewrite <- E; apply distance_most;
      try (intro U; apply (distance_nan mag v s) in U; congruence); apply A; try exact R; intro U; apply (distance_nan mag v s) in U; congruence.
Qed.
Lemma diffs_count : forall name mag stations d i a, one_each stations d -> one_each stations i -> one_each stations a -> mentions name stations (snd (term_diffs name mag stations d i a)).
Proof.
  unfold one_each. intros name mag stations. induction stations as [|st stations IH]; intros [|dk d] [|ik i] [|ak a] LD LI LA; try discriminate; [constructor|].
  cbn [term_diffs]. injection LD as LD. injection LI as LI. injection LA as LA. specialize (IH d i a LD LI LA). destruct (term_diffs name mag stations d i a) as [l n]. cbn [snd] in IH.
  destruct (dget text_eqb name (st_sigmas st)) as [[[hs lat] ah]|] eqn:D; cbn [snd]; [eapply mentions_yes; [exact D|exact IH]|apply mentions_no; assumption].
Qed.

(** ** the verdict on a term *)
Definition one_each_eval (eval : text -> option (list ext)) (stations : list station) : Prop := forall f l, eval f = Some l -> one_each stations l.
Lemma random_not_deferred : forall m, existsb (text_eqb m) [lit "Systematic"; lit "Global"; lit "Well"] = true <-> deferred_mode m.
Proof. intro m. cbn [existsb]. unfold deferred_mode. rewrite !orb_true_iff, !text_eqb_spec. split; [intros [H|[H|[H|H]]]; [auto|auto|auto|discriminate]|tauto]. Qed.
Lemma random_mode : forall m, m = lit "Random" -> existsb (text_eqb m) [lit "Systematic"; lit "Global"; lit "Well"] = false.
Proof. intros m ->. reflexivity. Qed.

Lemma term_cases : forall eval stations tol t r, validate_term eval stations tol t = r -> (forall f l, eval f = Some l -> one_each stations l) ->
  vr_name r = jt_name t /\
  ((deferred_mode (jt_mode t) /\ vr_verdict r = DEFERRED /\ vr_stations r = length stations) \/
   (~ deferred_mode (jt_mode t) /\ jt_mode t <> lit "Random" /\ vr_verdict r = UNKNOWN_PROP /\ vr_stations r = length stations) \/
   (jt_mode t = lit "Random" /\ ~ evaluated eval t /\ vr_verdict r = INTERP_FAIL /\ vr_stations r = length stations) \/
   (jt_mode t = lit "Random" /\ evaluated eval t /\ ~ mentioned (jt_name t) stations /\ vr_verdict r = NOT_IN_COPSEGROVE /\ vr_stations r = length stations) \/
   (exists d i a, compared eval stations t d i a /\ mentions (jt_name t) stations (vr_stations r) /\
      ((all_near (jt_name t) (jt_value t) tol stations d i a /\ vr_verdict r = MATCH) \/
       (~ all_near (jt_name t) (jt_value t) tol stations d i a /\ all_near (jt_name t) (jt_value t) (5 * tol) stations d i a /\ vr_verdict r = NEAR_MATCH) \/
       (~ all_near (jt_name t) (jt_value t) tol stations d i a /\ ~ all_near (jt_name t) (jt_value t) (5 * tol) stations d i a /\ vr_verdict r = DIFFER)))).
Proof.
  intros eval stations tol t r <- OE. unfold validate_term.
  destruct (existsb (text_eqb (jt_mode t)) [lit "Systematic"; lit "Global"; lit "Well"]) eqn:ED; [split; [reflexivity|]; left; apply random_not_deferred in ED; auto|].
  assert (ND : ~ deferred_mode (jt_mode t)) by (intro H; apply random_not_deferred in H; congruence).
  destruct (text_eqb (jt_mode t) (lit "Random")) eqn:ER; cbn [negb].
  2:{ split; [reflexivity|]. right. left. apply text_eqb_neq in ER. auto. }
  apply text_eqb_spec in ER. destruct (eval (jt_depth t)) as [d|] eqn:E1.
  2:{ split; [reflexivity|]. right. right. left. split; [exact ER|]. split; [|auto]. intros (d & i & a & A & _). congruence. }
  destruct (eval (jt_inc t)) as [i|] eqn:E2.
  2:{ split; [reflexivity|]. right. right. left. split; [exact ER|]. split; [|auto]. intros (d' & i & a & _ & A & _). congruence. }
  destruct (eval (jt_azi t)) as [a|] eqn:E3.
  2:{ split; [reflexivity|]. right. right. left. split; [exact ER|]. split; [|auto]. intros (d' & i' & a & _ & _ & A). congruence. }
  pose proof (OE _ _ E1) as L1. pose proof (OE _ _ E2) as L2. pose proof (OE _ _ E3) as L3.
  pose proof (fun tol => diffs_covered (jt_name t) (jt_value t) tol stations d i a L1 L2 L3) as C. pose proof (diffs_head (jt_name t) (jt_value t) stations d i a L1 L2 L3) as H.
  pose proof (diffs_count (jt_name t) (jt_value t) stations d i a L1 L2 L3) as N. destruct (term_diffs (jt_name t) (jt_value t) stations d i a) as [l n]. cbn [fst snd] in C, H, N.
  assert (EV : values_of eval t d i a) by (unfold values_of; auto).
  destruct (py_max l) as [m|] eqn:PM.
  - split; [reflexivity|]. right. right. right. right. exists d, i, a. cbn [vr_stations vr_verdict]. destruct l as [|y l]; [discriminate|]. destruct H as [M _]. split; [split; [exact ER|]; split; [exact EV|exact M]|]. split; [exact N|].
    assert (CC : forall tl, at_most m tl = true <-> all_near (jt_name t) (jt_value t) tl stations d i a).
    { intro tl. specialize (C tl). split; [intro A; apply C; exists m; auto|]. intro A. destruct (proj2 C (conj M A)) as (m' & Em & A'). injection Em as <-. exact A'. }
    destruct (at_most m tol) eqn:A1; [left; split; [apply CC; exact A1|reflexivity]|]. right. assert (~ all_near (jt_name t) (jt_value t) tol stations d i a) by (intro A; apply CC in A; congruence).
    destruct (at_most m (5 * tol)) eqn:A2; [left|right]; (split; [assumption|]); (split; [|reflexivity]); [apply CC; exact A2|intro A; apply CC in A; congruence].
  - split; [reflexivity|]. right. right. right. left. destruct l; [|discriminate]. split; [exact ER|]. split; [exists d, i, a; exact EV|]. auto.
Qed.
Lemma verdicts_order : forall eval lines terms tol, map vr_name (validate_random_terms eval lines terms tol) = map jt_name terms.
Proof.
  intros eval lines terms tol. unfold validate_random_terms. rewrite map_map. apply map_ext. intro t. unfold validate_term.
  destruct existsb; [reflexivity|]. destruct text_eqb; [|reflexivity]. cbn [negb]. destruct (eval (parse_copsegrove lines) (jt_depth t)), (eval (parse_copsegrove lines) (jt_inc t)), (eval (parse_copsegrove lines) (jt_azi t)); try reflexivity.
  destruct term_diffs. destruct py_max; reflexivity.
Qed.
Lemma verdict_cases : forall eval lines terms tol k t r,
  (forall f l, eval (parse_copsegrove lines) f = Some l -> one_each (parse_copsegrove lines) l) ->
  nth_error terms k = Some t -> nth_error (validate_random_terms eval lines terms tol) k = Some r ->
  let stations := parse_copsegrove lines in let ev := eval stations in
  (vr_verdict r = DEFERRED <-> deferred_mode (jt_mode t)) /\
  (vr_verdict r = UNKNOWN_PROP <-> ~ deferred_mode (jt_mode t) /\ jt_mode t <> lit "Random") /\
  (vr_verdict r = INTERP_FAIL <-> jt_mode t = lit "Random" /\ ~ evaluated ev t) /\
  (vr_verdict r = NOT_IN_COPSEGROVE <-> jt_mode t = lit "Random" /\ evaluated ev t /\ ~ mentioned (jt_name t) stations) /\
  (vr_verdict r = MATCH <-> exists d i a, compared ev stations t d i a /\ all_near (jt_name t) (jt_value t) tol stations d i a) /\
  (vr_verdict r = NEAR_MATCH <-> exists d i a, compared ev stations t d i a /\ ~ all_near (jt_name t) (jt_value t) tol stations d i a /\ all_near (jt_name t) (jt_value t) (5 * tol) stations d i a) /\
  ((exists d i a, compared ev stations t d i a) -> mentions (jt_name t) stations (vr_stations r)).
Proof.
  intros eval lines terms tol k t r OE T V stations ev. unfold validate_random_terms in V. rewrite nth_error_map, T in V. cbn in V. injection V as V. fold stations in V. fold ev in V.
  destruct (term_cases ev stations tol t r V OE) as [_ C]. unfold compared, evaluated.
  assert (RD : jt_mode t = lit "Random" -> ~ deferred_mode (jt_mode t)) by (intros E D; apply random_not_deferred in D; rewrite (random_mode _ E) in D; discriminate).
  assert (U : forall d i a d' i' a', values_of ev t d i a -> values_of ev t d' i' a' -> d' = d /\ i' = i /\ a' = a) by (intros d i a d' i' a' (A & B & Z) (A' & B' & Z'); repeat split; congruence).
  destruct C as [(D & E & _)|[(D & N & E & _)|[(M & N & E & _)|[(M & EV & N & E & _)|(d & i & a & (M & EV & MN) & CN & C)]]]].
  1-4: rewrite E; repeat match goal with |- _ /\ _ => split end; try (split; intro H; first [discriminate H|reflexivity|tauto]).
  all: try (split; [discriminate|]; intros (d & i & a & (Z & Z' & Z'') & _); first [tauto | exfalso; apply N; exists d, i, a; assumption | elim (N Z'')]).
  all: try (intros (d & i & a & (Z & Z' & Z'')); first [tauto | exfalso; apply N; exists d, i, a; assumption | elim (N Z'')]).
  pose proof (RD M) as NDM. assert (EX : exists d0 i0 a0, values_of ev t d0 i0 a0) by (exists d, i, a; exact EV).
  destruct C as [(A & E)|[(A & B & E)|(A & B & E)]]; rewrite E; repeat match goal with |- _ /\ _ => split end; try (split; intro H; first [discriminate H|tauto]); try (intros _; exact CN).
  - split; [intros _; exists d, i, a; auto|reflexivity].
  - split; [discriminate|]. intros (d' & i' & a' & (_ & V' & _) & NA & _). destruct (U _ _ _ _ _ _ EV V') as (-> & -> & ->). contradiction.
  - split; [discriminate|]. intros (d' & i' & a' & (_ & V' & _) & NA). destruct (U _ _ _ _ _ _ EV V') as (-> & -> & ->). contradiction.
  - split; [intros _; exists d, i, a; auto|reflexivity].
  - split; [discriminate|]. intros (d' & i' & a' & (_ & V' & _) & NA). destruct (U _ _ _ _ _ _ EV V') as (-> & -> & ->). contradiction.
  - split; [discriminate|]. intros (d' & i' & a' & (_ & V' & _) & _ & NA). destruct (U _ _ _ _ _ _ EV V') as (-> & -> & ->). contradiction.
Qed.
