(** Proofs about rewriting formulas. *)
Require Import Ascii String List Bool Arith Lia.
Require Import Verif.M_DmsText Verif.M_Text Verif.M_Rewrite Verif.Spec_Rewrite.
Import ListNotations.
Open Scope list_scope.

Lemma space_no_word : forall c, is_space c = true -> word_char c = false.
Proof. intros [[] [] [] [] [] [] [] []]; vm_compute; intro H; congruence. Qed.
Lemma space_no_bracket : forall c, is_space c = true -> Ascii.eqb c "(" = false.
Proof. intros [[] [] [] [] [] [] [] []]; vm_compute; intro H; congruence. Qed.
Lemma space_no_power : forall c, is_space c = true -> c <> "^"%char.
Proof. intros c H ->. discriminate. Qed.
Lemma word_no_power : forall w, Forall (fun c => word_char c = true) w -> powers w = w.
Proof.
  intros w F. induction F as [|c w C F IH]; [reflexivity|]. unfold powers in *. cbn [flat_map]. rewrite IH.
  destruct (Ascii.eqb_spec c "^"); [subst; discriminate|reflexivity].
Qed.
Lemma powers_app : forall a b, powers (a ++ b) = powers a ++ powers b.
Proof. intros. apply flat_map_app. Qed.

(** ** brackets *)
Lemma bracket_some : forall b s, all_space b -> bracket_at (b ++ "("%char :: s) = Some (S (length b)).
Proof.
  intros b s F. induction F as [|c b C F IH]; [reflexivity|]. cbn [bracket_at app]. rewrite (space_no_bracket _ C), C, IH. reflexivity.
Qed.
Lemma bracket_inv : forall s n, bracket_at s = Some n -> exists b r, s = b ++ "("%char :: r /\ all_space b /\ n = S (length b).
Proof.
  induction s as [|c s IH]; intros n H; cbn [bracket_at] in H; [discriminate|]. destruct (Ascii.eqb_spec c "(").
  - injection H as <-. subst. exists [], s. repeat split. constructor.
  - destruct (is_space c) eqn:C; [|discriminate]. destruct (bracket_at s) as [k|]; [|discriminate]. injection H as <-.
    destruct (IH k eq_refl) as (b & r & -> & F & ->). exists (c :: b), r. repeat split. constructor; auto.
Qed.
Lemma bracket_none : forall s, bracket_at s = None <-> ~ opens s.
Proof.
  intro s. split.
  - intros H (b & r & -> & F). rewrite bracket_some in H by auto. discriminate.
  - intro H. destruct (bracket_at s) as [n|] eqn:E; [|reflexivity]. apply bracket_inv in E. destruct E as (b & r & E & F & _).
    elim H. exists b, r. auto.
Qed.
Lemma opens_no_word : forall s, opens s -> ~ starts_word s.
Proof.
  intros s (b & r & -> & F) (c & q & E & C). destruct F as [|d b D F]; cbn in E; injection E as <- _; [discriminate|].
  rewrite (space_no_word _ D) in C. discriminate.
Qed.

(** ** a name at a word *)
Lemma match_word : forall e w x, Forall (fun c => word_char c = true) e -> Forall (fun c => word_char c = true) w -> ~ starts_word x ->
  match_at e (w ++ x) = if list_eq_dec ascii_dec e w then option_map (fun n => length w + n) (bracket_at x) else None.
Proof.
  induction e as [|a e IH]; intros w x E W X.
  - destruct w as [|c w].
    + cbn. destruct (list_eq_dec ascii_dec [] []); [|congruence]. destruct (bracket_at x); reflexivity.
    + destruct (list_eq_dec ascii_dec [] (c :: w)); [congruence|]. cbn [match_at app bracket_at].
      inversion W as [|? ? C W']; subst. destruct (Ascii.eqb_spec c "("); [subst; discriminate|]. destruct (is_space c) eqn:Z; [|reflexivity].
      apply space_no_word in Z. congruence.
  - inversion E as [|? ? A E']; subst. destruct w as [|c w].
    + destruct (list_eq_dec ascii_dec (a :: e) []); [congruence|]. cbn [app]. destruct x as [|c x]; [reflexivity|]. cbn [match_at].
      destruct (Ascii.eqb_spec a c); [|reflexivity]. subst. elim X. exists c, x. auto.
    + inversion W as [|? ? C W']; subst. cbn [match_at app]. destruct (Ascii.eqb_spec a c).
      * subst. rewrite IH by auto. destruct (list_eq_dec ascii_dec e w) as [->|N].
        -- destruct (list_eq_dec ascii_dec (c :: w) (c :: w)); [|congruence]. destruct (bracket_at x); reflexivity.
        -- destruct (list_eq_dec ascii_dec (c :: e) (c :: w)); [congruence|reflexivity].
      * destruct (list_eq_dec ascii_dec (a :: e) (c :: w)); [congruence|reflexivity].
Qed.
Lemma sub_skip : forall e py s i x, sub e py i (length s) (s ++ x) = match rev s with [] => sub e py i 0 x | c :: _ => sub e py (word_char c) 0 x end.
Proof.
  intros e py s. induction s as [|c s IH]; intros i x; [reflexivity|]. cbn [length app sub]. rewrite IH. cbn [rev].
  destruct (rev s); reflexivity.
Qed.
(** between words it does not matter what came before *)
Lemma sub_inside : forall e py i x, a_word e -> ~ starts_word x -> sub e py i 0 x = sub e py false 0 x.
Proof.
  intros e py i x [N F] X. destruct x as [|c x]; [reflexivity|]. destruct i; [|reflexivity]. cbn [sub].
  destruct e as [|a e]; [congruence|]. cbn [match_at]. destruct (Ascii.eqb_spec a c); [|reflexivity]. subst. inversion F; subst.
  elim X. exists c, x. auto.
Qed.
Lemma sub_within : forall e py w x, a_word e -> Forall (fun c => word_char c = true) w -> ~ starts_word x ->
  sub e py true 0 (w ++ x) = w ++ sub e py false 0 x.
Proof.
  intros e py w x E W X. induction W as [|c w C W IH]; cbn [app]; [apply sub_inside; auto|]. cbn [sub]. rewrite C, IH. reflexivity.
Qed.
Lemma sub_other : forall e py c x, a_word e -> word_char c = false -> sub e py false 0 (c :: x) = c :: sub e py false 0 x.
Proof.
  intros e py c x [N F] C. cbn [sub]. destruct e as [|a e]; [congruence|]. cbn [match_at].
  destruct (Ascii.eqb_spec a c); [subst; inversion F; congruence|]. rewrite C. reflexivity.
Qed.
Lemma sub_word : forall e py w x, a_word e -> a_word w -> ~ starts_word x -> ~ (w = e /\ opens x) ->
  sub e py false 0 (w ++ x) = w ++ sub e py false 0 x.
Proof.
  intros e py w x E [N W] X H. pose proof (match_word e w x (proj2 E) W X) as M. destruct w as [|c w]; [congruence|].
  inversion W as [|? ? C W']; subst. cbn [app] in *. cbn [sub]. rewrite M.
  replace (if list_eq_dec ascii_dec e (c :: w) then option_map (fun n => length (c :: w) + n) (bracket_at x) else None) with (@None nat).
  - rewrite C. f_equal. apply sub_within; auto.
  - destruct (list_eq_dec ascii_dec e (c :: w)) as [->|]; [|reflexivity]. replace (bracket_at x) with (@None nat); [reflexivity|].
    symmetry. apply bracket_none. tauto.
Qed.
Lemma sub_call : forall e py b x, a_word e -> all_space b -> sub e py false 0 (e ++ b ++ "("%char :: x) = py ++ "("%char :: sub e py false 0 x.
Proof.
  intros e py b x E B.
  assert (X : ~ starts_word (b ++ "("%char :: x)) by (apply opens_no_word; exists b, x; auto).
  pose proof (match_word e e _ (proj2 E) (proj2 E) X) as M. rewrite bracket_some in M by auto.
  destruct (list_eq_dec ascii_dec e e) as [_|]; [|congruence]. cbn [option_map] in M. destruct e as [|c e]; [destruct E; congruence|].
  assert (L : sub (c :: e) py false 0 ((c :: e) ++ b ++ "("%char :: x) =
    py ++ "("%char :: sub (c :: e) py (word_char c) (pred (length (c :: e) + S (length b))) (e ++ b ++ "("%char :: x)).
  { cbn [app] in M |- *. cbn [sub]. rewrite M. reflexivity. }
  rewrite L. f_equal. f_equal. replace (e ++ b ++ "("%char :: x) with ((e ++ b ++ ["("%char]) ++ x) by (rewrite <- !app_assoc; reflexivity).
  replace (pred (length (c :: e) + S (length b))) with (length (e ++ b ++ ["("%char])) by (rewrite !app_length; cbn; lia).
  rewrite sub_skip. rewrite !rev_app_distr. reflexivity.
Qed.

(** ** one table: as [rewritten], with the power sign as any other character *)
Inductive renamed (T : list (text * text)) : text -> text -> Prop :=
| rn_end : renamed T [] []
| rn_call : forall w py b s t, a_word w -> In (w, py) T -> all_space b -> renamed T s t ->
    renamed T (w ++ b ++ "("%char :: s) (py ++ "("%char :: t)
| rn_word : forall w s t, a_word w -> ~ starts_word s -> ~ (opens s /\ exists py, In (w, py) T) -> renamed T s t ->
    renamed T (w ++ s) (w ++ t)
| rn_other : forall c s t, word_char c = false -> renamed T s t -> renamed T (c :: s) (c :: t).
Definition good (T : list (text * text)) : Prop := Forall (fun p => a_word (fst p) /\ a_word (snd p)) T.

Lemma word_starts : forall w s, a_word w -> starts_word (w ++ s).
Proof. intros w s [N F]. destruct F as [|c w C F]; [congruence|]. exists c, (w ++ s). auto. Qed.
Lemma renamed_other_inv : forall T c s t, word_char c = false -> renamed T (c :: s) t -> exists t', t = c :: t' /\ renamed T s t'.
Proof.
  intros T c s t C H. remember (c :: s) as x eqn:E. destruct H.
  - discriminate.
  - exfalso. destruct (word_starts w (b ++ "("%char :: s0) H) as (d & r & D & K). rewrite E in D. injection D as <- _. congruence.
  - exfalso. destruct (word_starts w s0 H) as (d & r & D & K). rewrite E in D. injection D as <- _. congruence.
  - injection E as -> ->. eauto.
Qed.
Lemma renamed_opens_inv : forall T b s t, all_space b -> renamed T (b ++ "("%char :: s) t -> exists t', t = b ++ "("%char :: t' /\ renamed T s t'.
Proof.
  intros T b s t B. revert t. induction B as [|c b C B IH]; intros t H; cbn [app] in *.
  - apply renamed_other_inv in H; auto.
  - apply renamed_other_inv in H; [|apply space_no_word; auto]. destruct H as (t' & -> & H). destruct (IH _ H) as (t'' & -> & K). eauto.
Qed.
Lemma renamed_starts : forall T s t, good T -> renamed T s t -> starts_word t -> starts_word s.
Proof.
  intros T s t G H S. destruct H.
  - exact S.
  - apply word_starts. auto.
  - apply word_starts. auto.
  - destruct S as (d & r & D & K). injection D as <- _. congruence.
Qed.
Lemma renamed_opens : forall T s t, good T -> renamed T s t -> opens t -> opens s.
Proof.
  intros T s t G H (b & r & E & B). revert s t H E. induction B as [|c b C B IH]; intros s t H E.
  - cbn in E. destruct H.
    + discriminate.
    + exfalso. apply Forall_forall with (x := (w, py)) in G; auto. destruct G as [_ G]. destruct (word_starts py ("("%char :: t) G) as (d & q & D & K).
      cbn in D. rewrite E in D. injection D as <- _. discriminate.
    + exfalso. destruct (word_starts w t H) as (d & q & D & K). rewrite E in D. injection D as <- _. discriminate.
    + injection E as -> ->. exists [], s. split; [reflexivity|constructor].
  - cbn in E. destruct H.
    + discriminate.
    + exfalso. apply Forall_forall with (x := (w, py)) in G; auto. destruct G as [_ G]. destruct (word_starts py ("("%char :: t) G) as (d & q & D & K).
      cbn in D. rewrite E in D. injection D as <- _. rewrite (space_no_word _ C) in K. discriminate.
    + exfalso. destruct (word_starts w t H) as (d & q & D & K). rewrite E in D. injection D as <- _. rewrite (space_no_word _ C) in K. discriminate.
    + injection E as -> ->. destruct (IH s _ H0 eq_refl) as (b' & r' & -> & B'). exists (c :: b'), r'. split; [reflexivity|]. constructor; auto.
Qed.
(** one more function *)
Lemma renamed_sub : forall T e py, good T -> a_word e -> (forall w p, In (w, p) T -> p <> e) ->
  forall s t, renamed T s t -> renamed (T ++ [(e, py)]) s (sub e py false 0 t).
Proof.
  intros T e py G E D s t H. induction H.
  - constructor.
  - pose proof G as G'. apply Forall_forall with (x := (w, py0)) in G'; auto. destruct G' as [_ P].
    rewrite sub_word; auto.
    + rewrite sub_other by auto. apply rn_call; auto. apply in_or_app. auto.
    + apply opens_no_word. exists [], t. split; [reflexivity|constructor].
    + intros [Q _]. exact (D _ _ H0 Q).
  - assert (X : ~ starts_word t) by (intro K; apply H0; eapply renamed_starts; eauto).
    destruct (Classical_Prop.classic (w = e /\ opens t)) as [[-> O]|N].
    + destruct (renamed_opens _ _ _ G H2 O) as (b & r & -> & B).
      destruct (renamed_opens_inv _ _ _ _ B H2) as (t' & -> & H3).
      rewrite sub_call by auto. destruct (renamed_opens_inv _ _ _ _ B IHrenamed) as (u & U & V).
      apply rn_call; auto; [apply in_or_app; right; left; reflexivity|].
      assert (Q : sub e py false 0 (b ++ "("%char :: t') = b ++ "("%char :: sub e py false 0 t').
      { clear - B E. induction B as [|c b C B IH]; cbn [app]; rewrite sub_other; auto; [rewrite IH; reflexivity|apply space_no_word; auto]. }
      rewrite Q in U. apply app_inv_head in U. injection U as ->. exact V.
    + rewrite sub_word by auto. apply rn_word; auto. intros [O (p & I)]. apply in_app_or in I. destruct I as [I|[I|[]]].
      * apply H1. split; [exact O|]. eauto.
      * injection I as <- <-. apply N. split; [reflexivity|]. destruct O as (b & r & -> & B).
        destruct (renamed_opens_inv _ _ _ _ B H2) as (t' & -> & _). exists b, t'. auto.
  - rewrite sub_other by auto. apply rn_other; auto.
Qed.
(** words *)
Lemma span_word : forall s, exists w r, s = w ++ r /\ Forall (fun c => word_char c = true) w /\ ~ starts_word r.
Proof.
  induction s as [|c s (w & r & -> & W & R)].
  - exists [], []. repeat split; [constructor|]. intros (c & r & E & _). discriminate.
  - destruct (word_char c) eqn:C.
    + exists (c :: w), r. repeat split; auto.
    + exists [], (c :: w ++ r). repeat split; [constructor|]. intros (d & q & E & K). injection E as <- _. congruence.
Qed.
Lemma renamed_nothing : forall s, renamed [] s s.
Proof.
  intro s. remember (length s) as n eqn:L. assert (L' : length s <= n) by lia. clear L. revert s L'.
  induction n as [|n IH]; intros s L; [destruct s; [constructor|cbn in L; lia]|].
  destruct (span_word s) as (w & r & -> & W & R). destruct w as [|c w].
  - cbn [app]. destruct r as [|c r]; [constructor|]. cbn in L. apply rn_other; [|apply IH; lia].
    destruct (word_char c) eqn:C; [|reflexivity]. elim R. exists c, r. auto.
  - apply rn_word; auto; [split; [discriminate|auto]|intros [_ (p & [])]|]. apply IH. rewrite app_length in L. cbn in L. lia.
Qed.
Lemma renamed_fold : forall l T s t, good T -> Forall (fun p => a_word (fst p) /\ a_word (snd p)) l ->
  (forall w p w' p', In (w, p) (T ++ l) -> In (w', p') (T ++ l) -> p <> w') -> renamed T s t ->
  renamed (T ++ l) s (fold_left (fun s p => sub (fst p) (snd p) false 0 s) l t).
Proof.
  induction l as [|[e py] l IH]; intros T s t G F D H; [rewrite app_nil_r; exact H|]. inversion F as [|? ? [E P] F']; subst. cbn [fold_left fst snd] in *.
  replace (T ++ (e, py) :: l) with ((T ++ [(e, py)]) ++ l) in * by (rewrite <- app_assoc; reflexivity). apply IH; auto.
  - apply Forall_app. split; auto.
  - apply renamed_sub; auto. intros w p I. apply (D w p e py); apply in_or_app; left; apply in_or_app; [left; exact I|right; left; reflexivity].
Qed.
Lemma renamed_powers : forall T s t, good T -> renamed T s t -> rewritten T s (powers t).
Proof.
  intros T s t G H. induction H.
  - constructor.
  - apply Forall_forall with (x := (w, py)) in G; auto. destruct G as [_ [_ P]]. cbn [snd] in P. rewrite powers_app, (word_no_power _ P). cbn. apply rw_call; auto.
  - rewrite powers_app, word_no_power by apply H. apply rw_word; auto.
  - unfold powers. cbn [flat_map]. destruct (Ascii.eqb_spec c "^").
    + subst. apply rw_power. exact IHrenamed.
    + apply rw_other; auto.
Qed.
Definition wordb (w : text) : bool := match w with [] => false | _ => forallb word_char w end.
Lemma wordb_ok : forall w, wordb w = true -> a_word w.
Proof.
  intros [|c w] H; [discriminate|]. split; [discriminate|]. apply Forall_forall. apply forallb_forall. exact H.
Qed.
Lemma functions_good : good functions.
Proof. unfold good, functions. repeat constructor; apply wordb_ok; reflexivity. Qed.
Lemma functions_apart : forall w p w' p', In (w, p) functions -> In (w', p') functions -> p <> w'.
Proof.
  assert (B : forallb (fun a => forallb (fun b => negb (text_eqb (snd a) (fst b))) functions) functions = true) by reflexivity.
  intros w p w' p' I J E. rewrite forallb_forall in B. specialize (B _ I). cbv beta in B. rewrite forallb_forall in B. specialize (B _ J). cbn [fst snd] in B.
  subst. unfold text_eqb in B. destruct (list_eq_dec ascii_dec w' w'); [discriminate|congruence].
Qed.
Lemma rewrite_does : forall s, rewritten functions s (rewrite_excel s).
Proof.
  intro s. apply renamed_powers; [apply functions_good|].
  apply (renamed_fold functions [] s s); [constructor|apply functions_good|exact functions_apart|apply renamed_nothing].
Qed.

(** ** only one result *)
Lemma word_unique : forall w w' x x', Forall (fun c => word_char c = true) w -> Forall (fun c => word_char c = true) w' ->
  ~ starts_word x -> ~ starts_word x' -> w ++ x = w' ++ x' -> w = w' /\ x = x'.
Proof.
  intros w w' x x' W. revert w'. induction W as [|c w C W IH]; intros w' W' X X' E; destruct W' as [|d w' D W']; cbn in E.
  - auto.
  - exfalso. apply X. exists d, (w' ++ x'). auto.
  - exfalso. apply X'. exists c, (w ++ x). auto.
  - injection E as <- E. destruct (IH w' W' X X' E) as [-> ->]. auto.
Qed.
Lemma blanks_unique : forall b b' s s', all_space b -> all_space b' -> b ++ "("%char :: s = b' ++ "("%char :: s' -> s = s'.
Proof.
  intros b b' s s' B. revert b'. induction B as [|c b C B IH]; intros b' B' E; destruct B' as [|d b' D B']; cbn in E.
  - congruence.
  - injection E as <- _. discriminate.
  - injection E as -> _. discriminate.
  - injection E as _ E. eauto.
Qed.
Lemma no_word_bracket : forall b s, all_space b -> ~ starts_word (b ++ "("%char :: s).
Proof. intros b s B. apply opens_no_word. exists b, s. auto. Qed.
Lemma rewritten_unique : forall T, (forall w p p', In (w, p) T -> In (w, p') T -> p = p') ->
  forall s t t', rewritten T s t -> rewritten T s t' -> t = t'.
Proof.
  intros T K s t t' H. revert t'. induction H; intros t' H'.
  - inversion H' as [|? ? ? ? ? W|? ? ? W| |]; auto; destruct W as [W _]; destruct w; [congruence|discriminate|congruence|discriminate].
  - remember (w ++ b ++ "("%char :: s) as x eqn:E. destruct H'.
    + destruct H as [H _]. destruct w; [congruence|discriminate].
    + destruct (word_unique w0 w _ _ (proj2 H3) (proj2 H) (no_word_bracket _ _ H5) (no_word_bracket _ _ H1) E) as [-> Q].
      apply blanks_unique in Q; auto. subst s0. rewrite (K w py0 py); auto. rewrite (IHrewritten t0); auto.
    + destruct (word_unique w0 w _ _ (proj2 H3) (proj2 H) H4 (no_word_bracket _ _ H1) E) as [-> ->].
      elim H5. split; [exists b, s; auto|eauto].
    + destruct (word_starts w (b ++ "("%char :: s) H) as (d & r & D & C). rewrite <- E in D. injection D as <- _. discriminate.
    + destruct (word_starts w (b ++ "("%char :: s) H) as (d & r & D & C). rewrite <- E in D. injection D as <- _. congruence.
  - remember (w ++ s) as x eqn:E. destruct H'.
    + destruct H as [H _]. destruct w; [congruence|discriminate].
    + destruct (word_unique w0 w _ _ (proj2 H3) (proj2 H) (no_word_bracket _ _ H5) H0 E) as [-> <-].
      elim H1. split; [exists b, s0; auto|eauto].
    + destruct (word_unique w0 w _ _ (proj2 H3) (proj2 H) H4 H0 E) as [-> ->]. rewrite (IHrewritten t0); auto.
    + destruct (word_starts w s H) as (d & r & D & C). rewrite <- E in D. injection D as <- _. discriminate.
    + destruct (word_starts w s H) as (d & r & D & C). rewrite <- E in D. injection D as <- _. congruence.
  - remember ("^"%char :: s) as x eqn:E. destruct H'.
    + discriminate.
    + destruct (word_starts w (b ++ "("%char :: s0) H0) as (d & r & D & C). rewrite E in D. injection D as <- _. discriminate.
    + destruct (word_starts w s0 H0) as (d & r & D & C). rewrite E in D. injection D as <- _. discriminate.
    + injection E as ->. rewrite (IHrewritten t0); auto.
    + congruence.
  - remember (c :: s) as x eqn:E. destruct H'.
    + discriminate.
    + destruct (word_starts w (b ++ "("%char :: s0) H2) as (d & r & D & C). rewrite E in D. injection D as <- _. congruence.
    + destruct (word_starts w s0 H2) as (d & r & D & C). rewrite E in D. injection D as <- _. congruence.
    + congruence.
    + injection E as -> ->. rewrite (IHrewritten t0); auto.
Qed.
Lemma functions_keys : forall w p p', In (w, p) functions -> In (w, p') functions -> p = p'.
Proof.
  assert (B : forallb (fun a => forallb (fun b => (negb (text_eqb (fst a) (fst b)) || text_eqb (snd a) (snd b))%bool) functions) functions = true) by reflexivity.
  intros w p p' I J. rewrite forallb_forall in B. specialize (B _ I). cbv beta in B. rewrite forallb_forall in B. specialize (B _ J). cbn [fst snd] in B.
  unfold text_eqb in B. destruct (list_eq_dec ascii_dec w w); [|congruence]. destruct (list_eq_dec ascii_dec p p'); [auto|discriminate].
Qed.
(** the formula given to Python is the rewritten one *)
Lemma rewrite_exactly : forall s t, rewrite_excel s = t <-> rewritten functions s t.
Proof.
  intros s t. split; [intros <-; apply rewrite_does|]. intro H. eapply rewritten_unique; eauto using functions_keys, rewrite_does.
Qed.
(** no power sign is left *)
Lemma no_power_left : forall s, ~ In "^"%char (rewrite_excel s).
Proof.
  intro s. unfold rewrite_excel, powers. intro I. apply in_flat_map in I. destruct I as (c & _ & I).
  destruct (Ascii.eqb_spec c "^"); [destruct I as [I|[I|[]]]; discriminate|destruct I as [I|[]]; congruence].
Qed.
(** rewriting the result changes nothing *)
Lemma rewritten_fixed : forall T s t, good T -> (forall w p w' p', In (w, p) T -> In (w', p') T -> p <> w') ->
  rewritten T s t -> rewritten T t t /\ (starts_word t -> starts_word s) /\ (opens t -> opens s).
Proof.
  intros T s t G D H. induction H.
  - split; [constructor|]. auto.
  - pose proof G as G'. apply Forall_forall with (x := (w, py)) in G'; auto. destruct G' as [_ P]. cbn [snd] in P.
    destruct IHrewritten as (R & _ & _). split; [|split].
    + apply rw_word; auto.
      * apply (no_word_bracket [] t). constructor.
      * intros [_ (p & I)]. exact (D _ _ _ _ H0 I eq_refl).
      * apply rw_other; auto. discriminate.
    + intros _. apply word_starts. auto.
    + intro O. exfalso. revert O. intro O. apply opens_no_word in O. apply O. apply word_starts. auto.
  - destruct IHrewritten as (R & S & O). split; [|split].
    + apply rw_word; auto. intros [Q E]. apply H1. auto.
    + intros _. apply word_starts. auto.
    + intro Q. exfalso. apply opens_no_word in Q. apply Q. apply word_starts. auto.
  - destruct IHrewritten as (R & S & O). split; [|split].
    + apply rw_other; [reflexivity|discriminate|]. apply rw_other; [reflexivity|discriminate|auto].
    + intros (d & r & E & C). injection E as <- _. discriminate.
    + intros (b & r & E & B). exfalso. destruct B as [|d b C B]; [discriminate|]. injection E as <- _. discriminate.
  - destruct IHrewritten as (R & S & O). split; [|split].
    + apply rw_other; auto.
    + intros (d & r & E & C). injection E as <- _. congruence.
    + intros (b & r & E & B). destruct B as [|d b C B]; cbn in E; injection E as -> E.
      * exists [], s. split; [reflexivity|constructor].
      * destruct O as (b' & r' & -> & B'); [exists b, r; auto|]. exists (d :: b'), r'. split; [reflexivity|constructor; auto].
Qed.
Lemma rewrite_twice : forall s, rewrite_excel (rewrite_excel s) = rewrite_excel s.
Proof.
  intro s. apply rewrite_exactly. apply (rewritten_fixed functions s); auto using functions_good, rewrite_does. apply functions_apart.
Qed.
Lemma rewrite_sample : rewrite_excel (lit "Sin (Inc)^2*MinInc(x)+Sqr(1)") = lit "sin(Inc)**2*MinInc(x)+sqrt(1)".
Proof. reflexivity. Qed.
(** names are known in one spelling only *)
Lemma upper_case_kept : rewrite_excel (lit "SIN(Inc)+MAX(1,2)") = lit "SIN(Inc)+MAX(1,2)".
Proof. reflexivity. Qed.
(** the characters of words and the blanks, by name and by code *)
Lemma word_chars : forall c, word_char c = true <->
  In c (lit "ABCDEFGHIJKLMNOPQRSTUVWXYZabcdefghijklmnopqrstuvwxyz0123456789_") \/
  In (nat_of_ascii c) ([170; 178; 179; 181; 185; 186; 188; 189; 190] ++ seq 192 23 ++ seq 216 31 ++ seq 248 8).
Proof.
  intros c.
  assert (X : (existsb (Ascii.eqb c) (lit "ABCDEFGHIJKLMNOPQRSTUVWXYZabcdefghijklmnopqrstuvwxyz0123456789_")
    || existsb (Nat.eqb (nat_of_ascii c)) ([170; 178; 179; 181; 185; 186; 188; 189; 190] ++ seq 192 23 ++ seq 216 31 ++ seq 248 8))%bool = word_char c).
  { destruct c as [[] [] [] [] [] [] [] []]; vm_compute; reflexivity. }
  rewrite <- X, orb_true_iff, !existsb_exists. split; intros [H|H]; [left|right|left|right].
  - destruct H as (y & I & E). apply Ascii.eqb_eq in E. subst. exact I.
  - destruct H as (y & I & E). apply Nat.eqb_eq in E. subst. exact I.
  - exists c. split; [exact H|apply Ascii.eqb_refl].
  - eexists. split; [exact H|apply Nat.eqb_refl].
Qed.
Lemma blank_chars : forall c, is_space c = true <-> In (nat_of_ascii c) [9; 10; 11; 12; 13; 28; 29; 30; 31; 32; 133; 160].
Proof.
  intros c.
  assert (X : existsb (Nat.eqb (nat_of_ascii c)) [9; 10; 11; 12; 13; 28; 29; 30; 31; 32; 133; 160] = is_space c).
  { destruct c as [[] [] [] [] [] [] [] []]; vm_compute; reflexivity. }
  rewrite <- X, existsb_exists. split.
  - intros (y & I & E). apply Nat.eqb_eq in E. subst. exact I.
  - intros H. eexists. split; [exact H|apply Nat.eqb_refl].
Qed.
