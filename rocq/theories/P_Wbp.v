(** Reading .wbp files: blocks, plans, blank lines. *)
Require Import Reals ZArith Ascii String List Bool Lia Lra.
Require Import Verif.Base Verif.M_Text Verif.Spec_Text Verif.P_Text Verif.M_Wbp Verif.Spec_Wbp.
Import ListNotations.
Open Scope list_scope.
Local Open Scope nat_scope.

Lemma text_eqb_eq : forall a b, text_eqb a b = true <-> a = b.
Proof. intros. unfold text_eqb. destruct (list_eq_dec ascii_dec a b); split; congruence. Qed.
Lemma text_eqb_refl : forall a, text_eqb a a = true.
Proof. intros. apply text_eqb_eq. reflexivity. Qed.
Lemma begins_word : forall l w l0 ws, words l = l0 :: ws -> (begins l w <-> is_word w l0 = true).
Proof.
  intros l w l0 ws E. unfold begins, is_word. rewrite text_eqb_eq. split.
  - intros (v & F). congruence.
  - intros ->. eauto.
Qed.
Lemma ob_some : forall {A B : Type} (o : option A) (f : A -> option B) b, ob o f = Some b -> exists a, o = Some a /\ f a = Some b.
Proof. intros A B [a|] f b H; [eauto|discriminate]. Qed.
Ltac inv H := apply ob_some in H; let a := fresh "v" in let E := fresh "E" in destruct H as (a & E & H).

Lemma is_word_first : forall a s c w, Ascii.eqb a c = false -> is_word (String a s) (c :: w) = false.
Proof.
  intros a s c w N. unfold is_word, text_eqb. destruct (list_eq_dec ascii_dec (c :: w) (lit (String a s))) as [E|]; [|reflexivity].
  cbn in E. injection E as -> _. rewrite Ascii.eqb_refl in N. discriminate.
Qed.
Lemma is_word_second : forall a b s c d w, Ascii.eqb b d = false -> is_word (String a (String b s)) (c :: d :: w) = false.
Proof.
  intros a b s c d w N. unfold is_word, text_eqb. destruct (list_eq_dec ascii_dec (c :: d :: w) (lit (String a (String b s)))) as [E|]; [|reflexivity].
  cbn in E. injection E as _ -> _. rewrite Ascii.eqb_refl in N. discriminate.
Qed.
(** ** flags *)
Definition next_flag (f : flag) (l : text) (l0 : text) : flag :=
  if is_word "!" l0 then f
  else if is_word "DEPTH" l0 then NoFlag
  else if is_word "TARGETS:" l0 then Targets
  else if is_word "WELLPLANS:" l0 then Wellplans
  else match f with Targets => Targets | _ => if plan_line l then Done else f end.
Lemma plan_line_head : forall l f fs, split_on colon l = f :: fs -> plan_line l = is_word "W" f.
Proof. intros l f fs E. unfold plan_line, is_word. rewrite E. reflexivity. Qed.
Lemma line_flag : forall rd p c l p' c', read_line rd p c l = Some (Next p' c') ->
  exists l0 ws, words l = l0 :: ws /\ p_flag p' = next_flag (p_flag p) l l0.
Proof.
  intros rd p c l p' c' H. unfold read_line in H. destruct (words l) as [|l0 lr]; [discriminate|]. exists l0, lr. split; [reflexivity|].
  destruct (split_nonempty colon l) as (m0 & fs & Sp). unfold next_flag. rewrite (plan_line_head _ _ _ Sp). rewrite Sp in H.
  destruct (is_word "!" l0); [injection H as <- <-; reflexivity|].
  destruct (is_word "DEPTH" l0).
  { destruct lr as [|[|k [|]] ?]; try discriminate. inv H. destruct v. injection H as <- <-. reflexivity. }
  destruct (is_word "TARGETS:" l0); [injection H as <- <-; reflexivity|].
  destruct (is_word "WELLPLANS:" l0); [injection H as <- <-; reflexivity|].
  destruct (p_flag p) eqn:F.
  all: try (destruct (is_word "W" m0); [first [discriminate|inv H; injection H as <- <-; reflexivity]|];
    destruct (is_word "P" m0); [inv H; injection H as <- <-; exact F|];
    destruct (is_word "L" m0); [inv H; inv H; inv H; injection H as <- <-; exact F|];
    destruct (is_word "X" m0); [inv H; injection H as <- <-; exact F|];
    destruct (is_word "S" m0); [destruct lr as [|? [|? [|? [|]]]]; try discriminate; inv H; inv H; inv H; inv H; injection H as <- <-; exact F|];
    injection H as <- <-; exact F).
  destruct (is_word "T" m0); [inv H; injection H as <- <-; exact F|].
  destruct (is_word "L" m0); [inv H; inv H; inv H; injection H as <- <-; exact F|].
  destruct (is_word "C" m0); [destruct (p_targets p); [discriminate|]; inv H; injection H as <- <-; exact F|].
  destruct (is_word "G" m0); [discriminate|]. injection H as <- <-. exact F.
Qed.
Lemma line_stop : forall rd p c l, read_line rd p c l = Some Stop -> p_flag p = Done /\ plan_line l = true.
Proof.
  intros rd p c l H. unfold read_line in H. destruct (words l) as [|l0 lr]; [discriminate|].
  destruct (split_nonempty colon l) as (m0 & fs & Sp). rewrite (plan_line_head _ _ _ Sp). rewrite Sp in H.
  destruct (is_word "!" l0); [discriminate|].
  destruct (is_word "DEPTH" l0). { destruct lr as [|[|k [|]] ?]; try discriminate. inv H. destruct v. discriminate. }
  destruct (is_word "TARGETS:" l0); [discriminate|]. destruct (is_word "WELLPLANS:" l0); [discriminate|].
  destruct (p_flag p) eqn:F.
  2: { destruct (is_word "T" m0); [inv H; discriminate|].
       destruct (is_word "L" m0); [inv H; inv H; inv H; discriminate|].
       destruct (is_word "C" m0); [destruct (p_targets p); [discriminate|]; inv H; discriminate|].
       destruct (is_word "G" m0); discriminate. }
  all: (destruct (is_word "W" m0) eqn:W; [first [solve [auto]|inv H; discriminate]|];
    destruct (is_word "P" m0); [inv H; discriminate|];
    destruct (is_word "L" m0); [inv H; inv H; inv H; discriminate|];
    destruct (is_word "X" m0); [inv H; discriminate|];
    destruct (is_word "S" m0); [destruct lr as [|? [|? [|? [|]]]]; try discriminate; inv H; inv H; inv H; inv H; discriminate|];
    discriminate).
Qed.
Lemma first_line : forall rd d s c l, read_line rd (fresh d s) c l <> Some Stop.
Proof. intros rd d s c l H. apply line_stop in H. destruct H. discriminate. Qed.

(** ** blocks *)
Lemma read_plan_split : forall rd lines p c p' c' rest, read_plan rd p c lines = Some (p', c', rest) ->
  exists b, lines = b ++ rest /\ read_plan rd p c b = Some (p', c', []) /\
    match rest with [] => True | l :: _ => p_flag p' = Done /\ plan_line l = true end.
Proof.
  intros rd lines. induction lines as [|l r IH]; intros p c p' c' rest H; cbn in H.
  - injection H as <- <- <-. exists []. auto.
  - inv H. destruct v as [q d|].
    + destruct (IH _ _ _ _ _ H) as (b & -> & R & T). exists (l :: b). split; [reflexivity|]. split; [|exact T].
      cbn. rewrite E. exact R.
    + injection H as <- <- <-. exists []. split; [reflexivity|]. split; [reflexivity|]. eapply line_stop; eauto.
Qed.
Lemma read_plan_consumes : forall rd lines d s c p' c' rest, lines <> [] ->
  read_plan rd (fresh d s) c lines = Some (p', c', rest) -> length rest < length lines.
Proof.
  intros rd [|l r] d s c p' c' rest N H; [congruence|]. cbn in H. inv H. destruct v as [q e|].
  - apply read_plan_split in H. destruct H as (b & -> & _). cbn. rewrite app_length. lia.
  - exfalso. eapply first_line; eauto.
Qed.
Lemma loop_terminates : forall fuel rd d s c lines, length lines < fuel -> load_loop fuel rd d s c lines <> OutOfFuel.
Proof.
  induction fuel as [|n IH]; intros rd d s c lines F; [lia|]. cbn.
  destruct (read_plan rd (fresh d s) c lines) as [[[p c'] [|l r]]|] eqn:E; try discriminate.
  assert (N : lines <> []) by (intros ->; cbn in E; discriminate).
  pose proof (read_plan_consumes _ _ _ _ _ _ _ _ N E). specialize (IH rd (p_depth p) (p_surface p) c' (l :: r) ltac:(lia)).
  destruct (load_loop n rd (p_depth p) (p_surface p) c' (l :: r)); congruence.
Qed.
Lemma loop_mono : forall fuel rd d s c lines fuel', load_loop fuel rd d s c lines <> OutOfFuel -> fuel <= fuel' ->
  load_loop fuel' rd d s c lines = load_loop fuel rd d s c lines.
Proof.
  induction fuel as [|n IH]; intros rd d s c lines fuel' H F; [cbn in H; congruence|]. destruct fuel' as [|n']; [lia|]. cbn in *.
  destruct (read_plan rd (fresh d s) c lines) as [[[p c'] [|l r]]|]; auto.
  rewrite (IH _ _ _ _ _ n'); [reflexivity| |lia].
  destruct (load_loop n rd (p_depth p) (p_surface p) c' (l :: r)); congruence.
Qed.
Theorem load_ends : forall rd c lines fuel, length lines < fuel ->
  load fuel rd c lines <> OutOfFuel /\ load fuel rd c lines = load (S (length lines)) rd c lines.
Proof.
  intros rd c lines fuel F. unfold load. assert (T : length (map rstrip lines) < S (length lines)) by (rewrite map_length; lia).
  pose proof (loop_terminates _ rd None None c _ T) as N. rewrite (loop_mono _ _ _ _ _ _ fuel N) by lia. auto.
Qed.
Lemma loop_blocks : forall fuel rd d s c lines ps c', load_loop fuel rd d s c lines = Plans ps c' ->
  exists b bs, concat (b :: bs) = lines /\ (lines <> [] -> b <> []) /\ length (b :: bs) = length ps /\
    read_blocks rd d s c (b :: bs) ps c' /\
    Forall (fun b' => exists l r, b' = l :: r /\ plan_line l = true) bs.
Proof.
  induction fuel as [|n IH]; intros rd d s c lines ps c' H; [discriminate|]. cbn in H.
  destruct (read_plan rd (fresh d s) c lines) as [[[p c1] [|l r]]|] eqn:E; [| |discriminate].
  - injection H as <- <-. exists lines, []. split; [cbn; apply app_nil_r|]. split; [auto|]. split; [reflexivity|]. split; [|constructor].
    constructor. cbn. rewrite E. reflexivity.
  - destruct (load_loop n rd (p_depth p) (p_surface p) c1 (l :: r)) as [qs c2| |] eqn:L; try discriminate. injection H as <- <-.
    assert (Nl : lines <> []) by (intros ->; cbn in E; discriminate).
    pose proof (read_plan_consumes _ _ _ _ _ _ _ _ Nl E) as Sh.
    apply read_plan_split in E. destruct E as (b & -> & R & _ & W).
    destruct (IH _ _ _ _ _ _ _ L) as (b' & bs & Cc & Ne & Len & Rb & Hd). exists b, (b' :: bs).
    split; [cbn [concat] in *; congruence|]. split; [intros _ ->; cbn in Sh; lia|]. split; [cbn in *; congruence|]. split.
    + econstructor; [|exact Rb]. cbn. rewrite R. reflexivity.
    + constructor; [|exact Hd]. specialize (Ne ltac:(discriminate)). destruct b' as [|x b']; [congruence|].
      cbn in Cc. injection Cc as -> _. eauto.
Qed.
Theorem load_blocks : forall rd c lines fuel ps c', load fuel rd c lines = Plans ps c' ->
  exists first more, concat (first :: more) = map rstrip lines /\ length (first :: more) = length ps /\
    read_blocks rd None None c (first :: more) ps c' /\
    Forall (fun b => exists l r, b = l :: r /\ plan_line l = true) more.
Proof.
  intros rd c lines fuel ps c' H. destruct (loop_blocks _ _ _ _ _ _ _ _ H) as (b & bs & A & _ & B & C & D). exists b, bs. auto.
Qed.

(** ** blank lines *)
Lemma line_blank : forall rd p c l, blank l -> read_line rd p c l = None.
Proof. intros rd p c l B. unfold read_line. rewrite B. reflexivity. Qed.
Lemma loop_blank : forall fuel rd d s c lines l, In l lines -> blank l -> length lines < fuel ->
  load_loop fuel rd d s c lines = Raised.
Proof.
  induction fuel as [|n IH]; intros rd d s c lines l I B F; [lia|]. cbn.
  destruct (read_plan rd (fresh d s) c lines) as [[[p c'] rest]|] eqn:E; [|reflexivity].
  assert (N : lines <> []) by (intros ->; destruct I).
  pose proof (read_plan_consumes _ _ _ _ _ _ _ _ N E) as Sh.
  apply read_plan_split in E. destruct E as (b & -> & R & _).
  assert (Nb : ~ In l b).
  { intro J. revert R J. generalize (fresh d s). clear - B. revert c. induction b as [|x b IH]; intros c q R J; [destruct J|]. cbn in R. inv R.
    destruct J as [->|J]; [rewrite line_blank in E by auto; discriminate|]. destruct v; [eauto|discriminate]. }
  apply in_app_or in I. destruct I as [I|I]; [contradiction|]. destruct rest as [|x rest]; [destruct I|].
  rewrite (IH _ _ _ _ _ l) by (auto; lia). reflexivity.
Qed.
Theorem load_blank : forall rd c lines l fuel, In l lines -> blank l -> length lines < fuel -> load fuel rd c lines = Raised.
Proof.
  intros rd c lines l fuel I B F. unfold load. apply (loop_blank fuel rd None None c _ (rstrip l)).
  - apply in_map. auto.
  - unfold blank. rewrite words_rstrip. exact B.
  - rewrite map_length. auto.
Qed.

(** ** one plan per header *)
Lemma plan_line_word : forall l l0 ws, plan_line l = true -> words l = l0 :: ws -> exists w, l0 = "W"%char :: w.
Proof.
  intros l l0 ws P W. unfold plan_line in P. destruct (split_nonempty colon l) as (f & fs & E). rewrite E in P. apply text_eqb_eq in P. subst f.
  change (lit "W") with ["W"%char] in E. destruct l as [|a l]; [discriminate|]. cbn [split_on] in E. destruct (Ascii.eqb a colon); [discriminate|].
  destruct (split_nonempty colon l) as (g & gs & E'). rewrite E' in E. injection E as -> _ _.
  rewrite words_cons in W by reflexivity. destruct l as [|e l]; [injection W as <- <-; eauto|].
  destruct (is_space e); [injection W as <- <-; eauto|]. destruct (words (e :: l)); injection W as <- <-; eauto.
Qed.
Lemma flag_other : forall f l l0 ws, words l = l0 :: ws -> ~ section_line l ->
  next_flag f l l0 = match f with Targets => Targets | _ => if plan_line l then Done else f end.
Proof.
  intros f l l0 ws W N. unfold next_flag. unfold section_line in N. rewrite !(begins_word _ _ _ _ W) in N.
  destruct (is_word "!" l0) eqn:B.
  - destruct (plan_line l) eqn:P; [|destruct f; reflexivity]. destruct (plan_line_word _ _ _ P W) as (w & ->). discriminate.
  - destruct (is_word "DEPTH" l0); [tauto|]. destruct (is_word "TARGETS:" l0); [tauto|]. destruct (is_word "WELLPLANS:" l0); [tauto|]. reflexivity.
Qed.
Definition count_plans (ls : list text) : nat := length (filter plan_line ls).
Lemma done_stops : forall rd lines p c p' c' rest, p_flag p = Done -> Forall (fun l => ~ section_line l) lines ->
  read_plan rd p c lines = Some (p', c', rest) ->
  exists b, lines = b ++ rest /\ Forall (fun l => plan_line l = false) b /\ match rest with [] => True | l :: _ => plan_line l = true end.
Proof.
  intros rd lines. induction lines as [|l r IH]; intros p c p' c' rest D F H; cbn in H.
  - injection H as <- <- <-. exists []. auto.
  - inv H. inversion F; subst. destruct v as [q e|].
    + destruct (line_flag _ _ _ _ _ _ E) as (l0 & ws & W & Fl). rewrite D, (flag_other _ _ _ _ W) in Fl by auto.
      assert (P : plan_line l = false).
      { destruct (plan_line l) eqn:P; [|reflexivity]. exfalso. unfold read_line in E. rewrite W in E.
        destruct (plan_line_word _ _ _ P W) as (w & ->). destruct (split_nonempty colon l) as (f & fs & Sp).
        rewrite (plan_line_head _ _ _ Sp) in P. rewrite Sp, D, P in E. rewrite !is_word_first in E by reflexivity.
        unfold section_line in H2. rewrite !(begins_word _ _ _ _ W) in H2. destruct (is_word "WELLPLANS:" ("W"%char :: w)); [tauto|discriminate]. }
      rewrite P in Fl. destruct (IH _ _ _ _ _ Fl H3 H) as (b & -> & Fb & R). exists (l :: b). auto.
    + injection H as <- <- <-. exists []. split; [reflexivity|]. split; [constructor|]. eapply line_stop; eauto.
Qed.
Lemma filter_none : forall (b : list text), Forall (fun l => plan_line l = false) b -> filter plan_line b = [].
Proof. intros b F. induction F as [|x b E F IH]; [reflexivity|]. cbn. rewrite E. exact IH. Qed.
Lemma plans_counted : forall fuel rd d s c w rest ps c', plan_line w = true -> Forall (fun l => ~ section_line l) (w :: rest) ->
  load_loop fuel rd d s c (w :: rest) = Plans ps c' -> length ps = S (count_plans rest).
Proof.
  induction fuel as [|n IH]; intros rd d s c w rest ps c' P F H; [discriminate|]. cbn in H.
  destruct (ob (read_line rd (fresh d s) c w) _) as [[[p c1] rs]|] eqn:E; [|discriminate].
  inv E. destruct v as [q e|]; [|exfalso; eapply first_line; eauto]. inversion F; subst.
  destruct (line_flag _ _ _ _ _ _ E0) as (l0 & ws & W & Fl). rewrite (flag_other _ _ _ _ W) in Fl by auto. cbn in Fl. rewrite P in Fl.
  destruct (done_stops _ _ _ _ _ _ _ Fl H3 E) as (b & -> & Fb & R).
  unfold count_plans. rewrite filter_app, (filter_none b Fb). cbn [app].
  destruct rs as [|w' rs]; [injection H as <- <-; reflexivity|].
  destruct (load_loop n rd (p_depth p) (p_surface p) c1 (w' :: rs)) as [qs c2| |] eqn:L; try discriminate. injection H as <- <-.
  apply Forall_app in H3. destruct H3 as [_ H3]. rewrite <- (IH _ _ _ _ _ _ _ _ R H3 L) || (cbn [length]; f_equal; rewrite (IH _ _ _ _ _ _ _ _ R H3 L); cbn; rewrite R; reflexivity).
Qed.
Lemma front_read : forall rd front p c w rest, p_flag p <> Done -> Forall (fun l => plan_line l = false) front ->
  forall r, read_plan rd p c (front ++ w :: rest) = Some r ->
  exists q e, read_plan rd p c front = Some (q, e, []) /\ read_plan rd q e (w :: rest) = Some r /\ p_flag q <> Done.
Proof.
  intros rd front. induction front as [|l front IH]; intros p c w rest D F r H.
  - exists p, c. auto.
  - cbn in H. inv H. inversion F; subst. destruct v as [q e|].
    + destruct (line_flag _ _ _ _ _ _ E) as (l0 & ws & W & Fl).
      assert (D' : p_flag q <> Done).
      { rewrite Fl. unfold next_flag. rewrite H2. destruct (is_word "!" l0); auto. destruct (is_word "DEPTH" l0); [discriminate|].
        destruct (is_word "TARGETS:" l0); [discriminate|]. destruct (is_word "WELLPLANS:" l0); [discriminate|]. destruct (p_flag p); congruence. }
      destruct (IH q e w rest D' H3 r H) as (q' & e' & R1 & R2 & D2). exists q', e'. split; [|auto]. cbn. rewrite E. exact R1.
    + exfalso. apply line_stop in E. tauto.
Qed.
Lemma front_flag : forall rd front p c q e, read_plan rd p c front = Some (q, e, []) ->
  Forall (fun l => plan_line l = false) front -> p_flag p <> Done ->
  (p_flag p <> Targets /\ Forall (fun l => ~ begins l "TARGETS:") front) \/
  (exists a s b, front = a ++ s :: b /\ (begins s "DEPTH" \/ begins s "WELLPLANS:") /\ Forall (fun l => ~ begins l "TARGETS:") b) ->
  p_flag q <> Targets.
Proof.
  intros rd front. induction front as [|l front IH]; intros p c q e H F D T.
  - cbn in H. injection H as <- <-. destruct T as [[T _]|(a & s & b & E & _)]; [auto|destruct a; discriminate].
  - cbn in H. inv H. destruct v as [p1 c1|].
    + inversion F; subst. destruct (line_flag _ _ _ _ _ _ E) as (l0 & ws & W & Fl).
      assert (D' : p_flag p1 <> Done).
      { rewrite Fl. unfold next_flag. rewrite H2. destruct (is_word "!" l0); auto. destruct (is_word "DEPTH" l0); [discriminate|].
        destruct (is_word "TARGETS:" l0); [discriminate|]. destruct (is_word "WELLPLANS:" l0); [discriminate|]. destruct (p_flag p); congruence. }
      apply (IH _ _ _ _ H H3 D'). destruct T as [[T N]|(a & s & b & Ef & S & N)].
      * left. inversion N; subst. split; auto. rewrite Fl. unfold next_flag. rewrite H2. rewrite (begins_word _ _ _ _ W) in H4.
        destruct (is_word "!" l0); auto. destruct (is_word "DEPTH" l0); [discriminate|].
        destruct (is_word "TARGETS:" l0); [congruence|]. destruct (is_word "WELLPLANS:" l0); [discriminate|]. destruct (p_flag p); congruence.
      * destruct a as [|x a]; cbn in Ef; injection Ef as -> ->.
        -- left. split; auto. rewrite Fl. unfold next_flag. rewrite !(begins_word _ _ _ _ W) in S.
           destruct (is_word "!" l0) eqn:B1; [exfalso; unfold is_word in *; rewrite !text_eqb_eq in *; subst; destruct S; discriminate|].
           destruct (is_word "DEPTH" l0) eqn:B2; [discriminate|]. destruct S as [S|S]; [discriminate|].
           destruct (is_word "TARGETS:" l0) eqn:B3; [exfalso; unfold is_word in *; rewrite !text_eqb_eq in *; subst; discriminate|]. rewrite S. discriminate.
        -- right. exists a, s, b. auto.
    + exfalso. apply line_stop in E. tauto.
Qed.
Theorem load_counts : forall rd c lines fuel ps c' front w rest, map rstrip lines = front ++ w :: rest ->
  Forall (fun l => plan_line l = false) front -> targets_closed front ->
  plan_line w = true -> Forall (fun l => ~ section_line l) (w :: rest) ->
  load fuel rd c lines = Plans ps c' -> length ps = length (filter plan_line (map rstrip lines)).
Proof.
  intros rd c lines fuel ps c' front w rest E Ff Tc P F H. unfold load in H. rewrite E in *.
  rewrite filter_app, (filter_none front Ff). cbn [app filter]. rewrite P. cbn [length].
  destruct fuel as [|n]; [discriminate|]. cbn [load_loop] in H.
  destruct (read_plan rd (fresh None None) c (front ++ w :: rest)) as [[[p c1] rs]|] eqn:R; [|discriminate].
  assert (Fd : p_flag (fresh None None) <> Done) by discriminate.
  destruct (front_read _ _ _ _ _ _ Fd Ff _ R) as (q & e & R1 & R2 & D).
  assert (Nt : p_flag q <> Targets).
  { apply (front_flag _ _ _ _ _ _ R1 Ff Fd). destruct Tc as [T|T]; [left; split; [discriminate|auto]|right; auto]. }
  cbn in R2. inv R2. inversion F; subst. destruct v as [q1 e1|]; [|exfalso; apply line_stop in E0; tauto].
  destruct (line_flag _ _ _ _ _ _ E0) as (l0 & ws & W & Fl). rewrite (flag_other _ _ _ _ W) in Fl by auto. rewrite P in Fl.
  assert (Fl' : p_flag q1 = Done) by (destruct (p_flag q); congruence).
  destruct (done_stops _ _ _ _ _ _ _ Fl' H3 R2) as (b & -> & Fb & Rs).
  rewrite filter_app, (filter_none b Fb). cbn [app].
  destruct rs as [|w' rs]; [injection H as <- <-; reflexivity|].
  destruct (load_loop n rd (p_depth p) (p_surface p) c1 (w' :: rs)) as [qs c2| |] eqn:L; try discriminate. injection H as <- <-.
  apply Forall_app in H3. destruct H3 as [_ H3]. cbn [length]. f_equal. cbn [filter]. rewrite Rs.
  exact (plans_counted _ _ _ _ _ _ _ _ _ Rs H3 L).
Qed.
