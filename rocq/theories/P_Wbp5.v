(** C39: a line of survey data at the end of a file; turn points before any plan. *)
Require Import Reals ZArith Ascii String List Bool Lia Lra.
Require Import Verif.Base Verif.M_Text Verif.Spec_Text Verif.P_Text Verif.M_Wbp Verif.Spec_Wbp Verif.P_Wbp Verif.P_Wbp2 Verif.P_Wbp3.
Import ListNotations.
Open Scope list_scope.
Local Open Scope nat_scope.

Lemma read_plan_more : forall rd lines p c q e, read_plan rd p c lines = Some (q, e, []) ->
  forall x, read_plan rd p c (lines ++ x) = read_plan rd q e x.
Proof.
  intros rd lines. induction lines as [|l r IH]; intros p c q e H x; cbn [app].
  - cbn in H. injection H as <- <-. reflexivity.
  - cbn [read_plan] in *. destruct (read_line rd p c l) as [[p' c'|]|]; cbn [ob] in *; try discriminate. apply IH. exact H.
Qed.
Lemma read_plan_stopped : forall rd lines p c q e l r, read_plan rd p c lines = Some (q, e, l :: r) ->
  forall x, read_plan rd p c (lines ++ x) = Some (q, e, (l :: r) ++ x).
Proof.
  intros rd lines. induction lines as [|k s IH]; intros p c q e l r H x; cbn [app]; [discriminate|].
  cbn [read_plan] in *. destruct (read_line rd p c k) as [[p' c'|]|]; cbn [ob] in *; try discriminate; [apply IH; exact H|].
  injection H as <- <- <- <-. reflexivity.
Qed.
Lemma is_word_iff : forall s w, is_word s w = true <-> w = lit s.
Proof. intros s w. unfold is_word, text_eqb. destruct (list_eq_dec ascii_dec w (lit s)); split; congruence. Qed.
Lemma set_sta_with : forall md azi inc x, with_station md azi inc x (set_sta (md, azi, inc) x).
Proof. intros md azi inc [t|p]; cbn; repeat split. Qed.
Lemma with_same : forall md azi inc x y, with_station md azi inc x y -> y = set_sta (md, azi, inc) x.
Proof.
  intros md azi inc [t|p] [u|q]; cbn; try tauto.
  - destruct t, u; cbn. intros (-> & -> & -> & -> & -> & -> & -> & -> & -> & -> & ->). reflexivity.
  - destruct p, q; cbn. intros (-> & -> & -> & ->). reflexivity.
Qed.
Lemma station_line : forall rd p c l w a b d md azi inc, field l "S" -> words l = [w; a; b; d] -> ~ begins l "!" -> ~ section_line l ->
  to_float rd a = Some md -> to_float rd b = Some azi -> to_float rd d = Some inc -> p_flag p <> Targets ->
  read_line rd p c l = ob (upd_last (set_sta (md, azi, inc)) (p_steps p)) (fun ss => Some (Next (set_steps ss p) c)).
Proof.
  intros rd p c l w a b d md azi inc (fs & F) W B S A1 A2 A3 Fl. unfold read_line. rewrite W, F.
  assert (N : forall s, ~ begins l s -> is_word s w = false).
  { intros s H. destruct (is_word s w) eqn:E; [|reflexivity]. apply is_word_iff in E. destruct H. exists [a; b; d]. rewrite W, E. reflexivity. }
  unfold section_line in S. rewrite !N by tauto. rewrite A1, A2, A3. cbn [ob].
  destruct (p_flag p); [reflexivity|congruence|reflexivity|reflexivity].
Qed.
Lemma loop_station : forall rd l w a b d md azi inc, field l "S" -> words l = [w; a; b; d] -> ~ begins l "!" -> ~ section_line l ->
  to_float rd a = Some md -> to_float rd b = Some azi -> to_float rd d = Some inc ->
  forall fuel de su c lines ps p c', load_loop fuel rd de su c lines = Plans (ps ++ [p]) c' -> p_flag p <> Targets ->
  load_loop fuel rd de su c (lines ++ [l]) =
    match upd_last (set_sta (md, azi, inc)) (p_steps p) with Some ss => Plans (ps ++ [set_steps ss p]) c' | None => Raised end.
Proof.
  intros rd l w a b d md azi inc F W B S A1 A2 A3. induction fuel as [|n IH]; intros de su c lines ps p c' H Fl; [discriminate|].
  cbn [load_loop] in *. destruct (read_plan rd (fresh de su) c lines) as [[[q e] [|k r]]|] eqn:R; [| |discriminate].
  - assert (J : [q] = ps ++ [p] /\ e = c') by (injection H; auto). destruct J as (J & <-). change [q] with ([] ++ [q]) in J. apply app_inj_tail in J. destruct J as (<- & <-).
    rewrite (read_plan_more _ _ _ _ _ _ R [l]). cbn [read_plan]. rewrite (station_line rd q e l w a b d md azi inc F W B S A1 A2 A3 Fl).
    destruct (upd_last (set_sta (md, azi, inc)) (p_steps q)); reflexivity.
  - rewrite (read_plan_stopped _ _ _ _ _ _ _ _ R [l]). cbn [app].
    destruct (load_loop n rd (p_depth q) (p_surface q) e (k :: r)) as [qs c2| |] eqn:L; try discriminate.
    assert (J : q :: qs = ps ++ [p] /\ c2 = c') by (injection H; auto). destruct J as (J & <-). destruct ps as [|q' ps].
    + cbn in J. injection J as -> ->. exfalso. destruct n as [|n]; [discriminate|]. cbn [load_loop] in L.
      destruct (read_plan rd (fresh (p_depth p) (p_surface p)) e (k :: r)) as [[[? ?] [|? ?]]|]; try discriminate.
      destruct (load_loop n rd (p_depth p0) (p_surface p0) c0 (t :: l0)); discriminate.
    + cbn in J. injection J as <- ->. change (k :: r ++ [l]) with ((k :: r) ++ [l]). rewrite (IH _ _ _ _ _ _ _ L Fl).
      destruct (upd_last (set_sta (md, azi, inc)) (p_steps p)); reflexivity.
Qed.
Lemma last_split : forall {A} (l : list A), l = [] \/ exists r x, l = r ++ [x].
Proof. intros A l. destruct l as [|a l] using rev_ind; eauto. Qed.
(** the loop does not depend on the fuel left *)
Theorem survey_data : forall rd c lines l w a b d md azi inc fuel ps p c',
  field (rstrip l) "S" -> words (rstrip l) = [w; a; b; d] -> ~ begins (rstrip l) "!" -> ~ section_line (rstrip l) ->
  to_float rd a = Some md -> to_float rd b = Some azi -> to_float rd d = Some inc ->
  load fuel rd c lines = Plans (ps ++ [p]) c' -> p_flag p <> Targets ->
  match load fuel rd c (lines ++ [l]) with
  | Plans qs e => e = c' /\ exists q before x y, qs = ps ++ [q] /\ p_steps p = before ++ [x] /\ p_steps q = before ++ [y] /\ with_station md azi inc x y /\
      p_depth q = p_depth p /\ p_surface q = p_surface p /\ p_targets q = p_targets p /\ p_head q = p_head p
  | Raised => p_steps p = []
  | OutOfFuel => False
  end.
Proof.
  intros rd c lines l w a b d md azi inc fuel ps p c' F W B S A1 A2 A3 H Fl. unfold load in *. rewrite map_app. cbn [map].
  rewrite (loop_station rd (rstrip l) w a b d md azi inc F W B S A1 A2 A3 _ _ _ _ _ _ _ _ H Fl).
  destruct (last_split (p_steps p)) as [E|(r & x & E)]; rewrite E.
  - cbn. reflexivity.
  - rewrite upd_last_app. split; [reflexivity|]. exists (set_steps (r ++ [set_sta (md, azi, inc) x]) p), r, x, (set_sta (md, azi, inc) x).
    split; [reflexivity|]. split; [reflexivity|]. split; [reflexivity|]. split; [apply set_sta_with|]. repeat split.
Qed.

(** ** turn points before any plan *)
Definition untied (p : plan) : Prop := p_tie p = false /\ forall t, In (Turn t) (p_steps p) -> t_tie t = false.
Lemma upd_last_in : forall {A} (f : A -> A) l l' x, upd_last f l = Some l' -> In x l' -> In x l \/ exists y, In y l /\ x = f y.
Proof.
  intros A f l l' x H I. destruct (last_split l) as [->|(r & y & ->)]; [discriminate|]. rewrite upd_last_app in H. injection H as <-.
  apply in_app_iff in I. destruct I as [I|[<-|[]]]; [left; apply in_app_iff; auto|right; exists y; split; [apply in_app_iff; right; left; reflexivity|reflexivity]].
Qed.
Lemma untied_loc : forall q s ss, (forall t, In (Turn t) s -> t_tie t = false) -> upd_last (set_loc q) s = Some ss ->
  forall t, In (Turn t) ss -> t_tie t = false.
Proof.
  intros q s ss H U t I. destruct (upd_last_in _ _ _ _ U I) as [J|([u|u] & J & E)]; [auto| |discriminate].
  cbn in E. injection E as ->. cbn. auto.
Qed.
Lemma untied_sta : forall q s ss, (forall t, In (Turn t) s -> t_tie t = false) -> upd_last (set_sta q) s = Some ss ->
  forall t, In (Turn t) ss -> t_tie t = false.
Proof.
  intros [[md azi] inc] s ss H U t I. destruct (upd_last_in _ _ _ _ U I) as [J|([u|u] & J & E)]; [auto| |discriminate].
  cbn in E. injection E as ->. cbn. auto.
Qed.
Lemma untied_turn : forall rd l t, read_turn rd false l = Some t -> t_tie t = false.
Proof.
  intros rd l t H. unfold read_turn in H. inv H. destruct (words v) as [|? [|? [|? [|? [|? [|? [|? rest]]]]]]]; try discriminate.
  do 7 inv H. destruct rest; [discriminate|]. injection H as <-. reflexivity.
Qed.
Lemma untied_line : forall rd p c l p' c', plan_line l = false -> ~ begins l "WELLPLANS:" -> untied p ->
  read_line rd p c l = Some (Next p' c') -> untied p'.
Proof.
  intros rd p c l p' c' W B (T & S) H. unfold read_line in H. destruct (words l) as [|l0 lr] eqn:Ws; [discriminate|].
  destruct (split_nonempty colon l) as (m0 & fs & Sp). rewrite (plan_line_head _ _ _ Sp) in W. rewrite Sp in H.
  assert (U : forall p2, p_tie p2 = p_tie p -> p_steps p2 = p_steps p -> untied p2) by (intros p2 E1 E2; split; [congruence|rewrite E2; exact S]).
  destruct (is_word "!" l0); [injection H as <- <-; apply U; reflexivity|].
  destruct (is_word "DEPTH" l0).
  { destruct lr as [|[|k [|]] ?]; try discriminate. inv H. destruct v. injection H as <- <-. apply U; reflexivity. }
  destruct (is_word "TARGETS:" l0); [injection H as <- <-; apply U; reflexivity|].
  destruct (is_word "WELLPLANS:" l0) eqn:WP; [apply is_word_iff in WP; subst l0; destruct B; exists lr; exact Ws|].
  destruct (p_flag p) eqn:F.
  all: try (rewrite W in H; rewrite T in H;
    destruct (is_word "P" m0); [inv H; injection H as <- <-; split; [exact T|]; intros t I; cbn in I; apply in_app_iff in I;
      destruct I as [I|[I|[]]]; [auto|]; injection I as <-; apply (untied_turn _ _ _ E)|];
    destruct (is_word "L" m0); [inv H; inv H; inv H; injection H as <- <-; split; [reflexivity|]; eapply untied_loc; eauto|];
    destruct (is_word "X" m0); [inv H; injection H as <- <-; split; [exact T|]; intros t I; cbn in I; apply in_app_iff in I;
      destruct I as [I|[I|[]]]; [auto|discriminate]|];
    destruct (is_word "S" m0); [destruct lr as [|? [|? [|? [|]]]]; try discriminate; inv H; inv H; inv H; inv H; injection H as <- <-;
      split; [exact T|]; eapply untied_sta; eauto|];
    injection H as <- <-; apply U; reflexivity).
  destruct (is_word "T" m0); [inv H; injection H as <- <-; apply U; reflexivity|].
  destruct (is_word "L" m0); [inv H; inv H; inv H; injection H as <- <-; apply U; reflexivity|].
  destruct (is_word "C" m0); [destruct (p_targets p); [discriminate|]; inv H; injection H as <- <-; apply U; reflexivity|].
  destruct (is_word "G" m0); [discriminate|]. injection H as <- <-. apply U; reflexivity.
Qed.
Lemma untied_plan : forall rd lines p c p' c' rest, Forall (fun l => plan_line l = false /\ ~ begins l "WELLPLANS:") lines -> untied p ->
  read_plan rd p c lines = Some (p', c', rest) -> rest = [] /\ untied p'.
Proof.
  intros rd lines. induction lines as [|l r IH]; intros p c p' c' rest F U H; cbn in H; [injection H as <- <- <-; auto|].
  inversion F as [|? ? (P & B) F']; subst. inv H. destruct v as [q d|].
  - eapply IH; [exact F'| |exact H]. eapply untied_line; eauto.
  - apply line_stop in E. destruct E as (_ & E). congruence.
Qed.
Theorem no_tie : forall rd c lines fuel ps c', load fuel rd c lines = Plans ps c' ->
  Forall (fun l => plan_line l = false /\ ~ begins l "WELLPLANS:") (map rstrip lines) ->
  exists p, ps = [p] /\ forall t, In (Turn t) (p_steps p) -> t_tie t = false.
Proof.
  intros rd c lines fuel ps c' H F. unfold load in H. destruct fuel as [|n]; [discriminate|]. cbn [load_loop] in H.
  destruct (read_plan rd (fresh None None) c (map rstrip lines)) as [[[p e] rest]|] eqn:R; [|discriminate].
  assert (U : untied (fresh None None)) by (split; [reflexivity|intros t []]).
  destruct (untied_plan _ _ _ _ _ _ _ F U R) as (-> & (_ & S)). injection H as <- _. exists p. auto.
Qed.
