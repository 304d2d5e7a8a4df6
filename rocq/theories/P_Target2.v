(** Which connections wbp_to_survey asks for. *)
Require Import Reals List Lra Lia.
Require Import Verif.Base Verif.M_Target Verif.Spec_Target Verif.P_Target.
Import ListNotations.
Open Scope R_scope.

Lemma design_drilled : forall s, drilled_at s (design_dls s).
Proof.
  intro s. unfold drilled_at, design_dls. destruct (ws_dls s) as [d|].
  - destruct (Rlt_dec 0 d) as [L|L].
    + left. split; [reflexivity|exact L].
    + right. split; [lra|]. intros d' [= <-]. lra.
  - right. split; [lra|discriminate].
Qed.
Lemma drilled_unique : forall s k, drilled_at s k -> k = design_dls s.
Proof.
  intros s k [[E L]|[E N]]; unfold design_dls.
  - rewrite E. destruct (Rlt_dec 0 k); [reflexivity|contradiction].
  - destruct (ws_dls s) as [d|]; [|lra]. specialize (N d eq_refl). destruct (Rlt_dec 0 d); lra.
Qed.
Lemma connect_legs : forall conn make reach steps p m i a l,
  connect conn make reach p m i a steps = Some l <-> legs make reach p m i a steps l.
Proof.
  intros conn make reach. induction steps as [|s r IH]; intros p m i a l; cbn.
  - split.
    + intros [= <-]. constructor.
    + intro H. inversion H. reflexivity.
  - split.
    + destruct (make p m i a (ws_md s) (ws_inc s) (ws_azi s) (design_dls s)) as [c|] eqn:M; [|discriminate].
      destruct (reach c) as [[[p' m'] i'] a'] eqn:T.
      destruct (connect conn make reach p' m' i' a' r) as [k|] eqn:C; [|discriminate]. intros [= <-].
      econstructor; [apply design_drilled|exact M|exact T|apply IH; exact C].
    + intro H. inversion H as [|? ? ? ? ? ? k c p' m' i' a' l' D M T L]; subst.
      apply drilled_unique in D. subst k. rewrite M, T. apply IH in L. rewrite L. reflexivity.
Qed.
Lemma plan_legs : forall conn surv make reach survey_of latlon strip first s r e n v,
  ws_location s = (e, n, v) ->
  let run := wbp_to_survey conn surv make reach survey_of latlon strip (first :: s :: r) in
  let joined l := legs make reach (mkV n e (- v)) (ws_md s) (ws_inc s) (ws_azi s) r l in
  (run = inr ConnectorFails <-> ~ exists l, joined l) /\
  (run = inr FirstSurveyFails <-> exists l, joined l /\ l <> [] /\ survey_of l = None) /\
  (run = inr NoLatLon <-> exists l x, joined l /\ l <> [] /\ survey_of l = Some x /\ latlon (mkV n e (- v)) = None) /\
  (run = inr NotAConnection <-> exists l x ll, joined l /\ l <> [] /\ survey_of l = Some x /\ latlon (mkV n e (- v)) = Some ll).
Proof.
  intros conn surv make reach survey_of latlon strip first s r e n v E run joined.
  assert (P : step_position s = mkV n e (- v)) by (unfold step_position; rewrite E; f_equal; ring).
  assert (J : forall l, joined l <-> connect conn make reach (mkV n e (- v)) (ws_md s) (ws_inc s) (ws_azi s) r = Some l)
    by (intro l; symmetry; apply connect_legs).
  unfold run, wbp_to_survey. rewrite P. clearbody joined. clear run.
  destruct (connect conn make reach (mkV n e (- v)) (ws_md s) (ws_inc s) (ws_azi s) r) as [l|].
  - assert (U : forall k, joined k -> k = l) by (intros k K; apply J in K; congruence).
    assert (Y : joined l) by (apply J; reflexivity).
    unfold from_connections. destruct l as [|c l]; [|destruct (survey_of (c :: l)) as [x|] eqn:S; [destruct (latlon (mkV n e (- v))) as [ll|] eqn:L|]].
    all: repeat split; intro H; try discriminate; try (exfalso; apply H; eauto; fail).
    all: try (destruct H as (k & K & N & H); apply U in K; subst k; congruence).
    all: try (destruct H as (k & x' & K & N & H & H2); apply U in K; subst k; congruence).
    all: try (destruct H as (k & x' & ll' & K & N & H & H2); apply U in K; subst k; congruence).
    all: repeat eexists; try exact Y; try exact S; congruence.
  - assert (N : forall k, ~ joined k) by (intros k K; apply J in K; discriminate).
    repeat split; intro H; try discriminate; try reflexivity.
    all: try (intros [k K]; exact (N k K)).
    all: exfalso; clear - H N; firstorder.
Qed.
