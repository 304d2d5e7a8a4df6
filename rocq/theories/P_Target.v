(** Proofs about targets and about turning a plan into a survey. *)
Require Import Reals ZArith String List Bool Lra Lia.
Require Import Verif.Base Verif.M_Target.
Import ListNotations.
Open Scope R_scope.

Lemma contains_in : forall l x, contains l x = true <-> In x l.
Proof.
  intros l x. unfold contains. rewrite existsb_exists. split.
  - intros (y & I & E). apply String.eqb_eq in E. subst. exact I.
  - intro I. exists x. split; [exact I|apply String.eqb_refl].
Qed.
Lemma same_set_iff : forall a b, same_set a b = true <-> forall x, In x a <-> In x b.
Proof.
  intros a b. unfold same_set. rewrite andb_true_iff, !forallb_forall. split.
  - intros [A B] x. split; intro I; apply contains_in; auto.
  - intro H. split; intros x I; apply contains_in; apply H; exact I.
Qed.
(** a target is made exactly with a circle, ellipse or rectangle and its own keys *)
Lemma target_made : forall (V : Type) name n e tvd shape orientation dip (geometry : kwargs V),
  let fits keys := forall k, In k (map fst geometry) <-> In k keys in
  (forall t, Target name n e tvd shape orientation dip geometry = inl t <->
     t = mkTarget name n e tvd shape orientation dip geometry /\
     ((shape = "circle" /\ fits ["radius"]) \/ (shape = "ellipse" /\ fits ["radius_1"; "radius_2"; "res"]) \/
      (shape = "rectangle" /\ fits ["pos1"; "pos2"]))%string) /\
  (Target name n e tvd shape orientation dip geometry = inr KeyMissing <-> shape = "polygon"%string).
Proof.
  intros V name n e tvd shape orientation dip geometry fits. unfold Target.
  destruct (contains ["circle"; "ellipse"; "rectangle"; "polygon"]%string shape) eqn:C.
  - pose proof (same_set_iff (map fst geometry)) as K. apply contains_in in C. cbn in C. destruct C as [<-|[<-|[<-|[<-|[]]]]].
    + change (geometry_keys "circle") with (Some ["radius"]%string). cbv iota. specialize (K ["radius"]%string). destruct same_set.
      * split; [|split; discriminate]. intro t. split; [intro H; assert (t = mkTarget name n e tvd "circle"%string orientation dip geometry) by congruence|intros [-> _]; reflexivity]. split; auto. left. split; [reflexivity|]. exact (proj1 K eq_refl).
      * split; [|split; discriminate]. intro t. split; [discriminate|]. intros [_ [[E F]|[[E F]|[E F]]]]; try discriminate. apply (proj2 K) in F; discriminate.
    + change (geometry_keys "ellipse") with (Some ["radius_1"; "radius_2"; "res"]%string). cbv iota. specialize (K ["radius_1"; "radius_2"; "res"]%string). destruct same_set.
      * split; [|split; discriminate]. intro t. split; [intro H; assert (t = mkTarget name n e tvd "ellipse"%string orientation dip geometry) by congruence|intros [-> _]; reflexivity]. split; auto. right. left. split; [reflexivity|]. exact (proj1 K eq_refl).
      * split; [|split; discriminate]. intro t. split; [discriminate|]. intros [_ [[E F]|[[E F]|[E F]]]]; try discriminate. apply (proj2 K) in F; discriminate.
    + change (geometry_keys "rectangle") with (Some ["pos1"; "pos2"]%string). cbv iota. specialize (K ["pos1"; "pos2"]%string). destruct same_set.
      * split; [|split; discriminate]. intro t. split; [intro H; assert (t = mkTarget name n e tvd "rectangle"%string orientation dip geometry) by congruence|intros [-> _]; reflexivity]. split; auto. right. right. split; [reflexivity|]. exact (proj1 K eq_refl).
      * split; [|split; discriminate]. intro t. split; [discriminate|]. intros [_ [[E F]|[[E F]|[E F]]]]; try discriminate. apply (proj2 K) in F; discriminate.
    + change (geometry_keys "polygon") with (@None (list string)). cbv iota. split; [|split; reflexivity]. intro t. split; [discriminate|].
      intros [_ [[E F]|[[E F]|[E F]]]]; discriminate.
  - assert (N : ~ In shape ["circle"; "ellipse"; "rectangle"; "polygon"]%string) by (rewrite <- contains_in, C; discriminate).
    cbn in N. split; [intro t; split; [discriminate|]|split; [discriminate|intros ->; tauto]].
    intros [_ [[E _]|[[E _]|[E _]]]]; subst; tauto.
Qed.
(** only circles are drawn *)
Lemma target_drawn : forall (V G : Type) (circle : V3 -> V -> R -> R -> G) name n e tvd shape orientation dip (geometry : kwargs V) t,
  NoDup (map fst geometry) -> Target name n e tvd shape orientation dip geometry = inl t ->
  (shape = "circle"%string -> exists r, geometry = [("radius"%string, r)] /\ plot_data circle t = inl (circle (mkV n e tvd) r dip orientation)) /\
  (shape <> "circle"%string -> plot_data circle t = inr Unbound).
Proof.
  intros V G circle name n e tvd shape orientation dip geometry t ND H. apply target_made in H. destruct H as [-> H]. unfold plot_data. cbn. split.
  - intros ->. destruct H as [[_ F]|[[E _]|[E _]]]; try discriminate. destruct geometry as [|[k r] g].
    + exfalso. apply (proj2 (F "radius"%string)). left. reflexivity.
    + assert (k = "radius"%string). { destruct (proj1 (F k)) as [|[]]; [left; reflexivity|auto]. } subst k.
      destruct g as [|[k r'] g].
      * exists r. split; reflexivity.
      * exfalso. assert (k = "radius"%string). { destruct (proj1 (F k)) as [|[]]; [right; left; reflexivity|auto]. } subst k.
        inversion ND as [|? ? A _]. apply A. left. reflexivity.
  - intro N. apply String.eqb_neq in N. rewrite N. reflexivity.
Qed.

(** ** plans *)
Section Plan.
  Variables (conn surv : Type).
  Variable connector : V3 -> R -> R -> R -> R -> R -> R -> R -> option conn.
  Variable target_of : conn -> V3 * R * R * R.
  Variable survey_of : list conn -> option surv.
  Variable latlon : V3 -> option (R * R).
  Lemma connect_length : forall steps p m i a l, connect conn connector target_of p m i a steps = Some l -> length l = length steps.
  Proof.
    induction steps as [|s r IH]; intros p m i a l H; cbn in H; [injection H as <-; reflexivity|].
    destruct connector as [c|]; [|discriminate]. destruct (target_of c) as [[[p' m'] i'] a'].
    destruct (connect conn connector target_of p' m' i' a' r) as [k|] eqn:E; [|discriminate]. injection H as <-. cbn. f_equal. eauto.
  Qed.
End Plan.
Lemma plan_never_survey : forall (conn surv : Type) connector target_of survey_of latlon strip steps,
  exists e, wbp_to_survey conn surv connector target_of survey_of latlon strip steps = inr e /\
    (e = NameMissing <-> (length steps < 2)%nat) /\ (e = NothingToStack <-> length steps = 2%nat) /\
    (e = NotAConnection -> (2 < length steps)%nat /\ exists l s ll, length l = (length steps - 2)%nat /\ survey_of l = Some s /\ latlon (step_position (nth 1 steps (mkWs 0 0 0 (0, 0, 0) None))) = Some ll).
Proof.
  intros. destruct steps as [|s0 [|s r]].
  1,2: eexists; split; [reflexivity|]; cbn; split; [split; [lia|auto]|]; split; [split; [discriminate|lia]|discriminate].
  cbn [wbp_to_survey]. destruct (connect conn connector target_of (step_position s) (ws_md s) (ws_inc s) (ws_azi s) r) as [l|] eqn:C.
  - pose proof (connect_length _ _ _ _ _ _ _ _ _ C) as L. unfold from_connections. destruct l as [|c l].
    + destruct r; [|discriminate]. eexists. split; [reflexivity|]. cbn. split; [split; [discriminate|lia]|]. split; [split; auto|discriminate].
    + destruct r as [|s2 r]; [discriminate|]. cbn [length] in *. destruct (survey_of (c :: l)) as [d|] eqn:S.
      * destruct (latlon (step_position s)) as [ll|] eqn:LL; eexists; (split; [reflexivity|]); (split; [split; [discriminate|lia]|]); (split; [split; [discriminate|lia]|]).
        -- intros _. split; [lia|]. exists (c :: l), d, ll. split; [cbn; lia|]. split; [exact S|exact LL].
        -- discriminate.
      * eexists. split; [reflexivity|]. split; [split; [discriminate|lia]|]. split; [split; [discriminate|lia]|discriminate].
  - destruct r as [|s2 r]; [cbn in C; discriminate|]. eexists. split; [reflexivity|]. cbn. split; [split; [discriminate|lia]|]. split; [split; [discriminate|lia]|discriminate].
Qed.
