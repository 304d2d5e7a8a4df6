(** What the first rescue pass of a curve-hold-curve connection returns (C37), and
    the names get_error_models lists (C122). *)
Require Import Reals ZArith Bool String List Lra Lia.
Require Import Verif.Base Verif.NumPy Verif.Spec Verif.M_Utils Verif.M_Connector Verif.M_Connector2 Verif.Spec_Rescue.
Require Import Verif.M_Error Verif.M_Weights Verif.M_Bundle Verif.M_Models Verif.Spec_Models.
Import ListNotations.
Local Open Scope R_scope.

Lemma ge_inf_spec : forall a b e, ge_inf a b e = true <-> not_smaller a b e.
Proof.
  intros [x|] [y|] e; simpl; split; intro H; auto; try discriminate; try contradiction.
  - destruct (Rle_dec (y - e) x); [assumption|discriminate].
  - destruct (Rle_dec (y - e) x); [reflexivity|contradiction].
Qed.

Lemma loop_accept : forall solve k seed more before saved s g, acceptable before (trial solve k seed s) g ->
  delta_loop solve k (seed :: more) before saved s = set_geo (trial solve k seed s) g.
Proof.
  intros solve k seed more before saved s g (H1 & H2 & H3). cbn [delta_loop].
  change (solve k (p_rd (s_prob s)) (p_rd2 (s_prob s)) (Some seed) (reset_radii s)) with (trial solve k seed s).
  rewrite H1. cbv zeta. fold (hold_length g). destruct (Rle_dec _ _) as [_|N]; [|contradiction].
  apply ge_inf_spec in H3. rewrite H3. reflexivity.
Qed.

Lemma loop_reject : forall solve k seed more before saved s, rejected before (trial solve k seed s) ->
  delta_loop solve k (seed :: more) before saved s = delta_loop solve (S k) more before saved (tried (trial solve k seed s)).
Proof.
  intros solve k seed more before saved s H. cbn [delta_loop].
  change (solve k (p_rd (s_prob s)) (p_rd2 (s_prob s)) (Some seed) (reset_radii s)) with (trial solve k seed s).
  unfold tried. unfold rejected, acceptable in H. set (t := trial solve k seed s) in *. clearbody t. cbv zeta.
  destruct (happy_finish t) as [g|]; [|reflexivity]. fold (hold_length g). destruct (Rle_dec _ _) as [L|_]; [|reflexivity].
  destruct (ge_inf _ before _) eqn:G; [|reflexivity]. exfalso. apply ge_inf_spec in G. apply (H g). auto.
Qed.

Lemma first_rescue_cases : forall solve k s,
  let before := arc_radius (p_rd (s_prob s)) (s_geo s) in
  let t1 := trial solve k (g_pos2 (s_geo s)) s in
  let t2 := trial solve (S k) (vscale (1 / 2) (vadd (g_pos2 (s_geo s)) (s_target s))) (tried t1) in
  (- p_min_error (s_prob s) <= hold_length (s_geo s) -> delta_pos3_rescue solve k s = s) /\
  (hold_length (s_geo s) < - p_min_error (s_prob s) ->
     (forall g, acceptable before t1 g -> delta_pos3_rescue solve k s = set_geo t1 g) /\
     (rejected before t1 ->
        (forall g, acceptable before t2 g -> delta_pos3_rescue solve k s = set_geo t2 g) /\
        (rejected before t2 -> delta_pos3_rescue solve k s = set_geo (tried t2) (s_geo s)))).
Proof.
  intros solve k s before t1 t2. unfold delta_pos3_rescue. cbv zeta. fold (hold_length (s_geo s)).
  split.
  - intro H. destruct (Rle_dec _ _); [reflexivity|contradiction].
  - intro H. destruct (Rle_dec _ _) as [L|_]; [lra|]. fold before. split.
    + intros g A. apply loop_accept. exact A.
    + intro Q. rewrite loop_reject by exact Q. fold t1. split.
      * intros g A. apply loop_accept. exact A.
      * intro Q2. rewrite loop_reject by exact Q2. reflexivity.
Qed.

(** * get_error_models *)
Lemma error_models_listed :
  (forall index name, In name (get_error_models index) <-> exists key, In (key, name) index) /\
  (forall name, accepted_name name <-> In name (get_error_models tool_index) \/ name = "ISCWSA MWD Rev5"%string).
Proof.
  split; [|intro name; reflexivity].
  intros index name. unfold get_error_models. rewrite in_map_iff. split.
  - intros ([key n] & E & I). simpl in E. subst n. exists key. exact I.
  - intros (key & I). exists (key, name). auto.
Qed.
