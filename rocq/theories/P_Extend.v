(** drop_off: the nodes for every answer of the optimiser. *)
Require Import Reals ZArith Bool String List Lra Lia Psatz.
Require Import Verif.Base Verif.NumPy Verif.Spec Verif.Spec_Rates Verif.M_Utils Verif.M_Connector Verif.M_Extend Verif.Spec_Extend.
Require Import Verif.P_Trig Verif.P_Utils Verif.P_Utils2 Verif.P_Connector Verif.P_Rates3 Verif.P_Rates4 Verif.P_Rates.
Import ListNotations.
Open Scope R_scope.

Lemma arctan2_0_m1 : arctan2 0 (-1) = PI.
Proof.
  unfold arctan2. destruct (Rlt_dec 0 (-1)); [lra|]. destruct (Rlt_dec (-1) 0); [|lra].
  destruct (Rle_dec 0 0); [|lra]. unfold Rdiv. rewrite Rmult_0_l, atan_0. lra.
Qed.
Lemma angles_up : get_angles true (mkV 0 0 (-1)) = (PI, 0).
Proof.
  unfold get_angles. rewrite vunit_unit by (unfold is_unit, dot; simpl; ring).
  unfold get_angles_xyz; simpl. pose proof PI_RGT_0.
  replace (0 * (0 * 1) + 0 * (0 * 1)) with 0 by ring. rewrite sqrt_0, arctan2_00, arctan2_0_m1.
  f_equal. rewrite Rplus_0_l. apply (rmod_unique _ _ _ 1); simpl; lra.
Qed.

(** the axes recovered from a direction that bears (inc, azi) *)
Lemma bears_axes : forall u inc azi tf, bears u inc azi ->
  let '(i, a) := get_angles true u in bend_direction i a tf = toolface_dir inc azi tf.
Proof.
  intros u inc azi tf (E & I & B). destruct B as [B|B].
  - subst u. pose proof (recovered_axes_pos inc azi B) as RA.
    destruct (get_angles true (direction_nev inc azi)) as [j c]. rewrite bend_is_toolface. apply RA.
  - subst azi. destruct (Rlt_dec 0 inc) as [L|L].
    + destruct (Rlt_dec inc PI) as [M|M].
      * subst u. pose proof (recovered_axes_pos inc 0 (conj L M)) as RA.
        destruct (get_angles true (direction_nev inc 0)) as [j c]. rewrite bend_is_toolface. apply RA.
      * assert (inc = PI) by lra. subst inc.
        replace u with (mkV 0 0 (-1)).
        2: { subst u. unfold direction_nev. rewrite sin_PI, cos_PI. apply V3_eq; simpl; ring. }
        rewrite angles_up. apply bend_is_toolface.
    + assert (inc = 0) by lra. subst inc.
      replace u with (mkV 0 0 1).
      2: { subst u. unfold direction_nev. rewrite sin_0, cos_0. apply V3_eq; simpl; ring. }
      rewrite angles_down. apply bend_is_toolface.
Qed.

Lemma toolface_up : forall inc azi t,
  arc_tangent (direction_nev inc azi) (toolface_dir inc azi 0) t = direction_nev (inc + t) azi.
Proof.
  intros. unfold arc_tangent, toolface_dir, high_side, right_side, direction_nev. rewrite sin_plus, cos_plus, sin_0, cos_0.
  unf. apply V3_eq; simpl; ring.
Qed.
Lemma toolface_down : forall inc azi t,
  arc_tangent (direction_nev inc azi) (toolface_dir inc azi PI) t = direction_nev (inc - t) azi.
Proof.
  intros. unfold arc_tangent, toolface_dir, high_side, right_side, direction_nev. rewrite sin_minus, cos_minus, sin_PI, cos_PI.
  unf. apply V3_eq; simpl; ring.
Qed.
Lemma toolface_spec : forall inc azi tf, is_unit (toolface_dir inc azi tf) /\ orthogonal (direction_nev inc azi) (toolface_dir inc azi tf).
Proof. intros. rewrite <- bend_is_toolface. apply bend_direction_spec. Qed.

(** signed turn: positive builds, negative drops *)
Definition signed (x : R * R) : R := if Req_EM_T (drop_side (snd x)) 0 then fst x else - fst x.
Lemma drop_side_cases : forall tf, drop_side tf = 0 \/ drop_side tf = PI.
Proof. intros. unfold drop_side. destruct (Rle_dec (- PI / 2) tf); auto. destruct (Rle_dec tf (PI / 2)); auto. Qed.

Lemma drop_data_value : forall r n x inc azi, bears (node_vec n) inc azi ->
  let nn := toolface_dir inc azi (drop_side (snd x)) in
  drop_data r n x = (arc_point (node_pos n) (node_vec n) nn r (fst x), direction_nev (inc + signed x) azi, fst x * r).
Proof.
  intros r n [t tf] inc azi B nn. unfold drop_data, get_arc. pose proof B as (E & I & _).
  assert (U : is_unit (node_vec n)) by (rewrite E; apply direction_unit).
  pose proof (arc_transform_fwd t r (drop_side tf) (node_pos n) (node_vec n) (unit_nonzero _ U)) as A.
  pose proof (bears_axes _ _ _ (drop_side tf) B) as RA.
  destruct (get_angles true (node_vec n)) as [i a]. rewrite A, RA, vunit_unit by auto. fold nn.
  f_equal. f_equal. rewrite E. unfold nn, signed. cbn [fst snd]. pose proof PI_RGT_0 as HP.
  destruct (drop_side_cases tf) as [-> | ->].
  - destruct (Req_EM_T 0 0); [|lra]. apply toolface_up.
  - destruct (Req_EM_T PI 0); [lra|]. rewrite toolface_down. f_equal; ring.
Qed.

Lemma dls_radius_value : forall dls, dls <> 0 -> radius_from_dls_scalar (Fin dls) = Fin (dls_radius dls).
Proof.
  intros dls H. destruct (radius_of_dls_finite dls H) as [-> _]. f_equal. unfold dls_radius. pose proof PI_RGT_0. field. split; lra.
Qed.
Lemma dls_radius_pos : forall dls, 0 < dls -> 0 < dls_radius dls.
Proof. intros. unfold dls_radius. pose proof PI_RGT_0. apply Rdiv_lt_0_compat; [lra|]. nra. Qed.

Lemma make_node_unit : forall p v m, is_unit v ->
  exists k, make_node (Some p) (Some v) None None (Some m) true = Some k /\ describes k p v m.
Proof.
  intros p v m U. unfold make_node. rewrite (normalised_unit v U). eexists. split; [reflexivity|].
  unfold describes. cbn. auto.
Qed.

(** the node drop_off works with *)
Definition work (n : option node) : node := with_md (match n with None => empty_node | Some n => n end).
Lemma work_starts : forall n p u m, starts n p u m -> node_pos (work n) = p /\ node_vec (work n) = u /\ md_of (work n) = m.
Proof.
  intros [k|] p u m H; unfold starts in H; destruct H as (-> & -> & ->); unfold work, with_md, node_pos, node_vec, md_of, or_default, empty_node; cbn; auto.
  repeat split; auto. destruct (n_md k); auto.
Qed.
Definition upper (dls : R) (d : option R) : R :=
  Rmin (2 * PI) (match d with None => 2 * PI | Some x => x / dls_radius dls end).
Definition answer (mini : minimizer2) (ti dls : R) (d : option R) (n : option node) : R * R :=
  mini (drop_misfit (dls_radius dls) ti (work n)) (upper dls d / 2, PI) ((0, upper dls d), (- PI, PI)).

Lemma drop_off_value : forall mini ti dls d n tol p u m inc azi, dls <> 0 -> starts n p u m -> bears u inc azi ->
  0 <= upper dls d -> 0 <= tol ->
  let r := dls_radius dls in let x := answer mini ti dls d n in
  let p2 := arc_point p u (toolface_dir inc azi (drop_side (snd x))) r (fst x) in
  let v := direction_nev (inc + signed x) azi in
  exists node2, describes node2 p2 v (m + fst x * r) /\
   ((drop_off mini ti dls d n tol = DropNodes [node2] /\ (forall L, d = Some L -> L - fst x * r <= tol)) \/
    (exists L node3, d = Some L /\ tol < L - fst x * r /\ drop_off mini ti dls d n tol = DropNodes [node2; node3] /\
       describes node3 (vadd p2 (vscale (L - fst x * r) v)) v (m + L))).
Proof.
  intros mini ti dls d n tol p u m inc azi DL ST B UP TL r x p2 v.
  destruct (work_starts n p u m ST) as (WP & WV & WM).
  unfold drop_off. fold (work n). rewrite (dls_radius_value dls DL). fold r.
  change (Rmin (2 * PI) match d with Some d0 => d0 / r | None => 2 * PI end) with (upper dls d).
  destruct (Rlt_dec (upper dls d) 0); [lra|]. cbv zeta.
  change (mini (drop_misfit r ti (work n)) (upper dls d / 2, PI) (0, upper dls d, (- PI, PI))) with x.
  rewrite (drop_data_value r (work n) x inc azi) by (rewrite WV; auto). rewrite WP, WV, WM. fold p2 v.
  assert (U : is_unit v) by apply direction_unit.
  destruct (make_node_unit p2 v (m + fst x * r) U) as (k & EK & DK). rewrite EK. exists k. split; auto.
  destruct d as [L|].
  - destruct (Rlt_dec tol (L - fst x * r)) as [G|G].
    + right. destruct (make_node_unit (vadd p2 (vscale (L - fst x * r) v)) v (m + L) U) as (k3 & EK3 & DK3).
      replace (m + fst x * r + (L - fst x * r)) with (m + L) by ring. rewrite EK3. exists L, k3. auto.
    + left. split; auto. intros L' Q. injection Q as <-. lra.
  - destruct (Rlt_dec tol 0); [lra|]. left. split; auto. discriminate.
Qed.
