(** Proofs about scenes of well meshes. *)
Require Import Reals ZArith String List Bool Lra.
Require Import Verif.Base Verif.NumPy Verif.M_Scene Verif.Spec_Scene.
Import ListNotations.
Open Scope R_scope.

Lemma fold_add : forall (f : string * tri -> string * tri) l acc,
  fold_left (fun s nm => add_geometry s (fst (f nm)) (snd (f nm))) l acc = acc ++ map f l.
Proof.
  intros f l. induction l as [|x l IH]; intro acc; cbn; [rewrite app_nil_r; reflexivity|].
  rewrite IH. unfold add_geometry. rewrite <- app_assoc. destruct (f x); reflexivity.
Qed.
(** a dictionary gives one mesh per well, in order; a list of meshes fails *)
Lemma scene_made : forall process,
  (forall d, make_trimesh_scene process (ByName d) = Some (map (fun nm => (fst nm, process (snd nm))) d)) /\
  (forall l, l <> [] -> make_trimesh_scene process (AsList l) = None).
Proof.
  intro process. split.
  - intro d. cbn. f_equal. apply (fold_add (fun nm => (fst nm, process (snd nm)))).
  - intros [|m l] N; [congruence|reflexivity].
Qed.
Lemma turned_shown : forall o scale v, scale <> 0 -> shown o scale v (turned scale (vsub v o)).
Proof. intros o scale v N. unfold shown, turned, vsub. cbn. repeat split; field; auto. Qed.
Lemma transform_is : forall s origin scale redux, transform_trimesh_scene s origin scale redux =
  match shift origin with None => None | Some T =>
    Some (map (fun nm => (fst nm, mkTri (map (fun v => turned scale (vsub v T)) (t_vertices (snd nm))) (t_faces (snd nm)))) s) end.
Proof.
  intros. unfold transform_trimesh_scene. destruct (shift origin) as [T|]; [|reflexivity]. f_equal.
  rewrite <- (app_nil_l (map _ s)).
  rewrite <- (fold_add (fun nm => (fst nm, mkTri (map (fun v => turned scale (vsub v T)) (t_vertices (snd nm))) (t_faces (snd nm))))).
  cbn. generalize (@nil (string * tri)). induction s as [|x s IH]; intro acc; cbn; [reflexivity|]. rewrite IH. unfold decimated. rewrite map_map. reflexivity.
Qed.
Lemma scene_transformed : forall s origin scale redux, scale <> 0 ->
  (transform_trimesh_scene s origin scale redux = None <-> exists a, origin = Array a) /\
  (forall s', transform_trimesh_scene s origin scale redux = Some s' -> exists o, the_origin origin o /\
     Forall2 (fun a b => fst b = fst a /\ t_faces (snd b) = t_faces (snd a) /\
                         Forall2 (shown o scale) (t_vertices (snd a)) (t_vertices (snd b))) s s').
Proof.
  intros s origin scale redux N. rewrite transform_is. destruct origin as [|o|o]; cbn.
  - split; [split; [discriminate|intros (? & ?); discriminate]|]. intros s' H. injection H as <-. exists vzero. split; [left; auto|].
    induction s as [|x s IH]; cbn; constructor; auto. split; [reflexivity|]. split; [reflexivity|]. cbn.
    induction (t_vertices (snd x)); cbn; constructor; auto using turned_shown.
  - split; [split; [discriminate|intros (? & ?); discriminate]|]. intros s' H. injection H as <-. exists o. split; [right; auto|].
    induction s as [|x s IH]; cbn; constructor; auto. split; [reflexivity|]. split; [reflexivity|]. cbn.
    induction (t_vertices (snd x)); cbn; constructor; auto using turned_shown.
  - split; [split; eauto|discriminate].
Qed.
(** what is shown has the shape of what was given *)
Lemma shown_shape : forall o scale v1 w1 v2 w2 v3 w3 v4 w4, scale <> 0 ->
  shown o scale v1 w1 -> shown o scale v2 w2 -> shown o scale v3 w3 -> shown o scale v4 w4 ->
  dist v1 v2 = Rabs scale * dist w1 w2 /\ volume v1 v2 v3 v4 = scale ^ 3 * volume w1 w2 w3 w4 /\
  (v1 = o <-> w1 = vzero) /\ scale * (vy w1 - vy w2) = vz v2 - vz v1.
Proof.
  intros o scale [x1 y1 z1] [a1 b1 c1] [x2 y2 z2] [a2 b2 c2] [x3 y3 z3] [a3 b3 c3] [x4 y4 z4] [a4 b4 c4] N (A1 & B1 & C1) (A2 & B2 & C2) (A3 & B3 & C3) (A4 & B4 & C4).
  destruct o as [ox oy oz]. cbn in *.
  assert (x1 = scale * a1 + ox) by lra. assert (z1 = oz - scale * b1) by lra. assert (y1 = scale * c1 + oy) by lra.
  assert (x2 = scale * a2 + ox) by lra. assert (z2 = oz - scale * b2) by lra. assert (y2 = scale * c2 + oy) by lra.
  assert (x3 = scale * a3 + ox) by lra. assert (z3 = oz - scale * b3) by lra. assert (y3 = scale * c3 + oy) by lra.
  assert (x4 = scale * a4 + ox) by lra. assert (z4 = oz - scale * b4) by lra. assert (y4 = scale * c4 + oy) by lra.
  clear A1 B1 C1 A2 B2 C2 A3 B3 C3 A4 B4 C4. subst. split; [|split; [|split]].
  - unfold dist, norm. rewrite <- (sqrt_Rsqr_abs scale), <- sqrt_mult_alt by apply Rle_0_sqr. f_equal. unfold dot, vsub, Rsqr. cbn. ring.
  - unfold volume, dot, vsub, cross. cbn. ring.
  - unfold vzero. split; intro E; injection E; intros P Q W.
    + f_equal; apply (Rmult_eq_reg_l scale); auto; lra.
    + subst. f_equal; ring.
  - ring.
Qed.
(** the wished reduction of the number of triangles has no effect *)
Lemma reduction_ignored : forall s origin scale redux redux',
  transform_trimesh_scene s origin scale redux = transform_trimesh_scene s origin scale redux'.
Proof. intros. rewrite !transform_is. reflexivity. Qed.
(** one triangle: still one triangle when a quarter is wanted *)
Definition one_triangle : scene := [("A"%string, mkTri [vzero; mkV 100 0 0; mkV 0 100 300] [(0, 1, 2)%nat])].
Lemma one_triangle_shown : exists s, transform_trimesh_scene one_triangle (Sequence (mkV 0 0 100)) 100 (1 / 4) = Some s /\
  s = [("A"%string, mkTri [mkV 0 1 0; mkV 1 1 0; mkV 0 (-2) 1] [(0, 1, 2)%nat])].
Proof.
  rewrite transform_is. eexists. split; [reflexivity|]. cbn. unfold turned, vsub, vzero. cbn. repeat f_equal; field.
Qed.
