(** Property theorems C146: scenes of well meshes. *)
Require Import Reals ZArith String List Bool Lra.
Require Import Verif.Base Verif.NumPy Verif.M_Scene Verif.Spec_Scene Verif.P_Scene.
Import ListNotations.
Open Scope R_scope.

(** * C146 *)
Theorem C146_made : forall process,
  (forall d, make_trimesh_scene process (ByName d) = Some (map (fun nm => (fst nm, process (snd nm))) d)) /\
  (forall l, l <> [] -> make_trimesh_scene process (AsList l) = None).
Proof. exact scene_made. Qed.
Print Assumptions C146_made.
Theorem C146_transformed : forall s origin scale redux, scale <> 0 ->
  (transform_trimesh_scene s origin scale redux = None <-> exists a, origin = Array a) /\
  (forall s', transform_trimesh_scene s origin scale redux = Some s' -> exists o, the_origin origin o /\
     Forall2 (fun a b => fst b = fst a /\ t_faces (snd b) = t_faces (snd a) /\
                         Forall2 (shown o scale) (t_vertices (snd a)) (t_vertices (snd b))) s s').
Proof. exact scene_transformed. Qed.
Print Assumptions C146_transformed.
Theorem C146_shape : forall o scale v1 w1 v2 w2 v3 w3 v4 w4, scale <> 0 ->
  shown o scale v1 w1 -> shown o scale v2 w2 -> shown o scale v3 w3 -> shown o scale v4 w4 ->
  dist v1 v2 = Rabs scale * dist w1 w2 /\ volume v1 v2 v3 v4 = scale ^ 3 * volume w1 w2 w3 w4 /\
  (v1 = o <-> w1 = vzero) /\ scale * (vy w1 - vy w2) = vz v2 - vz v1.
Proof. exact shown_shape. Qed.
Print Assumptions C146_shape.
Theorem C146_reduction_refuted : forall s origin scale redux redux',
  transform_trimesh_scene s origin scale redux = transform_trimesh_scene s origin scale redux'.
Proof. exact reduction_ignored. Qed.
Print Assumptions C146_reduction_refuted.
(** a triangle with a corner 200 below the origin *)
Example C146_case : exists s, transform_trimesh_scene one_triangle (Sequence (mkV 0 0 100)) 100 (1 / 4) = Some s /\
  s = [("A"%string, mkTri [mkV 0 1 0; mkV 1 1 0; mkV 0 (-2) 1] [(0, 1, 2)%nat])].
Proof. exact one_triangle_shown. Qed.
