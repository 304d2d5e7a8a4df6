(** Vocabulary for scenes of well meshes. *)
Require Import Reals String List.
Require Import Verif.Base Verif.M_Scene.
Import ListNotations.
Open Scope R_scope.

(** the point [v] of a scene is shown at [w]: from the origin [o], at 1 to [scale],
    the third coordinate (depth) going down along the second axis and the second
    along the third *)
Definition shown (o : V3) (scale : R) (v w : V3) : Prop :=
  scale * vx w = vx v - vx o /\ scale * vy w = vz o - vz v /\ scale * vz w = vy v - vy o.
Definition the_origin (a : origin_arg) (o : V3) : Prop := (a = NoOrigin /\ o = vzero) \/ a = Sequence o.
(** the volume spanned by four points, with its sign *)
Definition volume (a b c d : V3) : R := dot (vsub b a) (cross (vsub c a) (vsub d a)).
