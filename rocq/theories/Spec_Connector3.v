(** Vocabulary of the curve-hold-curve properties, over the attributes of the
    connection ([geo] is the record of those attributes). *)
Require Import Reals ZArith List Sorted.
Require Import Verif.Base Verif.Spec Verif.M_Connector2.
Import ListNotations.
Open Scope R_scope.

(** depths at start, end of first curve, end of hold and target do not decrease *)
Definition depths_ordered (md1 : R) (g : geo) : Prop :=
  md1 <= g_md2 g /\ g_md2 g <= g_md3 g /\ g_md3 g <= g_md_target g.
(** The attributes describe a path without a kink: a circular arc from
    ([pos1], [vec1]) to ([g_pos2], [g_vec3]), a straight line along [g_vec3] to
    [g_pos3], and a circular arc that ends in the direction [vtarget]; the depths
    are its lengths.  The stored first angle may be off by 1e-9, and an arc is
    only determined by its two directions when these are neither equal nor
    opposite.  [miss] is the distance from the end of the second arc to [target]. *)
Definition curve_hold_curve_path (pos1 vec1 : V3) (md1 : R) (target vtarget : V3) (g : geo) (miss : R) : Prop :=
  is_unit (g_vec3 g) /\ g_vec2 g = g_vec3 g /\
  g_md2 g = md1 + Rabs (g_dist_curve g) /\
  g_md_target g = g_md3 g + Rabs (g_dist_curve2 g) /\
  g_pos3 g = vadd (g_pos2 g) (vscale (g_md3 g - g_md2 g) (g_vec3 g)) /\
  (exists t, angle_between vec1 (g_vec3 g) t /\ Rabs (g_dogleg g - t) <= 1 / 1000000000 /\
     (g_dogleg g = t -> 0 < t < PI -> circular_arc pos1 vec1 (g_dist_curve g) t (g_pos2 g) (g_vec3 g))) /\
  angle_between (g_vec3 g) vtarget (g_dogleg2 g) /\
  (0 < g_dogleg2 g < PI -> exists q,
     circular_arc (g_pos3 g) (g_vec3 g) (g_dist_curve2 g) (g_dogleg2 g) q vtarget /\ miss = norm (vsub target q)).
(** what a solver call must leave alone *)
Definition keeps_inputs (solve : solver) : Prop := forall k r1 r2 seed s,
  s_prob (solve k r1 r2 seed s) = s_prob s /\ s_target (solve k r1 r2 seed s) = s_target s /\
  s_vtarget (solve k r1 r2 seed s) = s_vtarget s.
Definition keeps_start_depth (solve : solver) : Prop := forall k r1 r2 seed s,
  p_md1 (s_prob (solve k r1 r2 seed s)) = p_md1 (s_prob s).
