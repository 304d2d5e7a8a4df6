(** Vocabulary of the first rescue pass of a curve-hold-curve connection (C37). *)
Require Import Reals ZArith List.
Require Import Verif.Base Verif.Spec Verif.M_Connector Verif.M_Connector2.
Import ListNotations.
Open Scope R_scope.

(** the length of the hold along its direction: negative when it runs backwards *)
Definition hold_length (g : geo) : R := dot (vsub (g_pos3 g) (g_pos2 g)) (g_vec3 g).
(** one call of the solver with the design radii of the problem and a given seed *)
Definition trial (solve : solver) (k : nat) (seed : V3) (s : chc) : chc :=
  solve k (p_rd (s_prob s)) (p_rd2 (s_prob s)) (Some seed) (reset_radii s).
(** radius [r] (None = infinite) is not smaller than [before], up to [e] *)
Definition not_smaller (r before : option R) (e : R) : Prop :=
  match r with
  | None => True
  | Some x => match before with Some y => y - e <= x | None => False end
  end.
(** a trial is accepted with the attributes [g]: its hold does not run backwards by
    more than the tolerance and its smaller arc is not tighter than before *)
Definition acceptable (before : option R) (t : chc) (g : geo) : Prop :=
  happy_finish t = Some g /\ - p_min_error (s_prob t) <= hold_length g /\
  not_smaller (arc_radius (p_rd (s_prob t)) g) before (p_min_error (s_prob t)).
Definition rejected (before : option R) (t : chc) : Prop := forall g, ~ acceptable before t g.
(** the state after a trial that was not accepted *)
Definition tried (t : chc) : chc := match happy_finish t with Some g => set_geo t g | None => t end.
