(** Vocabulary for what a plot adds to a scene. *)
Require Import Reals ZArith Bool String List.
Require Import Verif.Base Verif.M_Mesh Verif.M_Plot.
Import ListNotations.
Open Scope list_scope.

(** the colour of the item number [i]: the colour of that number, if it is there and not empty *)
Definition coloured (colors : list string) (i : nat) (c : option string) : Prop :=
  (exists t, nth_error colors i = Some t /\ t <> ""%string /\ c = Some t) \/
  ((forall t, nth_error colors i = Some t -> t = ""%string) /\ c = None).
(** how an item is drawn *)
Inductive drawn_as (geometry : nat -> list V3 * list face) (c : option string) : item -> actor -> Prop :=
| well_drawn : forall o id, drawn_as geometry c (AWell o) (VedoMesh id (fst (geometry o)) (snd (geometry o)) c)
| mesh_drawn : forall v f id, drawn_as geometry c (AMesh v f) (VedoMesh id v f c)
| thing_drawn : forall x, drawn_as geometry c (AThing x) (Thing x).
Definition items (d : plot_data) : list item := match d with Many l => l | One x => [x] end.
Definition wells_of (l : list item) : list nat := flat_map (fun x => match x with AWell o => [o] | _ => [] end) l.
Definition extra (t : option nat) : list actor := match t with Some x => [Thing x] | None => [] end.
Definition ids (l : list actor) : list nat := flat_map (fun a => match a with VedoMesh i _ _ _ => [i] | Thing _ => [] end) l.
(** the last item that is this well *)
Definition last_place (l : list item) (o i : nat) : Prop :=
  nth_error l i = Some (AWell o) /\ forall j, nth_error l j = Some (AWell o) -> (j <= i)%nat.
(** the four views of a station with vertical section [v] at [p] (north, east, tvd): plan, vertical section, from the south, from the west *)
Definition shown_at (row col : nat) (v : R) (p : V3) : R * R :=
  match row, col with
  | 1, 1 => (vy p, vx p)
  | 1, 2 => (v, vz p)
  | 2, 1 => (vy p, vz p)
  | _, _ => (vx p, vz p)
  end%nat.
