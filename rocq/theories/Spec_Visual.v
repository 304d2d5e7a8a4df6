(** Vocabulary for the pointer, figures and lines of a plot. *)
Require Import Reals ZArith Bool String List Permutation.
Require Import Verif.Base Verif.M_Utils Verif.M_Mesh Verif.M_Visual Verif.Spec_Mesh.
Import ListNotations.
Open Scope list_scope.
Local Open Scope R_scope.

(** a search that answers with a nearest point and its distance *)
Definition finds_nearest (query : list V3 -> V3 -> R * nat) : Prop :=
  forall l p, l <> [] -> exists q, nth_error l (snd (query l p)) = Some q /\ fst (query l p) = dist p q /\ forall q', In q' l -> dist p q <= dist p q'.
Definition vertex_of (w : drawn) (v : V3) : Prop := exists ring, In ring (d_rings w) /\ In v ring.
Definition on_screen (objs : list nat) (w : drawn) : Prop := In (d_mesh w) objs.
(** a ring of n_verts vertices at every station *)
Definition regular (w : drawn) : Prop :=
  (0 < d_n_verts w)%nat /\ Forall (fun ring => length ring = d_n_verts w) (d_rings w) /\ length (d_rows w) = length (d_rings w) /\ d_rings w <> [].
(** the triangle has a corner that is not among [n] vertices *)
Definition lacks_corner (n : nat) (f : triangle) : bool := existsb (fun c => (n <=? c)%nat) (corners f).
(** three different corners *)
Definition proper (f : triangle) : Prop := let '(a, b, c) := f in a <> b /\ a <> c /\ b <> c.
(** the same corners, in any order *)
Definition same_corners (f g : triangle) : Prop := Permutation (corners f) (corners g).
(** indices of the rows, every row once *)
Definition picks_rows (unique : list triangle -> list nat) : Prop :=
  forall l, exists q, map (nth_error l) (unique l) = map Some q /\ NoDup q /\ forall f, In f l <-> In f q.
(** the search a KDTree makes, written out: the first nearest point *)
Fixpoint first_nearest (l : list V3) (p : V3) : R * nat :=
  match l with
  | [] => (0, O)
  | a :: r => match r with
              | [] => (dist p a, O)
              | _ => let '(d, i) := first_nearest r p in if Rle_dec (dist p a) d then (dist p a, O) else (d, S i)
              end
  end.
(** a vertical well of two stations with rings of [n] different vertices *)
Definition ex_ring (z : R) (n : nat) : list V3 := map (fun k => mkV (INR k) 1 z) (seq 0 n).
Definition ex_drawn (n m : nat) : drawn := mkDrawn [ex_ring 100 n; ex_ring 200 n] m "A" [mkSt 100 0 0; mkSt 200 0 0] 5.
Definition tri_dec : forall f g : triangle, {f = g} + {f <> g}.
Proof. repeat decide equality. Defined.
(** the index of the first of equal rows, one per row *)
Fixpoint first_rows_from (k : nat) (seen l : list triangle) : list nat :=
  match l with
  | [] => []
  | f :: r => if in_dec tri_dec f seen then first_rows_from (S k) seen r else k :: first_rows_from (S k) (f :: seen) r
  end.
Definition first_rows (l : list triangle) : list nat := first_rows_from 0 [] l.
