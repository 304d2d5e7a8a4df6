(** Property theorems C22, C23, C66-C69 (welleng/mesh.py). *)
Require Import Reals ZArith Arith Lra Lia Bool String List Permutation.
Require Import Verif.Base Verif.NumPy Verif.Spec Verif.M_Utils Verif.M_Mesh Verif.Spec_Mesh Verif.P_Mesh Verif.P_Mesh2 Verif.P_Mesh3.
Import ListNotations.

(** * C22 *)
Open Scope nat_scope.
Theorem C22_closed : forall n rows, 3 <= n -> 2 <= rows ->
  (forall f, In f (get_faces n rows) -> forall x y, In (x, y) (sides f) ->
     length (filter (has_side x y) (get_faces n rows)) = 2) /\
  (forall v w, v < n * rows + 2 -> w < n * rows + 2 -> joined (get_faces n rows) v w).
Proof. exact mesh_closed. Qed.
Print Assumptions C22_closed.
Theorem C22_indices : forall n rows, 3 <= n -> 2 <= rows ->
  length (get_faces n rows) = 2 * n * rows /\ NoDup (get_faces n rows) /\
  (forall f, In f (get_faces n rows) -> NoDup (corners f) /\ forall v, In v (corners f) -> v < n * rows + 2) /\
  (forall v, v < n * rows + 2 -> exists f, In f (get_faces n rows) /\ In v (corners f)).
Proof. exact mesh_indices. Qed.
Print Assumptions C22_indices.
Theorem C22_consistent_winding_refuted : forall n rows, 3 <= n -> 2 <= rows ->
  exists f g e, In f (get_faces n rows) /\ In g (get_faces n rows) /\ f <> g /\ In e (sides f) /\ In e (sides g).
Proof. exact mesh_wound. Qed.
Print Assumptions C22_consistent_winding_refuted.
Example C22_case : 3 <= 4 /\ 2 <= 3 /\ In (12, 0, 1) (get_faces 4 3) /\ In (0, 1) (sides (12, 0, 1)) /\
  filter (has_side 0 1) (get_faces 4 3) = [(12, 0, 1); (0, 1, 5)].
Proof. split; [lia|]. split; [lia|]. split; [simpl; auto|]. split; [simpl; auto|]. reflexivity. Qed.

(** * C23 *)
Open Scope Z_scope.
Theorem C23_windows : forall fuel n start stop step meth, valid_method meth = true -> 1 <= step ->
  let last := if stop =? -1 then n else stop in
  stop <= n -> start + 2 <= last -> (Z.to_nat (last - start) <= fuel)%nat ->
  exists ws, sliced_mesh fuel n start stop step meth = Done ws /\
    (exists j rest, ws = (start, j) :: rest) /\ (exists front k, ws = front ++ [(k, last)]) /\
    (forall i j, In (i, j) ws -> start <= i /\ j <= last /\ 2 <= j - i <= step + 1) /\
    (forall k i j i' j', nth_error ws k = Some (i, j) -> nth_error ws (S k) = Some (i', j') -> i' = j - 1) /\
    each_interval_once start last ws.
Proof. exact slices_cover. Qed.
Print Assumptions C23_windows.
Theorem C23_default_raises : forall fuel n start stop step,
  sliced_mesh (S fuel) n start stop step "mesh_ellipse" = Raised.
Proof. exact slices_default. Qed.
Print Assumptions C23_default_raises.
Example C23_case : valid_method "circle" = true /\ 1 <= 3 /\ 1 + 2 <= 9 /\
  sliced_mesh 20 10 1 9 3 "circle" = Done [(1, 5); (4, 8); (7, 9)].
Proof. repeat split; try lia; reflexivity. Qed.
Close Scope Z_scope.

(** * C66 *)
Open Scope R_scope.
Theorem C66_circle : forall n radius inc azi nev, length (circle_ring n radius inc azi nev) = n /\
  forall k, (k < n)%nat -> exists p q,
    nth_error (circle_ring n radius inc azi nev) k = Some p /\
    nth_error (circle_ring n radius inc azi nev) (if (S k =? n)%nat then 0%nat else S k) = Some q /\
    dist p nev = Rabs radius /\ dot (vsub p nev) (direction_nev inc azi) = 0 /\
    dist q p = 2 * Rabs radius * sin (PI / INR n).
Proof. exact circle_spec. Qed.
Print Assumptions C66_circle.
Theorem C66_ellipse : forall n h l e0 e1 inc azi nev p, e0 ^ 2 + e1 ^ 2 = 1 -> In p (ellipse_ring n h l e0 e1 inc azi nev) ->
  exists x y, p = across inc azi nev x y /\
    l ^ 2 * (x * e0 + y * e1) ^ 2 + h ^ 2 * (y * e0 - x * e1) ^ 2 = h ^ 2 * l ^ 2.
Proof. exact ellipse_spec. Qed.
Print Assumptions C66_ellipse.
Theorem C66_semi_axes : forall m k s_major s_minor radius Sm sigma_pa e0 e1 inc azi nev,
  (0 < m)%nat -> e0 ^ 2 + e1 ^ 2 = 1 -> 0 <= k -> 0 <= s_major -> 0 <= s_minor -> 0 <= radius -> 0 <= Sm -> 0 <= sigma_pa ->
  let ring := ellipse_ring (4 * m) (semi_axis k s_major radius Sm sigma_pa) (semi_axis k s_minor radius Sm sigma_pa) e0 e1 inc azi nev in
  exists p q, nth_error ring 0 = Some p /\ nth_error ring m = Some q /\
    dist p nev - sigma_pa / 2 - radius - Sm = k * s_major /\
    dist q nev - sigma_pa / 2 - radius - Sm = k * s_minor /\
    p = across inc azi nev (dist p nev * e0) (dist p nev * e1) /\
    q = across inc azi nev (- dist q nev * e1) (dist q nev * e0).
Proof. exact semi_axes_spec. Qed.
Print Assumptions C66_semi_axes.
Example C66_case : (3 / 5) ^ 2 + (4 / 5) ^ 2 = 1 /\ exists p, In p (ellipse_ring 12 3 2 (3 / 5) (4 / 5) 1 2 (mkV 1 2 3)).
Proof. split; [lra|]. eexists. left. reflexivity. Qed.

(** * C67 *)
Theorem C67_pedal_curve : forall n h l inc azi nev p, 0 < h -> 0 < l -> In p (pedal_ring n h l inc azi nev) ->
  exists x y lam, p = across inc azi nev x y /\
    (* the foot of the perpendicular on the tangent of the ellipse at lam *)
    (exists t, x = h * cos lam - t * (h * sin lam) /\ y = l * sin lam + t * (l * cos lam)) /\
    x * (h * sin lam) = y * (l * cos lam) /\
    (* the furthest the ellipse reaches in that direction, attained at lam *)
    (forall u v, in_ellipse h l u v -> x * u + y * v <= x ^ 2 + y ^ 2) /\
    x * (h * cos lam) + y * (l * sin lam) = x ^ 2 + y ^ 2 /\
    0 < x ^ 2 + y ^ 2 /\
    (x ^ 2 + y ^ 2) ^ 2 = (h * x) ^ 2 + (l * y) ^ 2.
Proof. exact pedal_ring_spec. Qed.
Print Assumptions C67_pedal_curve.
Theorem C67_opposite : forall n h l inc azi nev k, 0 < h -> 0 < l -> (k < Nat.div n 2)%nat ->
  exists p q x y lam, nth_error (pedal_ring n h l inc azi nev) k = Some p /\
    nth_error (pedal_ring n h l inc azi nev) (k + Nat.div n 2) = Some q /\
    p = across inc azi nev x y /\ vsub q nev = vsub nev p /\ p <> q /\
    0 <= lam < PI /\ cos lam = 1 - 2 * INR k / INR (Nat.div n 2) /\
    0 <= y /\ x * (h * sin lam) = y * (l * cos lam).
Proof. exact pedal_opposite. Qed.
Print Assumptions C67_opposite.
Example C67_case : 0 < 3 /\ 0 < 2 /\ (2 < Nat.div 12 2)%nat /\ exists p, In p (pedal_ring 12 3 2 1 2 (mkV 1 2 3)).
Proof. split; [lra|]. split; [lra|]. split; [simpl; lia|]. eexists. left. reflexivity. Qed.
Close Scope R_scope.

(** * C68 *)
Open Scope nat_scope.
Theorem C68_same_cycle : forall A (query : list A -> list A -> A -> nat) rings out,
  (forall p v x, query p v x < length v) -> align_verts query rings = Some out -> Forall2 same_cycle rings out.
Proof. exact align_cycles. Qed.
Print Assumptions C68_same_cycle.
Theorem C68_vertices_kept : forall A (a b : list A), same_cycle a b -> Permutation a b.
Proof. exact same_cycle_perm. Qed.
Print Assumptions C68_vertices_kept.
Theorem C68_fails : forall A (query : list A -> list A -> A -> nat) n rings,
  (forall p v x, query p v x < length v) -> Forall (fun v => length v = n) rings ->
  (align_verts query rings = None <-> n < 4 /\ 2 <= length rings).
Proof. exact align_fails. Qed.
Print Assumptions C68_fails.
Theorem C68_direction : forall A (query : list A -> list A -> A -> nat) prev verts key rot k r,
  nth_error prev 0 = Some key -> nth_error prev 3 = Some rot ->
  query prev verts key = k -> query prev verts rot = r -> k < length verts ->
  (r = (k + 3) mod length verts -> 6 <= length verts -> align_ring query prev verts = Some (skipn k verts ++ firstn k verts)) /\
  (r = (k + 3) mod length verts -> 4 <= length verts < 6 -> length verts <= k + 3 ->
     align_ring query prev verts = Some (rev (skipn k verts ++ firstn k verts))) /\
  (r = (k + length verts - 3) mod length verts -> 7 <= length verts ->
     align_ring query prev verts = Some (if 3 <=? k then rev (skipn k verts ++ firstn k verts) else skipn k verts ++ firstn k verts)).
Proof. exact align_direction. Qed.
Print Assumptions C68_direction.
Example C68_case :
  let near := fun (p v : list nat) x => Nat.min x (length v - 1) in
  let ring := [10; 11; 12; 13; 14; 15; 16] in
  align_ring near [5; 6; 0; 2] ring = Some (rev (skipn 5 ring ++ firstn 5 ring)) /\
  align_verts near [[5; 6; 7; 1; 2; 3; 4]; ring] = Some [[5; 6; 7; 1; 2; 3; 4]; skipn 5 ring ++ firstn 5 ring] /\
  2 = (5 + 7 - 3) mod 7.
Proof. repeat split; reflexivity. Qed.

(** * C69 *)
Theorem C69_vertices : forall A n (rings : list (list A)) nevs faces verts,
  3 <= n -> Forall (fun v => length v = n) rings -> length nevs = length rings -> 2 <= length rings ->
  make_mesh n rings nevs = Some (faces, verts) ->
  faces = get_faces n (length rings) /\ length verts = n * length rings + 2 /\
  (forall r ring a, nth_error rings r = Some ring -> a < n -> nth_error verts (r * n + a) = nth_error ring a) /\
  nth_error verts (n * length rings) = nth_error nevs 0 /\
  nth_error verts (n * length rings + 1) = nth_error nevs (length nevs - 1) /\
  (forall f v, In f faces -> In v (corners f) -> exists p, nth_error verts v = Some p).
Proof. exact mesh_vertices. Qed.
Print Assumptions C69_vertices.
Theorem C69_pedal_ring_size : forall n h l inc azi nev, length (pedal_ring n h l inc azi nev) = 2 * (n / 2).
Proof. exact pedal_len. Qed.
Print Assumptions C69_pedal_ring_size.
Theorem C69_odd_pedal_refuted : forall A n (rings : list (list A)) nevs faces verts,
  Nat.Odd n -> Forall (fun v => length v = 2 * (n / 2)) rings -> 3 <= length rings -> length rings + 1 < n ->
  make_mesh n rings nevs = Some (faces, verts) ->
  faces = get_faces n (length rings - 1) /\
  forall f v, In f faces -> In v (corners f) -> v < length (concat rings).
Proof. exact odd_pedal_mesh. Qed.
Print Assumptions C69_odd_pedal_refuted.
Example C69_case :
  make_mesh 3 [[1; 2; 3]; [4; 5; 6]] [7; 8] = Some (get_faces 3 2, [1; 2; 3; 4; 5; 6; 7; 8]) /\
  Nat.Odd 7 /\ Forall (fun v => length v = 2 * (7 / 2)) [seq 0 6; seq 0 6; seq 0 6] /\ 3 + 1 < 7.
Proof. split; [reflexivity|]. split; [exists 3; reflexivity|]. split; [repeat constructor|lia]. Qed.
