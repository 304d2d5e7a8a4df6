(** Model of welleng/mesh.py: ring vertices, their alignment, faces, slices. *)
Require Import Reals ZArith Bool String List.
Require Import Verif.Base Verif.NumPy Verif.M_Utils.
Import ListNotations.
Open Scope nat_scope.

(** ** Faces *)
Definition face : Type := (nat * nat * nat)%type.
(** np.roll(l, -1) *)
Definition roll1 {A} (l : list A) : list A := match l with [] => [] | a :: r => r ++ [a] end.

(** welleng/mesh.py:542-580 get_ends; column_stack of three columns *)
Definition get_ends (n_verts rows : nat) : list face * list face :=
  let total_ring_verts := rows * n_verts in
  let center_top := total_ring_verts in
  let center_bottom := total_ring_verts + 1 in
  let ring_idx := seq 0 n_verts in
  let ring_next := roll1 ring_idx in
  let top := map (fun ab => (center_top, fst ab, snd ab)) (combine ring_idx ring_next) in
  let last_ring_start := (rows - 1) * n_verts in
  let bottom := map (fun ab => (center_bottom, last_ring_start + snd ab, last_ring_start + fst ab))
                    (combine (seq 0 n_verts) (roll1 (seq 0 n_verts))) in
  (top, bottom).

(** welleng/mesh.py:583-613 get_faces.  The array of six (n_verts, rows-1)
    arrays, transposed, has for every ring and every vertex the six entries of
    two faces. *)
Definition get_faces (n_verts rows : nat) : list face :=
  let AB := combine (seq 0 n_verts) (roll1 (seq 0 n_verts)) in
  let lower := map (fun r => r + r * (n_verts - 1)) (seq 0 rows) in
  let lu := combine (removelast lower) (tl lower) in
  let faces := flat_map (fun p => flat_map (fun ab =>
      [ (fst ab + fst p, fst ab + snd p, snd ab + snd p);
        (fst ab + fst p, snd ab + fst p, snd ab + snd p) ]) AB) lu in
  let '(top, bottom) := get_ends n_verts rows in
  top ++ faces ++ bottom.

(** ** Ring vertices *)
Open Scope R_scope.
(** np.linspace(a, b, n, endpoint=False) *)
Definition linspace (a b : R) (n : nat) : list R :=
  map (fun k => a + INR k * ((b - a) / INR n)) (seq 0 n).
(** HLA (h, l, 0) to NEV at the station, plus the station position:
    welleng/mesh.py:217-228 *)
Definition place (inc azi : R) (nev : V3) (xy : R * R) : V3 :=
  vadd (HLA_to_NEV_vec inc azi (mkV (fst xy) (snd xy) 0)) nev.
(** welleng/mesh.py:120-122, 168-189 method "circle" *)
Definition circle_ring (n : nat) (radius inc azi : R) (nev : V3) : list V3 :=
  map (fun lam => place inc azi nev (radius * cos lam, radius * sin lam)) (linspace 0 (2 * PI) n).
(** welleng/mesh.py:131-140 and 154-166: semi-axis from a standard deviation *)
Definition semi_axis (sd sigma radius Sm sigma_pa : R) : R := sd * sigma + radius + Sm + sigma_pa / 2.
(** welleng/mesh.py:168-189 method "ellipse" with semi-axes h, l and the angle
    theta of the major axis (numpy's eigh is not modelled: the eigenvalues and
    the major eigenvector (e0, e1) are parameters) *)
Definition ellipse_point (h l e0 e1 lam : R) : R * R :=
  let theta := arctan2 e1 e0 in
  let x := h * cos lam in let y := l * sin lam in
  (x * cos theta - y * sin theta, x * sin theta + y * cos theta).
Definition ellipse_ring (n : nat) (h l e0 e1 inc azi : R) (nev : V3) : list V3 :=
  map (fun lam => place inc azi nev (ellipse_point h l e0 e1 lam)) (linspace 0 (2 * PI) n).
(** welleng/mesh.py:191-215 method "pedal_curve" *)
Definition pedal_point (h l lam : R) : R * R :=
  (h * (l ^ 2 * cos lam / (l ^ 2 * cos lam ^ 2 + h ^ 2 * sin lam ^ 2)),
   l * (h ^ 2 * sin lam / (l ^ 2 * cos lam ^ 2 + h ^ 2 * sin lam ^ 2))).
Definition pedal_lams (n : nat) : list R :=
  let half := map acos (linspace 1 (-1) (Nat.div n 2)) in
  half ++ map (fun x => x + PI) half.
Definition pedal_ring (n : nat) (h l inc azi : R) (nev : V3) : list V3 :=
  map (fun lam => place inc azi nev (pedal_point h l lam)) (pedal_lams n).

(** ** Alignment *)
(** welleng/mesh.py:240-286 one step of _align_verts; the two KDTree queries
    are an arbitrary function of the previous ring and this ring.  None:
    IndexError of units_1[3] (fewer than four vertices). *)
Definition align_ring {A} (query : list A -> list A -> A -> nat) (prev verts : list A) : option (list A) :=
  match nth_error prev 0, nth_error prev 3 with
  | Some key, Some rotation =>
    let idx_key := query prev verts key in
    let idx_rotation := query prev verts rotation in
    let verts_new := skipn idx_key verts ++ firstn idx_key verts in
    let d := (Z.of_nat idx_rotation - Z.of_nat idx_key)%Z in
    Some (if ((d <? 0) && (2 * Z.abs d <? Z.of_nat (length verts)))%Z%bool then rev verts_new else verts_new)
  | _, _ => None
  end.
Fixpoint align_from {A} (query : list A -> list A -> A -> nat) (prev : list A) (rings : list (list A)) : option (list (list A)) :=
  match rings with
  | [] => Some []
  | v :: r => match align_ring query prev v with
              | None => None
              | Some v' => match align_from query v' r with
                           | None => None
                           | Some r' => Some (v' :: r')
                           end
              end
  end.
Definition align_verts {A} (query : list A -> list A -> A -> nat) (rings : list (list A)) : option (list (list A)) :=
  match rings with
  | [] => Some []
  | v :: r => match align_from query v r with None => None | Some r' => Some (v :: r') end
  end.

(** ** The mesh *)
(** welleng/mesh.py:105-114 _get_faces and 300-305 _make_trimesh: faces and
    vertices from the rings; [nevs] are the stations; None: no stations *)
Definition make_mesh {A} (n_verts : nat) (rings : list (list A)) (nevs : list A) : option (list face * list A) :=
  match nevs with
  | [] => None
  | nev0 :: _ =>
    let ring_vertices := concat rings in
    let rows := Nat.div (length ring_vertices) n_verts in
    Some (get_faces n_verts rows, ring_vertices ++ [nev0; last nevs nev0])
  end.

(** ** Slices *)
(** welleng/mesh.py:97-99 the check of WellMesh.__init__ *)
Definition valid_method (m : string) : bool :=
  (String.eqb m "ellipse" || String.eqb m "pedal_curve" || String.eqb m "circle")%string.
(** outcome of a slicing call: the windows, an AssertionError, or the bound on
    the iterations was reached *)
Inductive slices := Done (ws : list (Z * Z)) | Raised | NoFuel.
(** welleng/mesh.py:477-502 the loop of sliced_mesh: the windows [i, j) of the
    stations of each mesh, latest first; [fuel] bounds the iterations; Raised:
    the assertion of WellMesh *)
Open Scope Z_scope.
Fixpoint slice_loop (fuel : nat) (meth : string) (step stop : Z) (i : Z) (meshes : list (Z * Z)) : slices :=
  match fuel with
  | O => NoFuel
  | S fuel =>
    let j := i + step + 1 in
    let j := if stop <? j then stop else j in
    let '(meshes, i) := if ((j - i <? 2) && (0 <? Z.of_nat (length meshes)))%bool
                        then (tl meshes, i - step) else (meshes, i) in
    if negb (valid_method meth) then Raised else
    let meshes := (i, j) :: meshes in
    if j =? stop then Done (rev meshes) else slice_loop fuel meth step stop (i + step) meshes
  end.
(** welleng/mesh.py:470-502; n stations *)
Definition sliced_mesh (fuel : nat) (n start stop step : Z) (meth : string) : slices :=
  if n <? stop then Raised else
  let stop := if stop =? -1 then n else stop in
  slice_loop fuel meth step stop start [].
