(** Model of welleng/visual.py (the pointer of Plotter, the figures of surveys and meshes),
    welleng/clearance.py get_lines and welleng/mesh.py fix_mesh.  vedo, plotly and
    trimesh are not modelled: what is handed to them is. *)
Require Import Reals ZArith Bool String List.
Require Import Verif.Base Verif.NumPy Verif.M_Utils Verif.M_Survey Verif.M_Clearance Verif.M_Refine Verif.M_Mesh.
Import ListNotations.
Open Scope list_scope.
Local Open Scope R_scope.

(** ** The pointer *)
(** a WellMesh in a Plotter: the rings of its vertices and n_verts, the name and the
    stations of its survey (md, inc, azi_grid in radians), and the identity of its vedo mesh *)
Record drawn := mkDrawn { d_rings : list (list V3); d_n_verts : nat; d_name : string; d_rows : list station; d_mesh : nat }.
Record pointed := mkPointed { pt_well : drawn; pt_distance : R; pt_vertex : nat; pt_n_verts : nat; pt_station : nat }.
(** visual.py:166-189 _get_closest_well; [query] is KDTree(vertices).query(pos): distance
    and index.  n_verts is not 0. *)
Definition closest_well (query : list V3 -> V3 -> R * nat) (wells : list drawn) (objs : list nat) (pos : V3) : option pointed :=
  let wells := filter (fun w => existsb (Nat.eqb (d_mesh w)) objs) wells in
  match wells with
  | [] => None
  | _ =>
    let results := map (fun w => query (concat (d_rings w)) pos) wells in
    let winner := argmin (map fst results) in
    match nth_error wells winner, nth_error results winner with
    | Some w, Some (d, i) => Some (mkPointed w d i (d_n_verts w) (Nat.div i (d_n_verts w)))
    | _, _ => None
    end
  end.
(** what the text in the corner says; its format is not modelled, nor is the dls *)
Inductive label := NoText | Coordinates (p : V3) | StationOf (name : string) (md inc_deg azi_deg : R) (p : V3).
(** the red point, if shown, and the text *)
Record plotter := mkPlotter { pl_pointer : option V3; pl_text : label }.
(** visual.py:213-216 show *)
Definition plotter_shown : plotter := mkPlotter None NoText.
(** visual.py:125-161 _pointer_callback for the point [p] that the scene gives below the
    mouse; None: IndexError *)
Definition pointer_callback (query : list V3 -> V3 -> R * nat) (wells : list drawn) (objs : list nat) (p : V3) (s : plotter) : option plotter :=
  if Rlt_dec (norm p) (1 / 100) then
    match pl_pointer s with
    | None => Some s
    | Some _ => Some (mkPlotter None NoText)
    end
  else
    match closest_well query wells objs p with
    | None => Some (mkPlotter (Some p) (Coordinates p))
    | Some w =>
        match nth_error (d_rows (pt_well w)) (pt_station w) with
        | Some a => Some (mkPlotter (Some p) (StationOf (d_name (pt_well w)) (st_md a) (degrees (st_inc a)) (degrees (st_azi a)) p))
        | None => None
        end
    end.
(** a sequence of such events: the objects in the scene, and the point *)
Fixpoint moves (query : list V3 -> V3 -> R * nat) (wells : list drawn) (events : list (list nat * V3)) (s : plotter) : option plotter :=
  match events with
  | [] => Some s
  | (objs, p) :: r => match pointer_callback query wells objs p s with Some s => moves query wells r s | None => None end
  end.

(** ** Figures *)
(** x = e, y = n, z = tvd *)
Definition plotted (v : V3) : V3 := mkV (vy v) (vx v) (vz v).
Fixpoint all_there {A} (l : list (option A)) : option (list A) :=
  match l with
  | [] => Some []
  | Some a :: r => match all_there r with Some q => Some (a :: q) | None => None end
  | None :: _ => None
  end.
(** what is handed to plotly: the points and triangles of Mesh3d, and the points of the
    line through the edges *)
Record mesh_figure := mkMF { mf_points : list V3; mf_triangles : list face; mf_edges : option (list V3) }.
(** visual.py:480-491 _mesh3d of a WellMesh: its attributes vertices (the rings, without
    the two centres that mesh.vertices has) and faces (mesh.py:104-112); None: IndexError *)
Definition mesh3d (n_verts : nat) (rings : list (list V3)) (edges : bool) : option mesh_figure :=
  let vertices := concat rings in
  let faces := get_faces n_verts (Nat.div (length vertices) n_verts) in
  if edges then
    match all_there (map (nth_error vertices) (flat_map (fun f : face => [fst (fst f); snd (fst f); snd f]) faces)) with
    | Some l => Some (mkMF (map plotted vertices) faces (Some (map plotted l)))
    | None => None
    end
  else Some (mkMF (map plotted vertices) faces None).

(** one marker: where, and the numbers of its text *)
Record marker := mkMarker { mk_at : V3; mk_md : R; mk_inc : R; mk_azi : R }.
Record survey_figure := mkSF { sf_line : list V3; sf_interpolated : option (list marker); sf_points : option (list marker) }.
(** visual.py:448-475 one pass of the loop: the rows with the flag; without any, unpacking
    the empty array raises ValueError, which is ignored *)
Definition markers (flag : bool) (nev : list V3) (interpolated : list bool) (rows : list station) : option (list marker) :=
  match filter (fun x => Bool.eqb (snd (fst x)) flag) (combine (combine nev interpolated) rows) with
  | [] => None
  | l => Some (map (fun x => mkMarker (plotted (fst (fst x))) (st_md (snd x)) (degrees (st_inc (snd x))) (degrees (st_azi (snd x)))) l)
  end.
(** visual.py:434-477 _scatter3d; [interpolated]: the attribute, None when it is missing
    or None.  Also returned: the attribute afterwards *)
Definition scatter3d (s : survey) (interpolated : option (list bool)) : survey_figure * list bool :=
  let flags := match interpolated with Some l => l | None => repeat false (length (sv_rows s)) end in
  (mkSF (map plotted (sv_nev s)) (markers true (sv_nev s) flags (sv_rows s)) (markers false (sv_nev s) flags (sv_rows s)), flags).

(** ** Lines between wells *)
(** clearance.py:587-610 IscwsaClearance.get_lines: per reference station it and the
    point found on the offset (clearance.py:612-660); None: an exception *)
Definition clearance_lines (opt : optimiser) (ref off : survey) : option (list V3 * list V3) :=
  let closest := all_there (map (fun p => match closest_point opt off p (nearest_station (sv_nev off) p) with
                                          | Some (_, _, _, q) => Some (p, q)
                                          | None => None
                                          end) (sv_nev ref)) in
  match closest with
  | Some [] => None                        (* np.vstack of nothing *)
  | Some l => Some (map fst l, map snd l)
  | None => None
  end.

(** ** Repair *)
Definition flat (f : face) : bool :=
  let '(a, b, c) := f in ((a =? b) || (a =? c) || (b =? c))%nat%bool.
(** mesh.py:506-539 fix_mesh: [unique] is trimesh.grouping.unique_rows(faces)[0],
    [rewind] stands for fix_winding and fix_normals *)
Definition fix_mesh (unique : list face -> list nat) (rewind : list V3 -> list face -> list face) (vertices : list V3) (faces : list face)
  : option (list V3 * list face) :=
  match all_there (map (nth_error faces) (unique faces)) with
  | None => None
  | Some unique_faces => Some (vertices, rewind vertices (filter (fun f => negb (flat f)) unique_faces))
  end.
