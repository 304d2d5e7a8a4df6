(** Model of welleng/mesh.py: the scene of well meshes and its transformation for display. *)
Require Import Reals ZArith String List Bool.
Require Import Verif.Base.
Import ListNotations.
Open Scope R_scope.

(** a trimesh.Trimesh: its vertices and, per triangle, the indices of its corners *)
Record tri := mkTri { t_vertices : list V3; t_faces : list (nat * nat * nat) }.
(** a trimesh scene: its geometry, a dictionary in order of insertion *)
Definition scene := list (string * tri).
(** the argument data of make_trimesh_scene: a dictionary from names to meshes, or the
    list of meshes its docstring asks for *)
Inductive wells := ByName (d : list (string * tri)) | AsList (l : list tri).
(** scene.add_geometry for a name that is not yet in the scene *)
Definition add_geometry (s : scene) (name : string) (m : tri) : scene := s ++ [(name, m)].
(** mesh.py:351-376 make_trimesh_scene; None = TypeError of data[well] with a list.
    [process] stands for what trimesh.Trimesh(validate=True) makes of vertices and
    faces (mesh.py:341-347); it is not modelled *)
Definition make_trimesh_scene (process : tri -> tri) (data : wells) : option scene :=
  match data with
  | ByName d => Some (fold_left (fun s nm => add_geometry s (fst nm) (process (snd nm))) d [])
  | AsList [] => Some []
  | AsList (_ :: _) => None
  end.

(** the argument origin: not given, a list or tuple of three numbers, or a numpy array *)
Inductive origin_arg := NoOrigin | Sequence (o : V3) | Array (o : V3).
(** mesh.py:403-406; None = ValueError: the truth value of an array is ambiguous *)
Definition shift (o : origin_arg) : option V3 :=
  match o with NoOrigin => Some vzero | Sequence o => Some o | Array _ => None end.
(** simplify_quadratic_decimation returns a new mesh; the one it is called on stays as it was *)
Definition decimated (m : tri) (count : Z) : tri := m.
(** mesh.py:414-416: the axes are turned and the vertices divided by the scale (not 0) *)
Definition turned (scale : R) (v : V3) : V3 := mkV (vx v / scale) (- vz v / scale) (vy v / scale).
(** int(len(triangles) * redux) *)
Definition wanted (m : tri) (redux : R) : Z :=
  let x := INR (length (t_faces m)) * redux in if Rle_dec 0 x then Int_part x else (- Int_part (- x))%Z.
(** mesh.py:379-421 transform_trimesh_scene *)
Definition transform_trimesh_scene (s : scene) (origin : origin_arg) (scale redux : R) : option scene :=
  match shift origin with
  | None => None
  | Some T =>
    Some (fold_left (fun acc nm =>
      let m := decimated (snd nm) (wanted (snd nm) redux) in
      let moved := map (fun v => vsub v T) (t_vertices m) in
      add_geometry acc (fst nm) (mkTri (map (turned scale) moved) (t_faces m))) s [])
  end.
