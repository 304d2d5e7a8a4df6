(** Model of welleng/visual.py Plotter.add, plot and the panel figure.  vedo and plotly
    are not modelled: what is handed to them is. *)
Require Import Reals ZArith Bool String List.
Require Import Verif.Base Verif.NumPy Verif.M_Utils Verif.M_Survey Verif.M_Mesh.
Import ListNotations.
Open Scope list_scope.
Local Open Scope R_scope.

(** what can be added: a WellMesh (its identity), a namespace with vertices and faces,
    anything else *)
Inductive item := AWell (o : nat) | AMesh (vertices : list V3) (faces : list face) | AThing (x : nat).
(** what a scene is given: a vedo.Mesh made here (its identity, vertices, faces and the
    colour c, if one is passed), or the thing itself *)
Inductive actor := VedoMesh (id : nat) (vertices : list V3) (faces : list face) (c : option string) | Thing (x : nat).
(** the objects handed to one Plotter, and its attribute wells *)
Record scene := mkScene { sc_actors : list actor; sc_wells : list nat }.
(** what is shared by all Plotters: the attribute vedo_mesh of every WellMesh, and the
    number of vedo meshes made *)
Record shared := mkShared { sh_mesh : nat -> option nat; sh_next : nat }.
Definition set_mesh (o m : nat) (f : nat -> option nat) : nat -> option nat := fun o' => if Nat.eqb o' o then Some m else f o'.
(** visual.py:52-88 Plotter.add with keyword c or without; [geometry]: the mesh of a WellMesh *)
Definition plotter_add (geometry : nat -> list V3 * list face) (x : item) (c : option string) (s : scene) (h : shared) : scene * shared :=
  match x with
  | AWell o =>
      (mkScene (sc_actors s ++ [VedoMesh (sh_next h) (fst (geometry o)) (snd (geometry o)) c]) (sc_wells s ++ [o]),
       mkShared (set_mesh o (sh_next h) (sh_mesh h)) (S (sh_next h)))
  | AMesh v f => (mkScene (sc_actors s ++ [VedoMesh (sh_next h) v f c]) (sc_wells s), mkShared (sh_mesh h) (S (sh_next h)))
  | AThing y => (mkScene (sc_actors s ++ [Thing y]) (sc_wells s), h)
  end.
(** a colour that is not empty *)
Definition truthy (c : option string) : option string :=
  match c with Some t => if String.eqb t "" then None else Some t | None => None end.
(** visual.py:323-326; [colors] None or [] is no colours *)
Fixpoint add_all (geometry : nat -> list V3 * list face) (colors : list string) (i : nat) (data : list item) (s : scene) (h : shared) : scene * shared :=
  match data with
  | [] => (s, h)
  | x :: r =>
      let c := if Nat.ltb i (length colors) then nth_error colors i else None in
      let '(s, h) := plotter_add geometry x (truthy c) s h in
      add_all geometry colors (S i) r s h
  end.
Inductive plot_data := Many (l : list item) | One (x : item).
(** lines and arrows go to vedo's own add *)
Definition add_thing (t : option nat) (s : scene) : scene :=
  match t with Some x => mkScene (sc_actors s ++ [Thing x]) (sc_wells s) | None => s end.
(** visual.py:300-335 plot, up to show *)
Definition plot (geometry : nat -> list V3 * list face) (data : plot_data) (colors : list string) (lines arrows : option nat) (h : shared) : scene * shared :=
  let '(s, h) :=
    match data with
    | Many l => add_all geometry colors 0 l (mkScene [] []) h
    | One x => plotter_add geometry x (truthy (match colors with [] => None | c :: _ => Some c end)) (mkScene [] []) h
    end in
  (add_thing arrows (add_thing lines s), h).
(** visual.py:163-170 the wells of a Plotter whose vedo mesh is among the actors of a scene *)
Definition seen (s : scene) (h : shared) (ids : list nat) : list nat :=
  filter (fun o => match sh_mesh h o with Some m => existsb (Nat.eqb m) ids | None => false end) (sc_wells s).

(** ** The panel figure *)
(** one trace: its subplot (row, column) and points *)
Record trace := mkTrace { tr_row : nat; tr_col : nat; tr_points : list (R * R) }.
(** visual.py:390-432 _panel: None when the header has no vertical section azimuth
    (np.degrees of None raises) *)
Definition panel (s : survey) (vs_azimuth : option R) : option (R * list trace) :=
  match vs_azimuth with
  | None => None
  | Some a =>
      let section := fst (survey_vertical_section s a) in
      Some (degrees a,
        [mkTrace 1 1 (map (fun p => (vy p, vx p)) (sv_nev s));
         mkTrace 1 2 (combine section (map vz (sv_nev s)));
         mkTrace 2 2 (map (fun p => (vx p, vz p)) (sv_nev s));
         mkTrace 2 1 (map (fun p => (vy p, vz p)) (sv_nev s))])
  end.
