(** Model of welleng/clearance.py: MeshClearance. *)
Require Import Reals ZArith Bool String List.
Require Import Verif.Base Verif.NumPy Verif.M_Utils Verif.M_Survey Verif.M_Clearance Verif.M_MaxCurve Verif.M_Refine.
Import ListNotations.
Local Open Scope R_scope.

(** the survey after its header object was set to azi_reference = 'grid' *)
Definition with_grid (s : survey) : survey :=
  mkSurvey (grid_reference (sv_header s)) (sv_rows s) (sv_azi_true s) (sv_azi_mag s) (sv_dogleg s) (sv_delta_md s)
    (sv_xyz s) (sv_nev s) (sv_pos_nev s) (sv_interpolated s).

(** welleng/clearance.py:1062-1072 MeshClearance._fun; 0 stands for an exception *)
Definition slice_fun (s : survey) (pos : V3) (x : R) : R :=
  match interpolate_at s x 0 with
  | Some (r, _) => match nth_error (sv_nev r) 1 with Some q => norm (vsub q pos) | None => 0 end
  | None => 0
  end.
(** welleng/clearance.py:1074-1093 _get_closest_nev: the point, res.x and res.fun *)
Definition closest_nev (opt : optimiser) (s : survey) (pos : V3) : option (V3 * R * R) :=
  match nth_error (sv_rows s) 0, nth_error (sv_rows s) 1 with
  | Some a, Some b =>
      let bound := st_md b - st_md a in
      let '(x, f) := opt (slice_fun s pos) (bound / 2) bound in
      match interpolate_at s x 0 with
      | Some (r, _) => match last (map Some (sv_nev r)) None with Some q => Some (q, x, f) | None => None end
      | None => None
      end
  | _, _ => None
  end.

(** what the collision manager of trimesh returns for the mesh of a section:
    whether it collides with the mesh of the offset well, the distance, and the two
    closest points *)
Record answer := mkAnswer { an_collides : bool; an_distance : R; an_ref : V3; an_off : V3 }.

(** one entry of the lists that _process_well fills *)
Record mesh_row := mkMR {
  mr_collides : bool; mr_ref_nev : V3; mr_ref_md : R; mr_off_index : nat; mr_off_nev : V3; mr_off_md : R;
  mr_distance_cc : R; mr_bearing : R; mr_sf : ext; mr_ref_pcr : R; mr_off_pcr : R; mr_calc_hole : R }.

Record mesh_settings := mkMS { ms_sigma : R; ms_sigma_pa : R; ms_Sm : R }.

Definition eround2 (x : ext) : ext := match x with Fin r => Fin (round2 r) | y => y end.

(** welleng/clearance.py:953-1059 the body of the loop of _process_well with
    return_data; [query] stands for the mesh of the slice and the collision manager,
    the nearest station of the KDTree is the first nearest one.  [shared]: reference
    and offset have the same header object.  The surveys are returned as they are
    afterwards: interpolating in a slice sets the reference of the shared header
    (welleng/survey.py:1892-1893).  None: an exception. *)
Definition mesh_section (opt : optimiser) (c : mesh_settings) (query : nat -> survey -> answer) (shared : bool)
  (ref off : survey) (ref_radius off_radius : list R) (i : nat) : option (mesh_row * survey * survey) :=
  match slice_survey ref i (i + 2), nth_error (sv_rows ref) i, nth_error ref_radius i with
  | Some s, Some a, Some rr =>
      let an := query i s in
      match closest_nev opt s (an_ref an) with
      | None => None
      | Some (ref_nev, xr, fr) =>
          let ref := with_grid ref in
          let off := if shared then with_grid off else off in
          let n := length (sv_rows off) in
          let j := nearest_station (sv_nev off) (an_off an) in
          let after := if (j <? n - 1)%nat then
              match slice_survey off j n with Some s => Some (closest_nev opt s (an_off an)) | None => Some None end
            else None in
          let off := if (j <? n - 1)%nat then with_grid off else off in
          let before := if (0 <? j)%nat then
              match slice_survey off (j - 1) n with Some s => Some (closest_nev opt s (an_off an)) | None => Some None end
            else None in
          let off := if (0 <? j)%nat then with_grid off else off in
          let md k := st_md (nth k (sv_rows off) (mkSt 0 0 0)) in
          let chosen :=
            match before, after with
            | Some (Some (q0, x0, f0)), Some (Some (q1, x1, f1)) =>
                if Rlt_dec f0 f1 then Some (q0, md (j - 1)%nat + x0, f0) else Some (q1, md j + x1, f1)
            | Some (Some (q0, x0, f0)), None => Some (q0, md (j - 1)%nat + x0, f0)
            | None, Some (Some (q1, x1, f1)) => Some (q1, md j + x1, f1)
            | _, _ => None
            end in
          match chosen, nth_error off_radius j with
          | Some (off_nev, off_md, fo), Some ro =>
              let vec := vsub off_nev ref_nev in
              let distance_cc := norm vec in
              let bearing := rmod (degrees (arctan2 (vy vec) (vx vec)) + 360) 360 in
              let sf := mesh_sf (an_collides an) distance_cc (an_distance an) (norm (vsub (an_off an) (an_ref an))) in
              Some (mkMR (an_collides an) ref_nev (st_md a + xr) j off_nev off_md distance_cc bearing (eround2 sf)
                      ((fr - ms_sigma_pa c / 2 - rr) / ms_sigma c)
                      ((fo - ms_sigma_pa c / 2 - ro - ms_Sm c) / ms_sigma c) (rr + ro),
                    ref, off)
          | _, _ => None
          end
      end
  | _, _, _ => None
  end.
(** welleng/clearance.py:944-1059 _process_well: one entry per section *)
Fixpoint mesh_sections (opt : optimiser) (c : mesh_settings) (query : nat -> survey -> answer) (shared : bool)
  (ref off : survey) (ref_radius off_radius : list R) (i k : nat) : option (list mesh_row) :=
  match k with
  | O => Some []
  | S k =>
      match mesh_section opt c query shared ref off ref_radius off_radius i with
      | None => None
      | Some (m, ref, off) =>
          match mesh_sections opt c query shared ref off ref_radius off_radius (S i) k with
          | Some r => Some (m :: r)
          | None => None
          end
      end
  end.
Definition mesh_clearance (opt : optimiser) (c : mesh_settings) (query : nat -> survey -> answer) (shared : bool)
  (ref off : survey) (ref_radius off_radius : list R) : option (list mesh_row) :=
  mesh_sections opt c query shared ref off ref_radius off_radius 0 (length (sv_rows ref) - 1).

(** the same with return_data=False: welleng/clearance.py:953-963 and 1057-1059; nothing is interpolated and
    the headers stay as they are *)
Definition mesh_collisions (query : nat -> survey -> answer) (ref : survey) : list (option bool) :=
  map (fun i => match slice_survey ref i (i + 2) with Some s => Some (an_collides (query i s)) | None => None end)
    (seq 0 (length (sv_rows ref) - 1)).
