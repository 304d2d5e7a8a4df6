(** C162-C165: the pointer of a plot, figures of meshes and surveys, lines between wells, repaired meshes. *)
Require Import Reals ZArith Bool String List Permutation Lra Lia.
Require Import Verif.Base Verif.NumPy Verif.Spec Verif.M_Utils Verif.M_Survey Verif.M_Clearance Verif.M_Refine Verif.M_Mesh Verif.M_Visual Verif.Spec_Mesh Verif.Spec_Lists Verif.Spec_Clearance Verif.Spec_Visual.
Require Import Verif.P_Survey4 Verif.P_Survey5 Verif.P_Clearance3 Verif.P_Visual Verif.P_Visual2.
Import ListNotations.
Open Scope list_scope.
Local Open Scope R_scope.

(** * C162 *)
Theorem C162_none : forall query wells objs pos, closest_well query wells objs pos = None <-> forall w, In w wells -> ~ on_screen objs w.
Proof. exact pointer_none. Qed.
Print Assumptions C162_none.
Theorem C162_nearest : forall query wells objs pos r, finds_nearest query ->
  (forall w, In w wells -> exists v, vertex_of w v) -> closest_well query wells objs pos = Some r ->
  exists a b v, wells = a ++ pt_well r :: b /\ on_screen objs (pt_well r) /\ vertex_of (pt_well r) v /\ pt_distance r = dist pos v /\
    (forall w v', In w wells -> on_screen objs w -> vertex_of w v' -> dist pos v <= dist pos v') /\
    (forall w v', In w a -> on_screen objs w -> vertex_of w v' -> dist pos v < dist pos v').
Proof. exact pointer_nearest. Qed.
Print Assumptions C162_nearest.
Theorem C162_station : forall query wells objs pos r, finds_nearest query -> closest_well query wells objs pos = Some r -> regular (pt_well r) ->
  exists ring v a, nth_error (d_rings (pt_well r)) (pt_station r) = Some ring /\ In v ring /\ pt_distance r = dist pos v /\
    (forall v', vertex_of (pt_well r) v' -> dist pos v <= dist pos v') /\ nth_error (d_rows (pt_well r)) (pt_station r) = Some a.
Proof. exact pointer_station. Qed.
Print Assumptions C162_station.
Theorem C162_history : forall query wells events objs p, finds_nearest query -> Forall regular wells ->
  exists s, moves query wells (events ++ [(objs, p)]) plotter_shown = Some s /\
    (norm p < 1 / 100 -> s = plotter_shown) /\
    (1 / 100 <= norm p -> pl_pointer s = Some p /\
       ((forall w, In w wells -> ~ on_screen objs w) -> pl_text s = Coordinates p) /\
       (forall r, closest_well query wells objs p = Some r -> exists a, nth_error (d_rows (pt_well r)) (pt_station r) = Some a /\
          pl_text s = StationOf (d_name (pt_well r)) (st_md a) (degrees (st_inc a)) (degrees (st_azi a)) p)).
Proof. exact pointer_history. Qed.
Print Assumptions C162_history.
Example C162_case : finds_nearest first_nearest /\ regular (ex_drawn 4 4) /\ (exists v, vertex_of (ex_drawn 4 4) v) /\
  exists r, closest_well first_nearest [ex_drawn 4 4] [5%nat] (mkV 0 0 150) = Some r.
Proof.
  split; [exact first_nearest_finds|]. split.
  { split; [cbn; lia|]. split; [repeat constructor|]. split; [reflexivity|discriminate]. }
  split; [exists (mkV 0 1 100), (ex_ring 100 4); split; left; reflexivity|].
  destruct (closest_well first_nearest [ex_drawn 4 4] [5%nat] (mkV 0 0 150)) as [r|] eqn:E; [exists r; reflexivity|].
  exfalso. apply (proj1 (pointer_none _ _ _ _) E (ex_drawn 4 4)); left; reflexivity.
Qed.
Theorem C162_pedal_refuted : forall query wells objs pos r i k ring v, finds_nearest query -> closest_well query wells objs pos = Some r ->
  (2 <= d_n_verts (pt_well r))%nat -> Forall (fun ring => length ring = (d_n_verts (pt_well r) - 1)%nat) (d_rings (pt_well r)) -> NoDup (concat (d_rings (pt_well r))) ->
  nth_error (d_rings (pt_well r)) i = Some ring -> nth_error ring k = Some v -> pt_distance r = dist pos v ->
  (forall v', vertex_of (pt_well r) v' -> v' <> v -> dist pos v < dist pos v') ->
  (pt_station r = i <-> (i <= k)%nat).
Proof. exact pointer_pedal. Qed.
Print Assumptions C162_pedal_refuted.
Example C162_pedal_case : (2 <= d_n_verts (ex_drawn 4 5))%nat /\ Forall (fun ring => length ring = (d_n_verts (ex_drawn 4 5) - 1)%nat) (d_rings (ex_drawn 4 5)) /\
  NoDup (concat (d_rings (ex_drawn 4 5))) /\ (exists ring, nth_error (d_rings (ex_drawn 4 5)) 1 = Some ring /\ nth_error ring 0 = Some (mkV 0 1 200)) /\ ~ (1 <= 0)%nat.
Proof.
  split; [cbn; lia|]. split; [repeat constructor|]. split.
  { cbn. repeat constructor; cbn; intros H; repeat (destruct H as [H|H]; [injection H; intros; lra|]); exact H. }
  split; [exists (ex_ring 200 4); split; reflexivity|lia].
Qed.

(** * C163 *)
Theorem C163_caps_refuted : forall n rings fig, (3 <= n)%nat -> (2 <= length rings)%nat -> Forall (fun r => length r = n) rings -> mesh3d n rings false = Some fig ->
  mf_points fig = map (fun v => mkV (vy v) (vx v) (vz v)) (concat rings) /\
  mf_triangles fig = get_faces n (length rings) /\
  length (filter (lacks_corner (length (mf_points fig))) (mf_triangles fig)) = (2 * n)%nat /\
  length (mf_triangles fig) = (2 * n * length rings)%nat.
Proof. exact figure_caps. Qed.
Print Assumptions C163_caps_refuted.
Theorem C163_edges_refuted : forall n rings, (3 <= n)%nat -> (2 <= length rings)%nat -> Forall (fun r => length r = n) rings -> mesh3d n rings true = None.
Proof. exact figure_edges. Qed.
Print Assumptions C163_edges_refuted.
Example C163_case : (3 <= 4)%nat /\ (2 <= length (d_rings (ex_drawn 4 4)))%nat /\ Forall (fun r => length r = 4%nat) (d_rings (ex_drawn 4 4)) /\
  exists fig, mesh3d 4 (d_rings (ex_drawn 4 4)) false = Some fig.
Proof. split; [lia|]. split; [cbn; lia|]. split; [repeat constructor|]. eexists. reflexivity. Qed.
Theorem C163_repaired : forall unique rewind vertices faces, picks_rows unique -> (forall v l, Forall2 same_corners l (rewind v l)) ->
  exists out kept, fix_mesh unique rewind vertices faces = Some (vertices, out) /\ Forall2 same_corners kept out /\ NoDup kept /\
    (forall f, In f kept <-> In f faces /\ proper f) /\ Forall proper out.
Proof. exact fixed_mesh. Qed.
Print Assumptions C163_repaired.
Theorem C163_well_unchanged : forall unique rewind vertices n rows out, picks_rows unique -> (forall v l, Forall2 same_corners l (rewind v l)) ->
  (3 <= n)%nat -> (2 <= rows)%nat -> fix_mesh unique rewind vertices (get_faces n rows) = Some (vertices, out) ->
  length out = (2 * n * rows)%nat.
Proof. exact fixed_well. Qed.
Print Assumptions C163_well_unchanged.
Example C163_repaired_case : (forall (v : list V3) (l : list triangle), Forall2 same_corners l ((fun _ l => l) v l)) /\
  exists unique, picks_rows unique /\ fix_mesh unique (fun _ l => l) [] (get_faces 4 2) <> None.
Proof.
  split. { intros v l. induction l; constructor; [apply Permutation_refl|assumption]. }
  exists first_rows. split; [exact first_rows_pick|]. destruct (fixed_mesh first_rows (fun _ l => l) [] (get_faces 4 2) first_rows_pick) as (o & k & E & _).
  { intros v l. induction l; constructor; [apply Permutation_refl|assumption]. }
  intros K. discriminate (eq_trans (eq_sym E) K).
Qed.
Theorem C163_turned_refuted : forall unique vertices a b c, picks_rows unique -> a <> b -> a <> c -> b <> c ->
  exists out, fix_mesh unique (fun _ l => l) vertices [(a, b, c); (b, c, a)] = Some (vertices, out) /\ length out = 2%nat /\ same_corners (a, b, c) (b, c, a).
Proof. exact fixed_turned. Qed.
Print Assumptions C163_turned_refuted.

(** * C164 *)
Theorem C164_figure : forall s flags, length (sv_nev s) = length (sv_rows s) -> (forall l, flags = Some l -> length l = length (sv_rows s)) ->
  exists fl, (flags = Some fl \/ (flags = None /\ fl = repeat false (length (sv_rows s)))) /\ snd (scatter3d s flags) = fl /\
    let fig := fst (scatter3d s flags) in
    let here b i := Bool.eqb (nth i fl false) b in
    let mark i := let a := nth i (sv_rows s) (mkSt 0 0 0) in let v := nth i (sv_nev s) vzero in
      mkMarker (mkV (vy v) (vx v) (vz v)) (st_md a) (degrees (st_inc a)) (degrees (st_azi a)) in
    let shows b (t : option (list marker)) :=
      match t with
      | Some l => l <> [] /\ l = map mark (filter (here b) (seq 0 (length (sv_rows s))))
      | None => forall i, (i < length (sv_rows s))%nat -> here b i = false
      end in
    sf_line fig = map (fun v => mkV (vy v) (vx v) (vz v)) (sv_nev s) /\ shows true (sf_interpolated fig) /\ shows false (sf_points fig).
Proof. exact scatter_spec. Qed.
Print Assumptions C164_figure.
Example C164_case : exists s, Survey ex_header ex_rows false vzero vzero "meters" = Some s /\ length (sv_nev s) = length (sv_rows s) /\
  fst (scatter3d s None) = mkSF (map plotted (sv_nev s)) None (sf_points (fst (scatter3d s None))).
Proof.
  destruct ex_survey as [s H]. exists s. split; [exact H|]. assert (L : length (sv_nev s) = length (sv_rows s)) by (destruct (Survey_stations _ _ _ _ _ _ _ H) as (_ & L1 & _ & _ & _ & _ & _ & L2 & _); congruence). split; [exact L|].
  unfold scatter3d. cbn [fst sf_points]. f_equal. destruct (markers_spec true (sv_nev s) (repeat false (length (sv_rows s))) (sv_rows s)) as (_ & B); [rewrite repeat_length; congruence|congruence|].
  apply B. rewrite filter_none; [reflexivity|]. intros i _. rewrite nth_repeat. reflexivity.
Qed.

(** * C165 *)
Theorem C165_lengths : forall opt c ref off st en, length (sv_nev (w_survey ref)) = length (sv_rows (w_survey ref)) ->
  clearance_lines opt (w_survey ref) (w_survey off) = Some (st, en) ->
  st = sv_nev (w_survey ref) /\ length en = length st /\ length (clearance_run opt c ref off) = length st /\
  forall i p q r, nth_error st i = Some p -> nth_error en i = Some q -> nth_error (clearance_run opt c ref off) i = Some (Some r) ->
    ru_distance r = dist p q.
Proof. exact lines_spec. Qed.
Print Assumptions C165_lengths.
Theorem C165_on_well : forall h rows deg sx sn unit s opt ref,
  Survey h rows deg sx sn unit = Some s -> strictly_increasing (map st_md (sv_rows s)) ->
  (forall i a b, nth_error (sv_rows s) i = Some a -> nth_error (sv_rows s) (S i) = Some b ->
     get_dogleg (st_inc a) (st_azi a) (st_inc b) (st_azi b) < PI) ->
  never_worse opt -> sv_nev ref <> [] ->
  exists st en, clearance_lines opt ref s = Some (st, en) /\ st = sv_nev ref /\ length en = length st /\
    forall i p, nth_error st i = Some p -> exists q md n h', nth_error en i = Some q /\
      survey_interpolate_md s md = NodeOk n h' /\ nd_md n = md /\ nd_pos n = q /\
      forall k o, nth_error (sv_nev s) k = Some o -> dist p q <= dist p o.
Proof. exact lines_on_well. Qed.
Print Assumptions C165_on_well.
Example C165_case : never_worse (fun f x0 ub => (x0, f x0)) /\
  exists s, Survey ex_header ex_rows false vzero vzero "meters" = Some s /\ strictly_increasing (map st_md (sv_rows s)) /\ sv_nev s <> [].
Proof.
  split. { intros f x0 ub H. split; auto. split; auto. lra. }
  destruct ex_survey as [s H]. exists s. split; [exact H|]. split; [apply ex_increasing; exact H|]. intros E.
  assert (L : length (sv_nev s) = length (sv_rows s)) by (destruct (Survey_stations _ _ _ _ _ _ _ H) as (_ & L1 & _ & _ & _ & _ & _ & L2 & _); congruence). rewrite E, (ex_survey_rows s H) in L. discriminate.
Qed.
