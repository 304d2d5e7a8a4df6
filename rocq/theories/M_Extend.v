(** Model of welleng/connector.py:2545-2748: drop_off and extend_to_tvd.  The
    scipy optimiser is an argument: it is given the objective, the initial guess
    and the bounds, and answers with result.x. *)
Require Import Reals ZArith Bool String List.
Require Import Verif.Base Verif.NumPy Verif.M_Utils Verif.M_Connector.
Import ListNotations.
Open Scope R_scope.

(** scipy.optimize.minimize over two variables (connector.py:2607-2610): the
    objective, x0 and the two (lower, upper) bounds *)
Definition minimizer2 := (R * R -> R) -> R * R -> (R * R) * (R * R) -> R * R.
(** scipy.optimize.minimize over one variable bounded below (connector.py:2695-2701,
    2727-2733).  An objective that raises, or the optimiser failing, is None. *)
Definition minimizer1 := (R -> option R) -> R -> R -> option R.

(** outcome of drop_off: ValueError from minimize when an upper bound is below
    the lower one; nan positions when dls is zero (infinite radius) *)
Inductive drop_result := DropValueError | DropNotFinite | DropNodes (l : list node).

(** connector.py:2597 [0 if -pi/2 <= toolface <= pi/2 else pi] *)
Definition drop_side (toolface : R) : R :=
  if Rle_dec (- PI / 2) toolface then if Rle_dec toolface (PI / 2) then 0 else PI else PI.
(** connector.py:2586-2600 _drop_off with return_data=True.  get_arc treats a
    missing position as the origin and a missing direction as straight down
    (utils.py:590-607). *)
Definition node_pos (n : node) : V3 := match n_pos_nev n with Some p => p | None => vzero end.
Definition node_vec (n : node) : V3 := match n_vec_nev n with Some v => v | None => mkV 0 0 1 end.
Definition drop_data (radius : R) (n : node) (x : R * R) : V3 * V3 * R :=
  let '(dogleg, toolface) := x in
  let '(p, v, len, _) := get_arc dogleg radius (drop_side toolface) (node_pos n) (node_vec n) false in
  (p, v, len).
(** connector.py:2602-2606 the value that is minimised *)
Definition drop_misfit (radius target_inc : R) (n : node) (x : R * R) : R :=
  let '(_, v, _) := drop_data radius n x in
  Rabs (degrees (fst (get_angles true v)) - target_inc).

(** connector.py:2609 [node.md = 0 if node.md is None else node.md]: the caller's
    node is changed *)
Definition with_md (n : node) : node :=
  mkNode (n_pos_nev n) (n_pos_xyz n) (n_vec_nev n) (n_vec_xyz n) (n_inc_rad n) (n_azi_rad n)
    (match n_md n with None => Some 0 | Some m => Some m end).
Definition md_of (n : node) : R := match n_md n with None => 0 | Some m => m end.
(** node.py:45-106 Node() *)
Definition empty_node : node := mkNode None None None None None None None.

(** connector.py:2545-2647 drop_off.  [n] = None is node=None. *)
Definition drop_off (mini : minimizer2) (target_inc dls : R) (delta_md : option R)
    (n : option node) (tol : R) : drop_result :=
  let n := with_md (match n with None => empty_node | Some n => n end) in
  match radius_from_dls_scalar (Fin dls) with
  | Fin radius =>
      let max_dogleg := match delta_md with None => 2 * PI | Some d => d / radius end in
      let upper := Rmin (2 * PI) max_dogleg in
      if Rlt_dec upper 0 then DropValueError
      else
        let x := mini (drop_misfit radius target_inc n) (upper / 2, PI) ((0, upper), (- PI, PI)) in
        let '(pos2, vec2, arc_length) := drop_data radius n x in
        let tangent_length := match delta_md with None => 0 | Some d => d - arc_length end in
        let md2 := md_of n + arc_length in
        match make_node (Some pos2) (Some vec2) None None (Some md2) true with
        | None => DropNotFinite
        | Some node2 =>
            if Rlt_dec tol tangent_length then
              let pos3 := vadd pos2 (vscale tangent_length vec2) in
              match make_node (Some pos3) (Some vec2) None None (Some (md2 + tangent_length)) true with
              | None => DropNotFinite
              | Some node3 => DropNodes [node2; node3]
              end
            else DropNodes [node2]
        end
  | _ => DropNotFinite
  end.

(** outcome of extend_to_tvd: TypeError for a missing position or direction, an
    exception of the Connector constructor, or the connections *)
Inductive extend_result := ExtTypeError | ExtOptimiser | ExtNotFinite | ExtConnector (e : cexn) | ExtOk (l : list conn).

(** the arguments of the Connector calls (connector.py:2703-2708, 2738-2748),
    angles in radians *)
Definition forced_args (pos1 : V3) (vec1 : option V3) (md1 : R) (dls : option R) (pos2 : V3) (vec2 : option V3) : cargs :=
  mkArgs pos1 vec1 None None md1 (option_map radians dls) None (Some pos2) vec2 None None true (1 / 100000) true.

(** connector.py:2688-2696 _extend_tvd *)
Definition extend_misfit (pos vec : V3) (target_tvd delta_md : R) : option R :=
  Some (Rabs (vz (vadd pos (vscale delta_md vec)) - target_tvd)).
Definition last_tvd (l : list node) : option R :=
  match last (map Some l) None with
  | None => None
  | Some n => match n_pos_nev n with None => None | Some p => Some (vz p) end
  end.
(** connector.py:2711-2721 the inner _drop_off: drop_off with its default
    tolerance 1e-5 *)
Definition extend_drop_misfit (mini : minimizer2) (target_inc target_tvd dls : R) (n : node) (delta_md : R) : option R :=
  match drop_off mini target_inc dls (Some delta_md) (Some n) (1 / 100000) with
  | DropNodes l => option_map (fun t => Rabs (t - target_tvd)) (last_tvd l)
  | _ => None
  end.

(** connector.py:2650-2748 extend_to_tvd.  [bump] is the random number used by
    Connector. *)
Definition extend_to_tvd (bump : V3) (mini2 : minimizer2) (mini1 : minimizer1) (target_tvd : R) (n : option node)
    (delta_md target_inc dls : option R) : extend_result :=
  let n := with_md (match n with None => empty_node | Some n => n end) in
  let delta_md' := match delta_md with None => 1 / 100000000 | Some d => d end in
  match target_inc with
  | None =>
      match n_pos_nev n, n_vec_nev n with
      | Some p, Some v =>
          match mini1 (extend_misfit p v target_tvd) delta_md' 0 with
          | None => ExtOptimiser
          | Some x =>
              let pos2 := vadd p (vscale x v) in
              match connector bump (forced_args p (Some v) (md_of n) dls pos2 None) with
              | inr e => ExtConnector e
              | inl c => ExtOk [c]
              end
          end
      | _, _ => ExtTypeError
      end
  | Some ti =>
      let dls := match dls with None => 5 / 2 | Some d => d end in
      match n_pos_nev n with
      | None => ExtTypeError
      | Some p =>
          match mini1 (extend_drop_misfit mini2 ti target_tvd dls n) delta_md' (Rmin (target_tvd - vz p) delta_md') with
          | None => ExtOptimiser
          | Some x =>
              match drop_off mini2 ti dls (Some x) (Some n) (1 / 100000) with
              | DropValueError => ExtOptimiser
              | DropNotFinite => ExtNotFinite
              | DropNodes [] => ExtNotFinite
              | DropNodes (n2 :: r) =>
                  match connector bump (forced_args p (n_vec_nev n) (md_of n) (Some dls) (node_pos n2) (n_vec_nev n2)) with
                  | inr e => ExtConnector e
                  | inl c =>
                      match r with
                      | [] => ExtOk [c]
                      | n3 :: _ =>
                          (* node_end of the first connection: the direction is normalised *)
                          match normalised (k_vec_target c) with
                          | None => ExtNotFinite
                          | Some u =>
                              match connector bump (forced_args (k_pos_target c) (Some u) (k_md_target c) (Some dls) (node_pos n3) None) with
                              | inr e => ExtConnector e
                              | inl c2 => ExtOk [c; c2]
                              end
                          end
                      end
                  end
              end
          end
      end
  end.
