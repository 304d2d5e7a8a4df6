(** Model of welleng/node.py, of the nodes of a connection (connector.py:417-427)
    and of the nodes of a survey (survey.py:1781-1806). *)
Require Import Reals ZArith Bool String List.
Require Import Verif.Base Verif.NumPy Verif.M_Utils Verif.M_Survey Verif.M_Connector.
Import ListNotations.
Local Open Scope R_scope.

(** node.py:45-138 Node(pos, vec, md, inc, azi, degrees=, nev=): [make_node]
    (M_Connector) with the conversion of utils.py:178-181 in get_vec.  unit, cov_nev
    and further keywords are only stored and are left out. *)
Definition Node (pos vec : option V3) (md inc azi : option R) (degs nev : bool) : option node :=
  let conv (x : R) := if degs then radians x else x in
  make_node pos vec (option_map conv inc) (option_map conv azi) md nev.
(** an attribute that was never assigned, or its value *)
Inductive attribute := AttributeError | Attr (x : option R).
(** node.py:96-103 and 118-123: without a direction inc_deg is None and azi_deg is
    never assigned (azi_rad is assigned twice) *)
Definition n_inc_deg (n : node) : attribute := Attr (option_map degrees (n_inc_rad n)).
Definition n_azi_deg (n : node) : attribute :=
  match n_azi_rad n with None => AttributeError | Some a => Attr (Some (degrees a)) end.
(** node.py:143-162 get_node_params *)
Definition get_node_params (n : node) : option V3 * option V3 * option R := (n_pos_nev n, n_vec_nev n, n_md n).

(** connector.py:418-422 and 423-427: the nodes of a connection *)
Definition node_start (c : conn) : option node := Node (Some (k_pos1 c)) (Some (k_vec1 c)) (Some (k_md1 c)) None None true true.
Definition node_end (c : conn) : option node := Node (Some (k_pos_target c)) (Some (k_vec_target c)) (Some (k_md_target c)) None None true true.

(** python's l[i]: negative numbers count from the end; None = IndexError *)
Definition item {A} (l : list A) (i : Z) : option A :=
  let n := Z.of_nat (List.length l) in
  if (Z.ltb i (- n) || Z.leb n i)%bool then None
  else nth_error l (Z.to_nat (if Z.ltb i 0 then i + n else i)).
(** survey.py:1781-1806 get_node; vec_nev is survey.py:876-881.  None = IndexError *)
Definition get_node (s : survey) (i : Z) : option node :=
  match item (sv_nev s) i, item (sv_rows s) i with
  | Some p, Some a =>
      Node (Some p) (Some (get_vec true 1 (st_inc a) (st_azi a))) (Some (st_md a)) None None true true
  | _, _ => None
  end.
