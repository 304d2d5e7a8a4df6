(** Model of welleng/connector.py:2357-2542: connect_points, survey_to_plan and
    _get_section. *)
Require Import Reals ZArith Bool String List Arith.
Require Import Verif.Base Verif.NumPy Verif.M_Utils Verif.M_Connector.
Import ListNotations.
Open Scope R_scope.

(** ** connect_points *)
(** conversion of a float to an integer array: towards zero *)
Definition truncated (x : R) : R := if Rle_dec 0 x then IZR (Int_part x) else - IZR (Int_part (- x)).
(** connector.py:2385-2392: the directions are stored in an array of the type of
    the points, so with integer points they are truncated *)
Definition stored_vec (integers : bool) (v : V3) : V3 :=
  if integers then mkV (truncated (vx v)) (truncated (vy v)) (truncated (vz v)) else v.
(** connector.py:2394-2397: a python float fills an array as long as the points;
    anything else (an int, a numpy number, a list) is turned into an array *)
Inductive severity := SevFloat (d : R) | SevOther (l : list R).
Definition severities (n : nat) (s : severity) : list R :=
  match s with SevFloat d => repeat d n | SevOther l => l end.

(** IndexError for no points; a zero direction (nan); an exception of Connector;
    the AssertionError of connector.py:2418 *)
Inductive points_result := PtIndexError | PtNotFinite | PtConnector (e : cexn) | PtAssertion | PtOk (l : list conn).
(** connector.py:2413-2417: the arguments of a Connector from a node to a position,
    dls in degrees per 30 m, in radians here *)
Definition to_point (p u : V3) (m : R) (q : V3) (d : R) : cargs :=
  mkArgs p (Some u) None None m (Some (radians d)) None (Some q) None None None true (1 / 100000) false.
(** connector.py:2400-2419 the loop from its second turn; [bump k] is the random
    number of the k-th Connector.  node_end normalises the direction
    (connector.py:423-427, node.py:106-116). *)
Fixpoint points_loop (bump : nat -> V3) (k : nat) (p u : V3) (m : R) (l : list (V3 * R)) : points_result :=
  match l with
  | [] => PtOk []
  | (q, d) :: r =>
      match connector (bump k) (to_point p u m q d) with
      | inr e => PtConnector e
      | inl c =>
          match normalised (k_vec_target c) with
          | None => PtNotFinite
          | Some v =>
              if allclose_dec (k_pos_target c) q then
                match points_loop bump (S k) (k_pos_target c) v (k_md_target c) r with
                | PtOk cs => PtOk (c :: cs)
                | e => e
                end
              else PtAssertion
          end
      end
  end.
(** connector.py:2357-2421 connect_points.  [integers]: the points are integers.
    zip stops with the shorter of points and severities. *)
Definition connect_points (bump : nat -> V3) (points : list V3) (integers : bool) (vec_start : V3) (dls : severity)
    (nev : bool) (md_start : R) : points_result :=
  let pos := if nev then points else map nev_of points in
  let vec := stored_vec integers (if nev then vec_start else nev_of vec_start) in
  match pos with
  | [] => PtIndexError
  | _ =>
      match combine pos (severities (List.length pos) dls) with
      | [] => PtOk []
      | (p, _) :: r =>
          match normalised vec with
          | None => PtNotFinite
          | Some u => points_loop bump 0 p u md_start r
          end
      end
  end.

(** ** survey_to_plan *)
(** What Connector and the survey drawn from it do is left open: [N] are nodes,
    [C] connections.  [join a j] is the Connector from node a to station j of the
    survey (None: it raises); [score c s j] is the score of connection c against
    stations s .. j-1 (None: nan). *)
Inductive scan_result (C : Type) := ScanRaised | ScanUnbound | ScanStop (c : C) (next : nat).
Arguments ScanRaised {C}.
Arguments ScanUnbound {C}.
Arguments ScanStop {C} c next.
(** connector.py:2529 abs(delta_scores[-1]) >= tolerance, false for nan *)
Definition over (tol : R) (a b : option R) : bool :=
  match a, b with
  | Some x, Some y => if Rle_dec tol (Rabs (y - x)) then true else false
  | _, _ => false
  end.
(** connector.py:2499-2542 the loop over the stations [js] and the result; [n] is
    the number of stations, [s] the start.  A loop without a turn leaves i
    unbound. *)
Fixpoint scan {N C : Type} (join : N -> nat -> option C) (score : C -> nat -> nat -> option R) (tol : R) (n s : nat)
    (node : N) (last : option R) (old : option C) (js : list nat) : scan_result C :=
  match js with
  | [] => ScanUnbound
  | j :: r =>
      match join node j with
      | None => ScanRaised
      | Some c =>
          let sc := score c s j in
          let old' := match old with None => c | Some o => o end in
          if (over tol last sc && (j <? n - 2)%nat)%bool then ScanStop old' (if (j =? n - 1)%nat then j else j - 1)%nat
          else if (j =? n - 1)%nat then ScanStop c j
          else scan join score tol n s node sc (Some c) r
      end
  end.
(** connector.py:2481-2542 _get_section *)
Definition get_section {N C : Type} (join : N -> nat -> option C) (score : C -> nat -> nat -> option R) (tol : R) (n s : nat)
    (node : N) : scan_result C :=
  let idx := (s + 2)%nat in
  let idx := if (n <? idx)%nat then (n - 1)%nat else idx in
  scan join score tol n s node (Some 0) None (seq idx (n - idx)).

Inductive plan_result (C : Type) := PlanAssertion | PlanIndexError | PlanUnbound | PlanRaised | PlanEndless | PlanOk (l : list C).
Arguments PlanAssertion {C}.
Arguments PlanIndexError {C}.
Arguments PlanUnbound {C}.
Arguments PlanRaised {C}.
Arguments PlanEndless {C}.
Arguments PlanOk {C} l.
(** connector.py:2461-2474 the while loop; [fuel] bounds its turns (PlanEndless when
    they run out) *)
Fixpoint plan_loop {N C : Type} (join : N -> nat -> option C) (score : C -> nat -> nat -> option R) (ends : C -> N) (tol : R) (n fuel s : nat)
    (node : N) : plan_result C :=
  match fuel with
  | O => PlanEndless
  | S fuel =>
      match get_section join score tol n s node with
      | ScanRaised => PlanRaised
      | ScanUnbound => PlanUnbound
      | ScanStop c i =>
          if (n - 1 <=? i)%nat then PlanOk [c]
          else match plan_loop join score ends tol n fuel i (ends c) with
               | PlanOk l => PlanOk (c :: l)
               | e => e
               end
      end
  end.
(** connector.py:2424-2478 survey_to_plan of a survey with [n] stations; [first] is
    the node at the first station *)
Definition survey_to_plan {N C : Type} (join : N -> nat -> option C) (score : C -> nat -> nat -> option R) (ends : C -> N)
    (first : N) (n : nat) (tol dls_design : R) : plan_result C :=
  if Rlt_dec 0 dls_design then
    match n with
    | O => PlanIndexError
    | _ => plan_loop join score ends tol n n 0 first
    end
  else PlanAssertion.
