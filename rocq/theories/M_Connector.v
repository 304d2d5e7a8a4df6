(** Model of welleng/connector.py and welleng/node.py, and of the parts of
    welleng/survey.py that interpolate through connectors.

    Numbers are exact reals.  A radius that numpy holds as inf is [None] in an
    [option R]; a vector that numpy would fill with nan is [None] in an
    [option V3].  The damped fixed-point solver
    minimize_target_pos_and_vec_defined (connector.py:1320-1524) is not modelled:
    it appears as an arbitrary function of the connector's state.  The scipy
    minimisations inside drop_off and extend_to_tvd are not modelled either. *)
Require Import Reals ZArith Bool String List Lra Lia.
Require Import Verif.Base Verif.NumPy Verif.M_Utils Verif.M_Survey Verif.M_Torque Verif.M_Clearance.
Import ListNotations.
Open Scope R_scope.

(** ** numpy helpers *)
(** np.allclose(a, b) on rows of three: |a - b| <= atol + rtol * |b| for each
    component, with the default rtol = 1e-5 and atol = 1e-8. *)
Definition rtol : R := 1 / 100000.
Definition atol : R := 1 / 100000000.
Definition close (a b : R) : Prop := Rabs (a - b) <= atol + rtol * Rabs b.
Definition allclose (a b : V3) : Prop :=
  close (vx a) (vx b) /\ close (vy a) (vy b) /\ close (vz a) (vz b).
Definition close_dec (a b : R) : {close a b} + {~ close a b} := Rle_dec _ _.
Definition allclose_dec (a b : V3) : {allclose a b} + {~ allclose a b}.
Proof.
  unfold allclose.
  destruct (close_dec (vx a) (vx b)), (close_dec (vy a) (vy b)), (close_dec (vz a) (vz b));
    (left; tauto) || (right; tauto).
Defined.
(** np.array_equal on rows of three *)
Definition v3_eq_dec (a b : V3) : {a = b} + {a <> b}.
Proof.
  destruct a as [a1 a2 a3], b as [b1 b2 b3].
  destruct (Req_EM_T a1 b1), (Req_EM_T a2 b2), (Req_EM_T a3 b3);
    (left; congruence) || (right; congruence).
Defined.
(** v / np.linalg.norm(v); None = nan *)
Definition normalised (v : V3) : option V3 :=
  if Req_EM_T (norm v) 0 then None else Some (vunit v).

(** ** Geometry *)
(** connector.py:1527-1547 check_dogleg *)
Definition check_dogleg (d : R) : R := if Rlt_dec d 0 then d + 2 * PI else d.
(** connector.py:1550-1570 mod_vec, the vector only *)
Definition mod_vec (v : V3) (error : R) : V3 :=
  vunit (mkV (vx v) (vy v) (vz v * (1 - error))).
(** connector.py:1573-1594 get_pos *)
Definition get_pos (pos1 vec1 vec2 : V3) (dist_curve func_dogleg : R) : V3 :=
  vadd pos1 (vscale (dist_curve * func_dogleg / 2) (vadd vec1 vec2)).
(** connector.py:1664-1702 get_curve_hold_data and shape_factor *)
Definition get_curve_hold_data (radius dogleg : R) : R * R := (radius * dogleg, get_rf dogleg).
(** connector.py:1597-1661 get_vec_target on one row; None = nan *)
Definition get_vec_target (pos1 vec1 pos_target : V3) (tangent_length dist_curve func_dogleg : R)
  : option V3 :=
  let half := dist_curve * func_dogleg / 2 in
  let denom := half + tangent_length in
  if Req_EM_T dist_curve 0 then Some vec1
  else if Req_EM_T denom 0 then None
  else normalised (vscale (/ denom) (vsub (vsub pos_target pos1) (vscale half vec1))).
(** the distances that drive every connection: straight-line distance, component
    along the start direction, component perpendicular to it *)
Definition distances := (R * R * R)%type.
(** connector.py:1293-1318 the second half of _get_distances.  The square root of
    a difference that is never negative in exact arithmetic. *)
Definition dist_triple (pos1 vec1 pos_target : V3) : distances :=
  let delta := vsub pos_target pos1 in
  let d := norm delta in
  let p := dot delta vec1 in
  let p' := if Rlt_dec d p then d else p in
  (d, p', sqrt (d ^ 2 - p' ^ 2)).
(** connector.py:1276-1318 _mod_pos and _get_distances.  [bump] is what
    np.random.random(3) returned.  The first component is the target array after
    the call: _mod_pos adds to it in place, so the caller's target moves. *)
Definition get_distances (bump pos1 vec1 pos_target : V3) : V3 * distances :=
  let target :=
    match normalised (vsub pos_target pos1) with
    | Some u => if v3_eq_dec vec1 u then vadd pos_target bump else pos_target
    | None => pos_target
    end in
  (target, if allclose_dec pos1 target then (0, 0, 0) else dist_triple pos1 vec1 target).
(** connector.py:1800-1837 min_dist_to_target; None = nan (the square root of a
    negative numpy number) *)
Definition min_dist_to_target (radius : R) (ds : distances) : option (R * R) :=
  let '(d, p, n) := ds in
  let q := d ^ 2 - 2 * radius * n in
  if Rlt_dec q 0 then None
  else let t := sqrt q in Some (t, 2 * arctan2 (p - t) (2 * radius - n)).
(** connector.py:1840-1900 min_curve_to_target: tangent length, critical radius
    (None = inf), dogleg *)
Definition min_curve_to_target (ds : distances) : R * option R * R :=
  let '(d, p, n) := ds in
  if Req_EM_T d 0 then (0, None, 0)     (* distances == (0, 0, 0) *)
  else (0, (if Req_EM_T n 0 then None else Some (d ^ 2 / (2 * n))), 2 * arctan2 n p).
(** connector.py:1903-1945 get_radius_critical (the radius argument is unused) *)
Definition get_radius_critical (ds : distances) (min_error : R) : R :=
  let '(d, _, n) := ds in
  if Req_EM_T n 0 then 0 else d ^ 2 / (2 * n) * (1 - min_error).
(** python's min of a radius that may be inf and a radius that may be inf *)
Definition rmin_inf (a b : option R) : option R :=
  match a, b with
  | None, _ => b
  | _, None => a
  | Some x, Some y => Some (Rmin x y)
  end.
(** radius <= other, with None = inf *)
Definition radius_le (a : option R) (b : R) : bool :=
  match a with Some x => if Rle_dec x b then true else false | None => false end.

(** ** A solved connection *)
(** The attributes of a Connector that callers read.  [k_dist_curve] etc. keep
    the values of the last section computed. *)
Inductive method := Hold | MinDistToTarget | MinCurveToTarget | CurveHoldCurve | MinCurve.
Record conn := mkConn {
  k_method : method;
  k_pos1 : V3; k_vec1 : V3; k_md1 : R;
  k_pos_target : V3; k_vec_target : V3; k_md_target : R;
  k_pos2 : option V3; k_md2 : option R;
  k_tangent : R; k_dogleg : R; k_dist_curve : R; k_func : R
}.

(** connector.py:432-458 _min_dist_to_target; None = nan *)
Definition do_min_dist (radius : R) (ds : distances) (pos1 vec1 : V3) (md1 : R) (target : V3)
  : option conn :=
  match min_dist_to_target radius ds with
  | None => None
  | Some (t, dl) =>
      let dogleg := check_dogleg dl in
      let '(dc, fd) := get_curve_hold_data radius dogleg in
      match get_vec_target pos1 vec1 target t dc fd with
      | None => None
      | Some v =>
          Some (mkConn MinDistToTarget pos1 vec1 md1 target v (md1 + Rabs dc + t)
                  (Some (vsub target (vscale t v))) (Some (md1 + Rabs dc)) t dogleg dc fd)
      end
  end.

(** connector.py:460-478 _min_curve_to_target.  None = nan; a product inf * 0 is
    nan as well. *)
Definition do_min_curve_to_target (radius_design : option R) (ds : distances)
    (pos1 vec1 : V3) (md1 : R) (target : V3) : option conn :=
  let '(t, rc, dl) := min_curve_to_target ds in
  let dogleg := check_dogleg dl in
  match rmin_inf radius_design rc with
  | None => None
  | Some r =>
      let '(dc, fd) := get_curve_hold_data r dogleg in
      match get_vec_target pos1 vec1 target t dc fd with
      | None => None
      | Some v =>
          Some (mkConn MinCurveToTarget pos1 vec1 md1 target v (dc + t + 0 + md1)
                  None None t dogleg dc fd)
      end
  end.

(** connector.py:493-508 the last branch of _use_method (method curve_hold),
    closest_approach=False *)
Definition do_curve_hold (bump : V3) (min_error : R) (radius_design : option R)
    (pos1 vec1 : V3) (md1 : R) (pos_target : V3) : option conn :=
  let '(target, ds) := get_distances bump pos1 vec1 pos_target in
  match radius_design with
  | Some r =>
      if Rle_dec r (get_radius_critical ds min_error)
      then do_min_dist r ds pos1 vec1 md1 target
      else do_min_curve_to_target radius_design ds pos1 vec1 md1 target
  | None => do_min_curve_to_target None ds pos1 vec1 md1 target
  end.

(** ** Construction and dispatch *)
(** np.around(x, decimals) compared for equality: rint (half to even) of the
    scaled value *)
Definition around (decimals : nat) (x : R) : Z := rint (x * 10 ^ decimals).

(** exceptions, with the line that raises *)
Inductive cexn :=
| AssertionError_start | AssertionError_target | AssertionError_vec | AssertionError_md
| AssertionError_dls | AssertionError_error | AssertionError_method
| TypeError_hold | ValueError_dls | SolverOutcome | NaNResult.

(** the arguments of Connector.__init__ (connector.py:117-140) in radians
    (degrees=False), without nodes: see [node_args] *)
Record cargs := mkArgs {
  a_pos1 : V3; a_vec1 : option V3; a_inc1 : option R; a_azi1 : option R; a_md1 : R;
  a_dls : option R;
  a_md2 : option R; a_pos2 : option V3; a_vec2 : option V3;
  a_inc2 : option R; a_azi2 : option R;
  a_meters : bool; a_min_error : R; a_force : bool
}.
Definition given {A : Type} (o : option A) : bool := match o with Some _ => true | None => false end.

(** python truthiness of an optional number: [inc2 or azi2] *)
Definition truthy (o : option R) : bool :=
  match o with Some x => if Req_EM_T x 0 then false else true | None => false end.

(** connector.py:227-264 the assertions, in order *)
Definition check_args (a : cargs) : option cexn :=
  if negb (given (a_vec1 a) || (given (a_inc1 a) && given (a_azi1 a)))%bool
  then Some AssertionError_start
  else if (given (a_vec1 a) && (given (a_inc1 a) || given (a_azi1 a)))%bool
  then Some AssertionError_start
  else if negb (given (a_md2 a) || given (a_pos2 a) || given (a_vec2 a)
                || given (a_inc2 a) || given (a_azi2 a))%bool
  then Some AssertionError_target
  else if (given (a_vec2 a) && (truthy (a_inc2 a) || truthy (a_azi2 a)))%bool
  then Some AssertionError_vec
  else if ((given (a_inc2 a) || given (a_azi2 a)) && given (a_vec2 a))%bool
  then Some AssertionError_vec
  else if (given (a_md2 a) && given (a_pos2 a))%bool then Some AssertionError_md
  else if (match a_md2 a with
           | Some m => if Rle_dec (a_md1 a) m then false else true
           | None => false
           end) then Some AssertionError_md
  else if (match a_dls a with
           | Some d => if Rlt_dec 0 d then false else true
           | None => false
           end) then Some AssertionError_dls
  else if (if Rlt_dec (a_min_error a) 1 then false else true) then Some AssertionError_error
  else None.

(** connector.py:2336-2354 convert_target_input_to_booleans *)
Definition bit (b : bool) : string := if b then "1" else "0".
Definition target_input (a : cargs) : string :=
  (bit (given (a_md2 a)) ++ bit (given (a_inc2 a)) ++ bit (given (a_azi2 a))
   ++ bit (given (a_pos2 a)) ++ bit (given (a_vec2 a)))%string.

(** connector.py:535-571 _get_initial_methods *)
Definition initial_methods : list (string * string) := [
  ("00000", "no_input"); ("00001", "min_curve_or_hold"); ("00010", "curve_hold_or_hold");
  ("00011", "curve_hold_curve_or_hold"); ("00100", "min_curve_or_hold");
  ("00101", "vec_and_inc_azi"); ("00110", "curve_hold"); ("00111", "vec_and_inc_azi");
  ("01000", "min_curve_or_hold"); ("01001", "vec_and_inc_azi"); ("01010", "curve_hold_or_hold");
  ("01011", "vec_and_inc_azi"); ("01100", "min_curve_or_hold"); ("01101", "vec_and_inc_azi");
  ("01110", "curve_hold_curve_or_hold"); ("01111", "vec_and_inc_azi"); ("10000", "hold");
  ("10001", "min_curve_or_hold"); ("10010", "md_and_pos"); ("10011", "md_and_pos");
  ("10100", "min_curve_or_hold"); ("10101", "vec_and_inc_azi"); ("10110", "md_and_pos");
  ("10111", "md_and_pos"); ("11000", "min_curve_or_hold"); ("11001", "vec_and_inc_azi");
  ("11010", "md_and_pos"); ("11011", "md_and_pos"); ("11100", "min_curve_or_hold");
  ("11101", "vec_and_inc_azi"); ("11110", "md_and_pos"); ("11111", "md_and_pos") ]%string.
Fixpoint lookup (k : string) (l : list (string * string)) : option string :=
  match l with
  | [] => None
  | (a, b) :: r => if String.eqb a k then Some b else lookup k r
  end.
(** connector.py:271-275 *)
Definition initial_method (a : cargs) : option string :=
  if a_force a then Some "min_curve_or_hold"%string
  else lookup (target_input a) initial_methods.

(** connector.py:294-344 the start and target directions (radians).
    get_vec with nev=True is [direction] *)
Definition start_vec (a : cargs) : V3 :=
  match a_inc1 a, a_azi1 a with
  | Some i, Some z => get_vec true 1 i z
  | _, _ => match a_vec1 a with Some v => v | None => vzero end
  end.
Definition start_angles (a : cargs) : R * R :=
  match a_inc1 a, a_azi1 a with
  | Some i, Some z => (i, z)
  | _, _ => get_angles true (start_vec a)
  end.
Definition target_angles (a : cargs) : R * R :=
  match a_vec2 a with
  | Some v => get_angles true v
  | None => (match a_inc2 a with Some i => i | None => fst (start_angles a) end,
             match a_azi2 a with Some z => z | None => snd (start_angles a) end)
  end.
Definition target_vec0 (a : cargs) : V3 :=
  match a_vec2 a with
  | Some v => v
  | None =>
      match a_inc2 a, a_azi2 a with
      | None, None => start_vec a
      | _, _ => get_vec true 1 (fst (target_angles a)) (snd (target_angles a))
      end
  end.
(** connector.py:400-408 a target direction exactly opposite to the start is
    nudged by mod_vec *)
Definition target_vec (a : cargs) : V3 :=
  if v3_eq_dec (target_vec0 a) (vneg (start_vec a))
  then mod_vec (target_vec0 a) (a_min_error a) else target_vec0 a.
Definition target_angles' (a : cargs) : R * R :=
  if v3_eq_dec (target_vec0 a) (vneg (start_vec a))
  then get_angles true (target_vec a) else target_angles a.

(** connector.py:357-380 design radius; None = inf *)
Definition radius_design (a : cargs) : option R :=
  match a_dls a with
  | None => None
  | Some d => Some ((if a_meters a then 30 else 100) / d)
  end.

(** connector.py:510-533 _get_method: the last eight characters decide *)
Definition ends_or_hold (m : string) : bool :=
  String.eqb (String.substring (String.length m - 8) 8 m) "_or_hold".
Definition drop_or_hold (m : string) : string := String.substring 0 (String.length m - 8) m.
Definition get_method (a : cargs) : string + cexn :=
  match initial_method a with
  | None => inr AssertionError_method     (* KeyError: unreachable, the table is total *)
  | Some m =>
      if (String.eqb m "no_input" || String.eqb m "vec_and_inc_azi" || String.eqb m "md_and_pos")%bool
      then inr AssertionError_method
      else if String.eqb m "hold" then inl "hold"%string
      else if ends_or_hold m then
        if v3_eq_dec (target_vec a) (start_vec a) then
          match a_pos2 a with
          | None => inl "hold"%string
          | Some p =>
              match normalised (vsub p (a_pos1 a)) with
              | Some u => if allclose_dec (target_vec a) u then inl "hold"%string
                          else inl (drop_or_hold m)
              | None => inl (drop_or_hold m)        (* comparison with nan *)
              end
          end
        else inl (drop_or_hold m)
      else inl m
  end.

(** connector.py:673-683 _hold *)
Definition do_hold (a : cargs) : conn + cexn :=
  match a_pos2 a, a_md2 a with
  | Some p, Some m => inl (mkConn Hold (a_pos1 a) (start_vec a) (a_md1 a) p (target_vec a) m
                             None None 0 0 0 0)
  | Some p, None =>
      inl (mkConn Hold (a_pos1 a) (start_vec a) (a_md1 a) p (target_vec a)
             (norm (vsub p (a_pos1 a)) + a_md1 a) None None 0 0 0 0)
  | None, Some m =>
      inl (mkConn Hold (a_pos1 a) (start_vec a) (a_md1 a)
             (vadd (a_pos1 a) (vscale (m - a_md1 a) (start_vec a))) (target_vec a) m
             None None 0 0 0 0)
  | None, None => inr TypeError_hold           (* None - md1 *)
  end.

(** connector.py:601-671 _min_curve *)
Definition do_min_curve (a : cargs) : conn + cexn :=
  let v1 := start_vec a in
  let vt := target_vec a in
  let '(i1, z1) := start_angles a in
  let '(i2, z2) := target_angles' a in
  let dogleg := check_dogleg (get_dogleg i1 z1 i2 z2) in
  match a_md2 a with
  | None =>
      match radius_design a with
      | None => inr ValueError_dls
      | Some r =>
          let '(dc, fd) := get_curve_hold_data r dogleg in
          inl (mkConn MinCurve (a_pos1 a) v1 (a_md1 a) (get_pos (a_pos1 a) v1 vt dc fd) vt
                 (a_md1 a + Rabs dc) None None 0 dogleg dc fd)
      end
  | Some md =>
      (* abs((md - md1) / dogleg); 0/0 is replaced by inf *)
      let rc := if Req_EM_T dogleg 0 then None else Some (Rabs ((md - a_md1 a) / dogleg)) in
      let split :=
        match rc, radius_design a with
        | None, Some _ => true
        | Some c, Some r => if Rlt_dec r c then true else false
        | _, None => false
        end in
      if (split || Z.eqb (around 5 dogleg) (around 5 PI))%bool then
        match rmin_inf (radius_design a) rc with
        | None => inr NaNResult
        | Some r =>
            let '(dc, fd) := get_curve_hold_data r dogleg in
            let pos2 := get_pos (a_pos1 a) v1 vt dc fd in
            let md2 := a_md1 a + r * dogleg in
            inl (mkConn MinCurve (a_pos1 a) v1 (a_md1 a)
                   (vadd pos2 (vscale (md - md2) vt)) vt md
                   (Some pos2) (Some md2) (md - md2) dogleg dc fd)
        end
      else
        match rc with
        | None => inr NaNResult
        | Some c =>
            let '(dc, fd) := get_curve_hold_data c dogleg in
            inl (mkConn MinCurve (a_pos1 a) v1 (a_md1 a) (get_pos (a_pos1 a) v1 vt dc fd) vt
                   md None None 0 dogleg dc fd)
        end
  end.

(** connector.py:117-419 Connector.__init__ and 480-508 _use_method.  A
    curve-hold-curve connection depends on the solver: SolverOutcome. *)
Definition connector (bump : V3) (a : cargs) : conn + cexn :=
  match check_args a with
  | Some e => inr e
  | None =>
      match get_method a with
      | inr e => inr e
      | inl m =>
          if String.eqb m "hold" then do_hold a
          else if String.eqb m "min_curve" then do_min_curve a
          else if String.eqb m "curve_hold_curve" then inr SolverOutcome
          else match a_pos2 a with
               | None => inr NaNResult          (* unreachable: curve_hold always has pos2 *)
               | Some p =>
                   match do_curve_hold bump (a_min_error a) (radius_design a)
                           (a_pos1 a) (start_vec a) (a_md1 a) p with
                   | Some c => inl c
                   | None => inr NaNResult
                   end
               end
      end
  end.

(** ** Nodes *)
(** node.py:45-140 Node: position, direction and depth; None where not given.
    node.py:140-157 get_node_params returns the three in NEV axes. *)
Record node := mkNode {
  n_pos_nev : option V3; n_pos_xyz : option V3;
  n_vec_nev : option V3; n_vec_xyz : option V3;
  n_inc_rad : option R; n_azi_rad : option R; n_md : option R
}.
(** get_nev and get_xyz with both origins at zero swap the first two components
    (M_Utils) *)
Definition nev_of (v : V3) : V3 := get_nev v vzero vzero.
Definition xyz_of (v : V3) : V3 := get_xyz v vzero vzero.
(** node.py:84-140 (degrees=False).  None = AssertionError (one angle without
    the other) or a zero direction *)
Definition make_node (pos vec : option V3) (inc azi md : option R) (nev : bool) : option node :=
  let dirs :=
    match vec, inc, azi with
    | None, None, None => Some None
    | None, Some i, Some z => let x := get_vec false 1 i z in Some (Some (nev_of x, x))
    | None, _, _ => None
    | Some v, _, _ =>
        match normalised v with
        | None => None
        | Some u => if nev then Some (Some (u, xyz_of u)) else Some (Some (nev_of u, u))
        end
    end in
  match dirs with
  | None => None
  | Some d =>
      let pn := match pos with None => None | Some p => Some (if nev then p else nev_of p) end in
      let px := match pos with None => None | Some p => Some (if nev then xyz_of p else p) end in
      Some (mkNode pn px
              (option_map fst d) (option_map snd d)
              (option_map (fun x => fst (get_angles false (snd x))) d)
              (option_map (fun x => snd (get_angles false (snd x))) d) md)
  end.
(** connector.py:202-209: a node argument replaces position, direction and depth *)
Definition with_nodes (n1 n2 : option node) (a : cargs) : option cargs :=
  match n1 with
  | Some n =>
      match n_pos_nev n, n_md n with
      | Some p, Some m =>
          Some (mkArgs p (n_vec_nev n) (a_inc1 a) (a_azi1 a) m (a_dls a)
                  (match n2 with Some k => n_md k | None => a_md2 a end)
                  (match n2 with Some k => n_pos_nev k | None => a_pos2 a end)
                  (match n2 with Some k => n_vec_nev k | None => a_vec2 a end)
                  (a_inc2 a) (a_azi2 a) (a_meters a) (a_min_error a) (a_force a))
      | _, _ => None
      end
  | None =>
      Some (mkArgs (a_pos1 a) (a_vec1 a) (a_inc1 a) (a_azi1 a) (a_md1 a) (a_dls a)
              (match n2 with Some k => n_md k | None => a_md2 a end)
              (match n2 with Some k => n_pos_nev k | None => a_pos2 a end)
              (match n2 with Some k => n_vec_nev k | None => a_vec2 a end)
              (a_inc2 a) (a_azi2 a) (a_meters a) (a_min_error a) (a_force a))
  end.

(** ** Interpolation of the solved sections *)
(** connector.py:2031-2040 and 2112-2121: the offsets from the section start.
    A step of None gives the section start only. *)
Definition offsets (md1 len : R) (step : option R) (endpoint : bool) : list R :=
  (match step with
   | None => [0]
   | Some s => 0 :: arange (s - rmod md1 s) len s
   end) ++ (if endpoint then [len] else []).
(** connector.py:2048-2066 the direction after turning through [t] *)
Definition rodrigues (vec1 vec2 : V3) (t : R) : V3 :=
  let c := cross vec1 vec2 in
  if Rlt_dec (norm c) (1 / 10000000000) then vec1
  else
    let in_plane := cross (vscale (/ norm c) c) vec1 in
    vunit (vadd (vscale (cos t) vec1) (vscale (sin t) in_plane)).
(** connector.py:1981-2084 interpolate_curve: (depth, direction) rows *)
Definition interpolate_curve (md1 : R) (vec1 vec2 : V3) (dist_curve dogleg : R)
    (step : option R) (endpoint : bool) : list (R * V3) :=
  if Req_EM_T dist_curve 0 then [(md1, vec1)]
  else map (fun x => (x + md1, rodrigues vec1 vec2 (dogleg / dist_curve * x)))
           (offsets md1 (Rabs dist_curve) step endpoint).
(** connector.py:2087-2132 interpolate_hold *)
Definition interpolate_hold (md1 : R) (vec1 : V3) (md2 : R) (step : option R) (endpoint : bool)
  : list (R * V3) :=
  map (fun x => (x + md1, vec1)) (offsets md1 (md2 - md1) step endpoint).
(** connector.py:2135-2165, 2168-2200, 2203-2232, 2235-2277 the section
    interpolators of the methods that are modelled, and 1948-1978
    interpolate_well.  The direction of the hold of a split section is that of
    the target. *)
Definition interpolate_section (c : conn) (step : option R) : list (R * V3) :=
  match k_method c, k_md2 c with
  | Hold, _ => interpolate_hold (k_md1 c) (k_vec1 c) (k_md_target c) step true
  | MinCurveToTarget, _ =>
      interpolate_curve (k_md1 c) (k_vec1 c) (k_vec_target c) (k_dist_curve c) (k_dogleg c) step true
  | MinDistToTarget, Some m2 =>
      interpolate_curve (k_md1 c) (k_vec1 c) (k_vec_target c) (k_dist_curve c) (k_dogleg c) step false
      ++ interpolate_hold m2 (k_vec_target c) (k_md_target c) step true
  | MinCurve, None =>
      interpolate_curve (k_md1 c) (k_vec1 c) (k_vec_target c) (k_dist_curve c) (k_dogleg c) step true
  | MinCurve, Some m2 =>
      interpolate_curve (k_md1 c) (k_vec1 c) (k_vec_target c) (k_dist_curve c) (k_dogleg c) step false
      ++ interpolate_hold m2 (k_vec_target c) (k_md_target c) step true
  | _, _ => []
  end.
Definition interpolate_well (cs : list conn) (step : option R) : list (R * V3) :=
  flat_map (fun c => interpolate_section c step) cs.

(** welleng/survey.py:2622-2700 from_connections, up to the Survey constructor:
    the rows (depth, direction) with the flag `interpolated`.  The [decimals]
    argument is not passed on: _remove_duplicates always rounds to 4 places.
    Python stores inclination and azimuth of the direction; None = IndexError. *)
Definition md_key (x : R) : Z := around 4 x.
Definition mds_ref (cs : list conn) : list R := flat_map (fun c => [k_md1 c; k_md_target c]) cs.
Definition rmem (x : R) (l : list R) : bool :=
  existsb (fun y => if Req_EM_T x y then true else false) l.
Definition from_connections (cs : list conn) (step : option R) : option (list (R * V3 * bool)) :=
  match remove_duplicates (fun row => md_key (fst row)) (interpolate_well cs step) with
  | None => None
  | Some rows => Some (map (fun row => (row, negb (rmem (fst row) (mds_ref cs)))) rows)
  end.

(** welleng/survey.py:2703-2760 interpolate_survey: a chain of forced
    minimum-curvature connectors.  A station is (md, inc, azi) in radians.
    [dls] is the design curvature (1e-8). *)
Definition leg (dls : R) (pos1 v1 : V3) (md1 : R) (st : R * R * R) : conn + cexn :=
  let '(md2, inc2, azi2) := st in
  connector vzero
    (mkArgs pos1 (Some v1) None None md1 (Some dls) (Some md2) None
       (Some (nev_of (get_vec false 1 inc2 azi2))) None None true (1 / 100000) true).
Fixpoint legs (dls : R) (pos1 v1 : V3) (md1 : R) (l : list (R * R * R)) : list conn + cexn :=
  match l with
  | [] => inl []
  | st :: r =>
      match leg dls pos1 v1 md1 st with
      | inr e => inr e
      | inl c =>
          match legs dls (k_pos_target c) (k_vec_target c) (k_md_target c) r with
          | inr e => inr e
          | inl cs => inl (c :: cs)
          end
      end
  end.
Definition survey_legs (dls : R) (start_nev : V3) (svy : list (R * R * R)) : list conn + cexn :=
  match svy with
  | [] => inl []
  | (md, inc, azi) :: r => legs dls start_nev (nev_of (get_vec false 1 inc azi)) md r
  end.
(** survey.py:2757-2765: the interpolated rows with `md in survey.md` *)
Definition interpolate_survey (dls : R) (start_nev : V3) (svy : list (R * R * R)) (step : R)
  : option (list (R * V3 * bool)) :=
  match survey_legs dls start_nev svy with
  | inr _ => None
  | inl cs =>
      match from_connections cs (Some step) with
      | None => None
      | Some rows =>
          Some (map (fun r => (fst r, negb (rmem (fst (fst r)) (map (fun s => fst (fst s)) svy)))) rows)
      end
  end.
