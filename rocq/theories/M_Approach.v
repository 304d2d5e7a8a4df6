(** Model of the option closest_approach of Connector (welleng/connector.py:143, 391,
    493-508 and 573-599).  Numbers are exact reals; None = nan. *)
Require Import Reals Bool String List.
Require Import Verif.Base Verif.M_Utils Verif.M_Connector.
Open Scope R_scope.

(** connector.py:580-581 factor = c / u; factor /= abs(factor), one component: the quotient of
    a number by zero is inf or nan, and so is what follows *)
Definition factor (c u : R) : option R :=
  if Req_EM_T u 0 then None
  else let f := c / u in if Req_EM_T f 0 then None else Some (f / Rabs f).
(** connector.py:584 cross_product * factor * radius, one component *)
Definition offset (c u r : R) : option R :=
  match factor c u with Some f => Some (c * f * r) | None => None end.
(** connector.py:573-585 the point [cc] *)
Definition approach_centre (pos1 vec1 target : V3) (r : R) : option V3 :=
  match normalised (vsub target pos1) with
  | None => None
  | Some u =>
      match normalised (cross u vec1) with
      | None => None
      | Some c =>
          match offset (vx c) (vx u) r, offset (vy c) (vy u) r, offset (vz c) (vz u) r with
          | Some x, Some y, Some z => Some (vadd pos1 (mkV x y z))
          | _, _, _ => None
          end
      end
  end.
(** connector.py:587-592 the new target *)
Definition approach_target (pos1 vec1 target : V3) (r : R) : option V3 :=
  match approach_centre pos1 vec1 target r with
  | None => None
  | Some cc =>
      match normalised (vsub target cc) with
      | None => None
      | Some w => Some (vadd cc (vscale r w))
      end
  end.
(** connector.py:573-599 _closest_approach; [bump'] is drawn by the second call of
    _get_distances.  An infinite design radius gives nan. *)
Definition do_closest_approach (bump' : V3) (radius_design : option R) (pos1 vec1 : V3) (md1 : R) (target : V3) : option conn :=
  match radius_design with
  | None => None
  | Some r =>
      match approach_target pos1 vec1 target r with
      | None => None
      | Some q =>
          let '(q', ds) := get_distances bump' pos1 vec1 q in
          do_min_curve_to_target radius_design ds pos1 vec1 md1 q'
      end
  end.
(** connector.py:493-508 the last branch of _use_method *)
Definition do_curve_hold_or_approach (closest : bool) (bump bump' : V3) (min_error : R) (radius_design : option R)
    (pos1 vec1 : V3) (md1 : R) (pos_target : V3) : option conn :=
  let '(target, ds) := get_distances bump pos1 vec1 pos_target in
  if radius_le radius_design (get_radius_critical ds min_error)
  then match radius_design with Some r => do_min_dist r ds pos1 vec1 md1 target | None => None end
  else if closest then do_closest_approach bump' radius_design pos1 vec1 md1 target
  else do_min_curve_to_target radius_design ds pos1 vec1 md1 target.
(** connector.py:117-419 and 480-508: Connector(..., closest_approach=closest) *)
Definition approach_connector (closest : bool) (bump bump' : V3) (a : cargs) : conn + cexn :=
  match check_args a with
  | Some e => inr e
  | None =>
      match get_method a with
      | inr e => inr e
      | inl m =>
          if String.eqb m "hold" then do_hold a
          else if String.eqb m "min_curve" then do_min_curve a
          else if String.eqb m "curve_hold_curve" then inr SolverOutcome
          else match a_pos2 a with
               | None => inr NaNResult
               | Some p =>
                   match do_curve_hold_or_approach closest bump bump' (a_min_error a) (radius_design a)
                           (a_pos1 a) (start_vec a) (a_md1 a) p with
                   | Some c => inl c
                   | None => inr NaNResult
                   end
               end
      end
  end.
