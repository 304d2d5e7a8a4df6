(** Model of welleng/torque_drag.py: the soft-string force recursion, section
    look-up, buoyancy and the hook-load grids. *)
Require Import Reals ZArith Bool String List.
Require Import Verif.Base Verif.NumPy Verif.M_Architecture.
Import ListNotations.
Open Scope R_scope.

(** welleng/torque_drag.py:156-162 get_inc_average *)
Definition inc_average (inc : list R) : list R :=
  match inc with [] => [] | _ => 0 :: pairwise (fun a b => (b + a) / 2) inc end.
(** welleng/torque_drag.py:164-167 get_inc_delta and 169-174 get_azi_delta *)
Definition delta0 (l : list R) : list R :=
  match l with [] => [] | _ => 0 :: pairwise (fun a b => b - a) l end.

(** welleng/torque_drag.py:309-344 force_normal, one load case *)
Definition force_normal1 (ft inc_avg inc_delta azi_delta w : R) : R :=
  sqrt ((ft * azi_delta * sin inc_avg) * (ft * azi_delta * sin inc_avg)
        + (ft * inc_delta + w * sin inc_avg) * (ft * inc_delta + w * sin inc_avg)).
(** ... on the array (pickup, slackoff, rotating) *)
Definition force_normal (ft : V3) (inc_avg inc_delta azi_delta w : R) : V3 :=
  mkV (force_normal1 (vx ft) inc_avg inc_delta azi_delta w)
      (force_normal1 (vy ft) inc_avg inc_delta azi_delta w)
      (force_normal1 (vz ft) inc_avg inc_delta azi_delta w).
(** welleng/torque_drag.py:347-376 force_tension_delta *)
Definition force_tension_delta (w inc_avg mu : R) (fn : V3) : V3 :=
  mkV (w * cos inc_avg + mu * vx fn * 1) (w * cos inc_avg + mu * vy fn * -1)
      (w * cos inc_avg + mu * vz fn * 0).
(** welleng/torque_drag.py:379-402 torsion_delta *)
Definition torsion_delta (mu fn radius : R) : R := mu * fn * radius.
(** welleng/torque_drag.py:405-422 buoyancy_factor *)
Definition buoyancy_factor (fluid_density string_density : R) : ext :=
  ediv (string_density - fluid_density) string_density.

(** one row of the zip at welleng/torque_drag.py:252-259 *)
Record row := mkRw { w_inc : R; w_dinc : R; w_dazi : R; w_weight : R; w_mu : R; w_radius : R }.
(** zip: stops at the shortest *)
Fixpoint zip6 (a b c d e f : list R) : list row :=
  match a, b, c, d, e, f with
  | x1 :: a, x2 :: b, x3 :: c, x4 :: d, x5 :: e, x6 :: f => mkRw x1 x2 x3 x4 x5 x6 :: zip6 a b c d e f
  | _, _, _, _, _, _ => []
  end.
(** welleng/torque_drag.py:260-275 the loop body, collecting ft and tn *)
Fixpoint accumulate (ft : V3) (tn : R) (rows : list row) : list (V3 * R) :=
  match rows with
  | [] => []
  | r :: rest =>
    let fn := force_normal ft (w_inc r) (w_dinc r) (w_dazi r) (w_weight r) in
    let ft' := vadd ft (force_tension_delta (w_weight r) (w_inc r) (w_mu r) fn) in
    let tn' := tn + torsion_delta (w_mu r) (vz fn) (w_radius r) in
    (ft', tn') :: accumulate ft' tn' rest
  end.

Definition truthy_R (x : R) : bool := if Req_EM_T x 0 then false else true.

(** welleng/torque_drag.py:225-296 get_forces_and_torsion: the entries it writes
    to self.tension and self.torque; wob, tob, overpull are 0 when not given
    (False, None and 0 are all falsy).  None = AssertionError. *)
Definition get_forces_and_torsion
  (inc_avg inc_delta azi_delta weight mu radius : list R) (index : nat) (wob tob overpull : R)
  : option (list (string * list R) * list (string * list R)) :=
  if (truthy_R wob || truthy_R tob) && negb (truthy_R tob && truthy_R wob) then None else
  let ft0 := if truthy_R wob || truthy_R tob then mkV 0 (- wob) (- wob) else vzero in
  let tn0 := if truthy_R wob || truthy_R tob then tob else 0 in
  let ft1 := if truthy_R overpull then mkV overpull (vy ft0) (vz ft0) else ft0 in
  let rows := zip6 (rev (firstn index inc_avg)) (rev (firstn index inc_delta))
                   (rev (firstn index azi_delta)) (rev weight) (rev (firstn index mu)) radius in
  let acc := accumulate ft1 tn0 rows in
  let ft := tl (rev (ft1 :: map fst acc)) in
  let tn := tl (rev (tn0 :: map snd acc)) in
  Some ((if truthy_R wob
         then [("drilling"%string, map vz ft); ("sliding"%string, map vy ft)]
         else [("slackoff"%string, map vy ft); ("rotating"%string, map vz ft)])
        ++ [((if truthy_R overpull then "overpull" else "pickup")%string, map vx ft)],
        [((if truthy_R tob then "drilling" else "rotating")%string, tn)]).

(** ** Section look-up.  A python value as far as the look-up needs it *)
Inductive pyval := PyInt (n : nat) | PyDict (s : section).
Inductive pyexn := TypeError | PyKeyError.
(** v['bottom'] *)
Definition subscript_bottom (v : pyval) : R + pyexn :=
  match v with
  | PyInt _ => inr TypeError
  | PyDict s => match s_bottom s with Some b => inl b | None => inr PyKeyError end
  end.
Fixpoint comprehension {A B} (f : A -> B + pyexn) (l : list A) : list B + pyexn :=
  match l with
  | [] => inl []
  | x :: r => match f x with
              | inr e => inr e
              | inl y => match comprehension f r with inl ys => inl (y :: ys) | inr e => inr e end
              end
  end.
(** iterating over a dict yields its keys *)
Definition iterate {A} (d : list (nat * A)) : list pyval := map (fun kv => PyInt (fst kv)) d.
(** welleng/torque_drag.py:199 and 215: bottoms = np.array([s['bottom'] for s in
    sections]), the first statement of get_weight_buoyed_and_radius and of
    get_coeff_friction_sliding that can fail.  The rest of the two functions is
    not modelled. *)
Definition section_bottoms (s : str) : list R + pyexn :=
  comprehension subscript_bottom (iterate (a_sections s)).

(** ** HookLoad grids *)
(** np.arange(start, stop, step) for step <> 0: ceil((stop-start)/step) values *)
Definition arange (start stop step : R) : list R :=
  map (fun i => start + INR i * step) (seq 0 (Z.to_nat (- rfloor (- ((stop - start) / step))))).
(** welleng/torque_drag.py:475-484 get_ff_range *)
Definition ff_range (start stop step : R) : list R := arange start stop step ++ [stop].
(** welleng/torque_drag.py:489-492 the depths at which the string is placed *)
Definition md_range (top bottom step : R) : list R := arange (top + step) bottom step ++ [bottom].

(** welleng/torque_drag.py:80-102 TorqueDrag.__init__ as far as its outcome:
    [prepare] stands for lines 83-94 (extra survey stations, index of the string's
    bottom, buoyancy factors, angle differences), which either succeed or raise
    and do not change the keys of the two section dictionaries; [forces] stands
    for everything after the two section look-ups. *)
Inductive td_exn := NotComplete | Raised (e : pyexn) | Other.
Definition torque_drag_init {A} (prepare : option td_exn) (wellbore string_ : str)
  (forces : list R -> list R -> A + td_exn) : A + td_exn :=
  if negb (a_complete wellbore) then inr NotComplete
  else if negb (a_complete string_) then inr NotComplete
  else match prepare with
  | Some e => inr e
  | None => match section_bottoms string_ with
            | inr e => inr (Raised e)
            | inl bs => match section_bottoms wellbore with
                        | inr e => inr (Raised e)
                        | inl ws => forces bs ws
                        end
            end
  end.
