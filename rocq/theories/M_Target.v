(** Model of welleng/target.py (with vedo installed) and of the way
    welleng/exchange/wbp.py turns a plan into a survey. *)
Require Import Reals ZArith String List Bool.
Require Import Verif.Base.
Import ListNotations.
Open Scope R_scope.

Inductive target_exn := AssertionFailed | KeyMissing | Unbound.
(** the keyword arguments left over, with distinct names; the values are kept as they are *)
Definition kwargs (V : Type) := list (string * V).
(** target.py:100-104 GEOMETRY[shape]; None = KeyError *)
Definition geometry_keys (shape : string) : option (list string) :=
  if String.eqb shape "rectangle" then Some ["pos1"; "pos2"]%string
  else if String.eqb shape "circle" then Some ["radius"]%string
  else if String.eqb shape "ellipse" then Some ["radius_1"; "radius_2"; "res"]%string
  else None.
Definition contains (l : list string) (x : string) : bool := existsb (String.eqb x) l.
(** set(a) == set(b) *)
Definition same_set (a b : list string) : bool := (forallb (contains b) a && forallb (contains a) b)%bool.
(** target.py:44-121: the attributes *)
Record target (V : Type) := mkTarget {
  g_name : string; g_n : R; g_e : R; g_tvd : R; g_shape : string; g_orientation : R; g_dip : R; g_geometry : kwargs V }.
Arguments mkTarget {V}. Arguments g_name {V}. Arguments g_n {V}. Arguments g_e {V}. Arguments g_tvd {V}.
Arguments g_shape {V}. Arguments g_orientation {V}. Arguments g_dip {V}. Arguments g_geometry {V}.
Definition Target {V : Type} (name : string) (n e tvd : R) (shape : string) (orientation dip : R) (geometry : kwargs V) : target V + target_exn :=
  if contains ["circle"; "ellipse"; "rectangle"; "polygon"]%string shape then
    match geometry_keys shape with
    | None => inr KeyMissing
    | Some keys => if same_set (map fst geometry) keys then inl (mkTarget name n e tvd shape orientation dip geometry) else inr AssertionFailed
    end
  else inr AssertionFailed.
(** target.py:123-150 plot_data.  [circle] stands for vedo's Circle at the position
    with the radius, turned; Unbound = UnboundLocalError of `return g` *)
Definition plot_data {V G : Type} (circle : V3 -> V -> R -> R -> G) (t : target V) : G + target_exn :=
  let pos := mkV (g_n t) (g_e t) (g_tvd t) in
  if String.eqb (g_shape t) "circle" then
    match find (fun kv => String.eqb (fst kv) "radius") (g_geometry t) with
    | None => inr KeyMissing
    | Some kv => inl (circle pos (snd kv) (g_dip t) (g_orientation t))
    end
  else inr Unbound.

(** ** exchange/wbp.py:641-752 wbp_to_survey *)
(** a step of a plan: its depth and angles in degrees, its position (east, north,
    up), and the dog leg severity if it is a TurnPoint *)
Record wbp_step := mkWs { ws_md : R; ws_inc : R; ws_azi : R; ws_location : R * R * R; ws_dls : option R }.
(** where the run ends without a survey *)
Inductive plan_exn := NameMissing | NothingToStack | ConnectorFails | FirstSurveyFails | NoLatLon | NotAConnection.
(** wbp.py:696-701 dls_design *)
Definition design_dls (s : wbp_step) : R :=
  match ws_dls s with Some d => if Rlt_dec 0 d then d else / 10 ^ 5 | None => / 10 ^ 5 end.
(** p = np.array([n, e, v * -1]) *)
Definition step_position (s : wbp_step) : V3 := let '(e, n, v) := ws_location s in mkV n e (v * -1).
Section Plan.
  (** a Connector: None if its constructor raises; its target position, angles in
      degrees and depth.  The survey of the connections: None if from_connections
      raises.  The coordinates: None if utm.to_latlon raises.  What these do is not
      modelled here (M_Connector, M_Survey) *)
  Variables (conn surv : Type).
  Variable connector : V3 -> R -> R -> R -> R -> R -> R -> R -> option conn.
  Variable target_of : conn -> V3 * R * R * R.
  Variable survey_of : list conn -> option surv.
  Variable latlon : V3 -> option (R * R).
  (** wbp.py:703-720, for the steps from the third: [p m i a] is the last position,
      depth, inclination and azimuth *)
  Fixpoint connect (p : V3) (m i a : R) (steps : list wbp_step) : option (list conn) :=
    match steps with
    | [] => Some []
    | s :: r =>
      match connector p m i a (ws_md s) (ws_inc s) (ws_azi s) (design_dls s) with
      | None => None
      | Some c => let '(p', m', i', a') := target_of c in option_map (cons c) (connect p' m' i' a' r)
      end
    end.
  (** what from_connections is given: a list of connections, or a survey, which
      becomes the list of that survey (survey.py:2655-2656) *)
  Inductive sections := Connections (l : list conn) | OneSurvey (s : surv).
  (** survey.py:2659-2671: s.md1 of every section (a Survey has no md1), then
      np.vstack of what the sections give *)
  Definition from_connections (x : sections) : surv + plan_exn :=
    match x with
    | OneSurvey _ => inr NotAConnection
    | Connections [] => inr NothingToStack
    | Connections l => match survey_of l with Some s => inl s | None => inr FirstSurveyFails end
    end.
  (** wbp.py:666-752; strip_duplicates (M_Wbp) would follow *)
  Definition wbp_to_survey (strip : surv -> surv) (steps : list wbp_step) : surv + plan_exn :=
    match steps with
    | [] | [_] => inr NameMissing
    | _ :: s :: r =>
      match connect (step_position s) (ws_md s) (ws_inc s) (ws_azi s) r with
      | None => inr ConnectorFails
      | Some l =>
        match from_connections (Connections l) with
        | inr e => inr e
        | inl data =>
          match latlon (step_position s) with
          | None => inr NoLatLon
          | Some _ => match from_connections (OneSurvey data) with inl t => inl (strip t) | inr e => inr e end
          end
        end
      end
    end.
End Plan.
