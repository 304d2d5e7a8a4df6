(** Vocabulary for the string (casing, BHA, wellbore) properties. *)
Require Import Reals Bool String List.
Require Import Verif.M_Architecture.
Import ListNotations.
Open Scope R_scope.

(** the section dictionaries carry exactly these (top, bottom) depths *)
Definition spans (vs : list section) (ivs : list (R * R)) : Prop :=
  Forall2 (fun v iv => s_top v = Some (fst iv) /\ s_bottom v = Some (snd iv)) vs ivs.

(** the intervals cover [lo,hi] in order, each starting where the last ended *)
Fixpoint tiles (lo hi : R) (ivs : list (R * R)) : Prop :=
  match ivs with
  | [] => lo = hi
  | (t, b) :: r => t = lo /\ t <= b /\ tiles b hi r
  end.

(** no section is upside down *)
Definition upright (s : str) : Prop :=
  forall k v t b, In (k, v) (a_sections s) -> s_top v = Some t -> s_bottom v = Some b -> t <= b.

(** [s] is reached from [s0] by calls of add_section none of which raised, and
    [P] held after every call *)
Inductive reached (P : str -> Prop) (s0 : str) : list section -> str -> Prop :=
| reached_start : reached P s0 [] s0
| reached_call : forall calls s kw s', reached P s0 calls s ->
    add_section s kw = (s', None) -> P s' -> reached P s0 (calls ++ [kw]) s'.

Definition anything (s : str) : Prop := True.

Fixpoint rsum (l : list R) : R := match l with [] => 0 | x :: r => x + rsum r end.

(** the call gives a positive length and no other geometry, its keywords are
    distinct, and the class's required keywords are there *)
Definition sized_call (c : cls) (kw : section) (len : R) : Prop :=
  s_length kw = Some len /\ 0 < len /\ s_top kw = None /\ s_bottom kw = None /\
  NoDup (map fst (s_other kw)) /\
  (c = WellBore -> In "id"%string (map fst (s_other kw)) /\
                   In "coeff_friction_sliding"%string (map fst (s_other kw))).

(** the keywords a section is stored with: a BHA section without a density gets
    that of steel *)
Definition with_defaults (c : cls) (kw : section) : section :=
  match c with
  | BHA => if has_key "density" (s_other kw) then kw
           else mkSec (s_top kw) (s_bottom kw) (s_length kw) (s_other kw ++ [("density"%string, PNum (785/100))])
  | _ => kw
  end.

(** the depth reached after stacking [lens] up from [bottom], clipped at [top] *)
Definition stacked (top bottom : R) (lens : list R) : R := Rmax top (bottom - rsum lens).

(** what a sequence of add_section calls raises, carrying on after exceptions *)
Fixpoint attempts (s : str) (calls : list section) : list (option exn) :=
  match calls with
  | [] => []
  | kw :: r => let (s', e) := add_section s kw in e :: attempts s' r
  end.
